(** C31, C38, C39, C40, C64: tiles, regridding chunks and spatial decomposition. *)
From Verif Require Import Py Lib Spec DistModel ChunkModel ChunkSpec ChunkProofs SplitProofs WeightProofs.
From Coq Require Import QArith Lqa.
Open Scope Z_scope.

(** C31.  When every tile can be calculated, each cell of the output holds the
    value of its own cell of the dataset (masked by the spatial mask, if any), for
    every tile size, and is written exactly once. *)
Theorem C31_tiled : forall (V : Type) (exec : Z * Z -> Z * Z -> res (block V)) (hide : V -> V) (cell : Z -> Z -> V)
    flag cb tile_dimension file ro co mask rank nothing,
  CellWise exec cell -> 1 <= tile_dimension -> 0 <= b_rows file -> 0 <= b_cols file -> rank = 3 \/ rank = 4 ->
  (forall r0 r1 c0 c1, 0 <= r0 < r1 -> r1 <= b_rows file -> 0 <= c0 < c1 -> c1 <= b_cols file ->
     exists b, exec (r0 + ro, r1 + ro) (c0 + co, c1 + co) = Ok b) ->
  exists out, compute exec hide flag cb tile_dimension (Ok tt) (Ok file) (Some (Ok (ro, co, mask))) rank nothing = (out, Ok tt) /\
    b_rows (o_file out) = b_rows file /\ b_cols (o_file out) = b_cols file /\
    forall y x, 0 <= y < b_rows file -> 0 <= x < b_cols file ->
      b_at (o_file out) y x = Wanted cell hide ro co mask y x /\ ExactlyOne (InBox y x) (o_writes out).
Proof. exact @tiled. Qed.
Print Assumptions C31_tiled.

(** C31.  Without a geometry nothing is offset or masked. *)
Theorem C31_whole : forall (V : Type) (exec : Z * Z -> Z * Z -> res (block V)) hide flag cb tile_dimension template rank nothing,
  compute exec hide flag cb tile_dimension (Ok tt) template None rank nothing =
  compute exec hide flag cb tile_dimension (Ok tt) template (Some (Ok (0, 0, None))) rank nothing.
Proof. reflexivity. Qed.
Print Assumptions C31_whole.

(** C31.  When a tile raises: the exception is that of a tile not yet written (or
    the refusal of the number of dimensions, with nothing written), cells of
    earlier tiles hold their value, all others what the new file held, and no cell
    was written twice. *)
Theorem C31_failure : forall (V : Type) (exec : Z * Z -> Z * Z -> res (block V)) (hide : V -> V) (cell : Z -> Z -> V)
    flag cb tile_dimension file ro co mask rank nothing,
  CellWise exec cell -> 1 <= tile_dimension -> 0 <= b_rows file -> 0 <= b_cols file ->
  exists out r, compute exec hide flag cb tile_dimension (Ok tt) (Ok file) (Some (Ok (ro, co, mask))) rank nothing = (out, r) /\
    b_rows (o_file out) = b_rows file /\ b_cols (o_file out) = b_cols file /\
    (forall y x, 0 <= y < b_rows file -> 0 <= x < b_cols file ->
      AtMostOne (InBox y x) (o_writes out) /\
      (Exists (InBox y x) (o_writes out) -> b_at (o_file out) y x = Wanted cell hide ro co mask y x) /\
      (~ Exists (InBox y x) (o_writes out) -> b_at (o_file out) y x = b_at file y x) /\
      (r = Ok tt -> Exists (InBox y x) (o_writes out))) /\
    (forall e, r = Err e ->
       (exists r0 r1 c0 c1, 0 <= r0 < r1 /\ r1 <= b_rows file /\ 0 <= c0 < c1 /\ c1 <= b_cols file /\
          exec (r0 + ro, r1 + ro) (c0 + co, c1 + co) = Err e /\ ~ In ((r0, r1), (c0, c1)) (o_writes out)) \/
       (rank <> 3 /\ rank <> 4 /\ e = NotImplementedError /\ o_writes out = [])).
Proof. exact @tiles_or_error. Qed.
Print Assumptions C31_failure.

(** C31.  The environment flag is restored whatever happens: a refused tile size,
    an exception before, while or after the template is written, or in a tile. *)
Theorem C31_flag : forall (V : Type) (exec : Z * Z -> Z * Z -> res (block V)) hide flag cb tile_dimension checks template subset rank nothing,
  o_flag (fst (compute exec hide flag cb tile_dimension checks template subset rank nothing)) = flag.
Proof. exact @flag_restored. Qed.
Print Assumptions C31_flag.

(** C31.  A tile size below one is refused and nothing is written. *)
Theorem C31_refused : forall (V : Type) (exec : Z * Z -> Z * Z -> res (block V)) hide flag cb tile_dimension checks template subset rank nothing,
  tile_dimension <= 0 -> exists out, compute exec hide flag cb tile_dimension checks template subset rank nothing = (out, Err ValueError) /\
    o_writes out = [] /\ o_file out = nothing.
Proof. exact @compute_refused. Qed.
Print Assumptions C31_refused.

Definition case_exec (bad : Z * Z) (row col : Z * Z) : res (block Z) :=
  if (fst row =? fst bad) && (fst col =? snd bad) then Err RuntimeError
  else Ok (mkblock (snd row - fst row) (snd col - fst col) (fun i j => 100 * (fst row + i) + (fst col + j))).
Definition case_mask (y x : Z) : bool := (y =? 1) && (x =? 2).
Definition case_file : block Z := mkblock 5 7 (fun _ _ => -9).
Definition show (o : outcome Z * res unit) : list (list Z) * nat * bool * res unit :=
  (map (fun y => map (b_at (o_file (fst o)) y) (zrange 0 7)) (zrange 0 5), List.length (o_writes (fst o)), o_flag (fst o), snd o).
Lemma case_cellwise bad : CellWise (case_exec bad) (fun y x => 100 * y + x).
Proof. intros row col b H. unfold case_exec in H. destruct (_ && _); [discriminate|]. injection H as <-. split; [reflexivity|]. split; [reflexivity|]. intros i j _ _. reflexivity. Qed.
Example C31_case :
  show (compute (case_exec (-1, -1)) (fun _ => 0) false (Some (CbUser 1)) 3 (Ok tt) (Ok case_file) (Some (Ok (10, 20, Some case_mask))) 3 case_file) =
  ([[1020; 1021; 1022; 1023; 1024; 1025; 1026]; [1120; 1121; 0; 1123; 1124; 1125; 1126]; [1220; 1221; 1222; 1223; 1224; 1225; 1226];
    [1320; 1321; 1322; 1323; 1324; 1325; 1326]; [1420; 1421; 1422; 1423; 1424; 1425; 1426]], 6%nat, false, Ok tt).
Proof. vm_compute. reflexivity. Qed.
Example C31_case_failure :
  show (compute (case_exec (10, 26)) (fun _ => 0) false None 3 (Ok tt) (Ok case_file) (Some (Ok (10, 20, None))) 3 case_file) =
  ([[1020; 1021; 1022; 1023; 1024; 1025; -9]; [1120; 1121; 1122; 1123; 1124; 1125; -9]; [1220; 1221; 1222; 1223; 1224; 1225; -9];
    [-9; -9; -9; -9; -9; -9; -9]; [-9; -9; -9; -9; -9; -9; -9]], 2%nat, false, Err RuntimeError).
Proof. vm_compute. reflexivity. Qed.

(** C64.  Partial: without a callback the operations are as before. *)
Theorem C64_no_callback_partial : forall (V : Type) (exec : Z * Z -> Z * Z -> res (block V)) hide flag tile_dimension checks template subset rank nothing,
  o_callback (fst (compute exec hide flag None tile_dimension checks template subset rank nothing)) = None.
Proof. exact @no_callback_unchanged. Qed.
Print Assumptions C64_no_callback_partial.

(** C64 refuted: whatever happens, a callback is replaced and never put back, also
    when the tile size is refused. *)
Theorem C64_callback_refuted : forall (V : Type) (exec : Z * Z -> Z * Z -> res (block V)) hide flag c tile_dimension checks template subset rank nothing,
  o_callback (fst (compute exec hide flag (Some c) tile_dimension checks template subset rank nothing)) <> Some c.
Proof. exact @callback_replaced. Qed.
Print Assumptions C64_callback_refuted.

Example C64_case : o_callback (fst (compute (case_exec (-1, -1)) (fun _ => 0) false (Some (CbUser 1)) 3 (Ok tt) (Ok case_file) None 3 case_file)) = Some (CbScaled (CbUser 1)) /\
  o_callback (fst (compute (case_exec (-1, -1)) (fun _ => 0) false (Some (CbUser 1)) 0 (Ok tt) (Ok case_file) None 3 case_file)) = Some (CbZero (CbUser 1)).
Proof. vm_compute. split; reflexivity. Qed.

(** C38.  Partial: a dimension of length one must not be split.  Inserting, for the
    chunks of the destination grid, blocks that hold the values of their cells
    gives the whole field; for two dimensions and for each time of three. *)
Theorem C38_reassembled_partial : forall (V : Type) (value : Z -> Z -> V) ny nx sy sx master,
  1 <= ny -> 1 <= sy -> sy = 1 \/ 2 <= ny -> 1 <= nx -> 1 <= sx -> sx = 1 \/ 2 <= nx ->
  b_rows master = ny -> b_cols master = nx ->
  exists cells, iter_dst_grid_slices ny nx sy sx None = Ok cells /\
    forall chunks, Forall2 (fun b c => Holds c value (fst b) (snd b)) cells chunks ->
      exists m, insert_chunks master cells chunks = Ok m /\ b_rows m = ny /\ b_cols m = nx /\
        forall y x, 0 <= y < ny -> 0 <= x < nx -> b_at m y x = value y x.
Proof. exact @reassembled. Qed.
Print Assumptions C38_reassembled_partial.

Theorem C38_reassembled_times_partial : forall (V : Type) (value : Z -> Z -> Z -> V) ny nx sy sx cells,
  1 <= ny -> 1 <= sy -> sy = 1 \/ 2 <= ny -> 1 <= nx -> 1 <= sx -> sx = 1 \/ 2 <= nx ->
  iter_dst_grid_slices ny nx sy sx None = Ok cells ->
  forall masters chunks t0, Forall (fun m => b_rows m = ny /\ b_cols m = nx) masters -> List.length chunks = List.length masters ->
    (forall t cs, nth_error chunks t = Some cs -> Forall2 (fun b c => Holds c (value (t0 + Z.of_nat t)) (fst b) (snd b)) cells cs) ->
    exists ms, insert_times masters cells chunks = Ok ms /\ List.length ms = List.length masters /\
      forall t m, nth_error ms t = Some m -> forall y x, 0 <= y < ny -> 0 <= x < nx -> b_at m y x = value (t0 + Z.of_nat t) y x.
Proof. exact @reassembled_times. Qed.
Print Assumptions C38_reassembled_times_partial.

Definition case_part (b : (Z * Z) * (Z * Z)) : block Z :=
  mkblock (snd (fst b) - fst (fst b)) (snd (snd b) - fst (snd b)) (fun i j => 100 * (fst (fst b) + i) + (fst (snd b) + j)).
Example C38_reassembled_case : exists cells m, iter_dst_grid_slices 4 5 2 2 None = Ok cells /\
  insert_chunks (mkblock 4 5 (fun _ _ => -9)) cells (map case_part cells) = Ok m /\
  map (fun y => map (b_at m y) (zrange 0 5)) (zrange 0 4) =
    [[0; 1; 2; 3; 4]; [100; 101; 102; 103; 104]; [200; 201; 202; 203; 204]; [300; 301; 302; 303; 304]].
Proof.
  exists [((0, 2), (0, 3)); ((0, 2), (3, 5)); ((2, 4), (0, 3)); ((2, 4), (3, 5))]. eexists. split; [vm_compute; reflexivity|].
  split; [reflexivity|vm_compute; reflexivity].
Qed.

(** C39.  The merged file holds the weights of all chunk files that exist, in
    order, each chunk index replaced by the number of the same cell in the whole
    grid. *)
Theorem C39_merged : forall (F : Type) strict (fill : F) dshape sshape sides files,
  Forall2 (FileOk dshape sshape strict) sides files ->
  exists rs cs, create_merged_weight_file strict fill dshape sshape sides files =
      Ok (concat rs, concat cs, concat (map (fun ch => w_S (snd ch)) (present sides files))) /\
    Forall2 (fun ch r => Forall2 (GlobalOf (snd dshape) (fst (fst ch))) (w_row (snd ch)) r) (present sides files) rs /\
    Forall2 (fun ch r => Forall2 (GlobalOf (snd sshape) (snd (fst ch))) (w_col (snd ch)) r) (present sides files) cs.
Proof. exact @merged. Qed.
Print Assumptions C39_merged.

(** C39.  Applying the merged weights to a source field gives each destination cell
    the sum of what the chunks that contain it give for it. *)
Theorem C39_application : forall (F X : Type) (add : X -> X -> X) (zero : X) (mul : F -> X -> X),
  (forall a b c, add a (add b c) = add (add a b) c) -> (forall a, add zero a = a) ->
  forall strict fill dshape sshape sides (files : list (option (weights F))) rows cols S,
  Forall2 (FileOk dshape sshape strict) sides files ->
  create_merged_weight_file strict fill dshape sshape sides files = Ok (rows, cols, S) ->
  forall src g vs, Forall2 (Contribution add zero mul (snd dshape) (snd sshape) g src) (present sides files) vs ->
  apply_row add zero mul rows cols S src g = total add zero vs.
Proof. exact @application. Qed.
Print Assumptions C39_application.

(** C39.  A missing file is refused when [strict]. *)
Theorem C39_strict : forall (F : Type) (fill : F) dshape sshape sides files, In None files ->
  create_merged_weight_file true fill dshape sshape sides files = Err IOError.
Proof. exact @merged_strict. Qed.
Print Assumptions C39_strict.

Definition case_sides : list (side * side) :=
  [(Box (0, 2) (0, 2), Box (0, 1) (0, 3)); (Box (0, 2) (2, 4), Box (0, 2) (1, 3)); (Box (2, 3) (0, 4), Guids [6; 2])].
Definition case_files : list (option (weights Z)) :=
  [Some (mkw (Some 3) [1; 3; 4] [2; 3; 1] [10; 20; 30]); None; Some (mkw (Some 2) [4; 1] [1; 2] [40; 50])].
Example C39_case : Forall2 (FileOk (3, 4) (2, 3) false) case_sides case_files /\
  create_merged_weight_file false 0 (3, 4) (2, 3) case_sides case_files = Ok ([1; 5; 6; 12; 9], [2; 3; 1; 6; 2], [10; 20; 30; 40; 50]).
Proof.
  split; [|vm_compute; reflexivity].
  repeat first [apply Forall2_cons | apply Forall2_nil | reflexivity].
  - split; [cbn; lia|]. split; [cbn; lia|]. split; [reflexivity|]. split; [reflexivity|]. split; [left; reflexivity|]. split; repeat constructor; discriminate.
  - split; [cbn; lia|]. split; [repeat constructor; cbn; intuition discriminate|]. split; [reflexivity|]. split; [reflexivity|]. split; [left; reflexivity|]. split; repeat constructor; discriminate.
Qed.

(** C40.  Without an index all pieces are yielded in order; the boxes number
    [n * m], row by row, with equal widths and heights, and every point of the
    extent is in exactly one, whatever the random jitter. *)
Theorem C40_pieces : forall (R : Type) (get_intersects : qbox -> R) minx miny maxx maxy buffer j0 j1 j2 j3 n m,
  1 <= n -> 1 <= m -> (minx <= maxx)%Q -> (miny <= maxy)%Q ->
  (0 <= j0 < buffer)%Q -> (0 <= j1 < buffer)%Q -> (0 <= j2 < buffer)%Q -> (0 <= j3 < buffer)%Q ->
  exists boxes, iter_spatial_decomposition get_intersects (minx, miny, maxx, maxy) buffer (j0, j1, j2, j3) [n; m] None = Ok (map get_intersects boxes) /\
    zlen boxes = n * m /\
    (forall px py, InExtent px py (minx, miny, maxx, maxy) -> ExactlyOne (InQBox px py) boxes) /\
    (forall k b r c, nth_error boxes k = Some b -> Z.of_nat k = r * m + c -> 0 <= c < m ->
       let w := ((maxx + buffer + j3 - (minx - buffer + j2)) / inject_Z m)%Q in
       let h := ((maxy + buffer + j1 - (miny - buffer + j0)) / inject_Z n)%Q in
       b = (minx - buffer + j2 + inject_Z c * w, miny - buffer + j0 + inject_Z r * h,
            minx - buffer + j2 + inject_Z (c + 1) * w, miny - buffer + j0 + inject_Z (r + 1) * h)%Q).
Proof. exact @decomposition. Qed.
Print Assumptions C40_pieces.

(** C40.  One number splits the rows only. *)
Theorem C40_one_split : forall (R : Type) (f : qbox -> R) extent buffer jitter n y,
  iter_spatial_decomposition f extent buffer jitter [n] y = iter_spatial_decomposition f extent buffer jitter [n; 1] y.
Proof. exact @decomposition_one_split. Qed.
Print Assumptions C40_one_split.

(** C40 refuted: with an index nothing is ever yielded, for no index and no
    decomposition. *)
Theorem C40_index_refuted : forall (R : Type) (f : qbox -> R) extent buffer jitter n m i,
  iter_spatial_decomposition f extent buffer jitter [n; m] (Some i) = Ok [].
Proof. exact @decomposition_index_nothing. Qed.
Print Assumptions C40_index_refuted.

(** C40.  More than two splits are refused. *)
Theorem C40_refused : forall (R : Type) (f : qbox -> R) extent buffer jitter splits y, 3 <= zlen splits ->
  iter_spatial_decomposition f extent buffer jitter splits y = Err AssertionError.
Proof. exact @decomposition_refused. Qed.
Print Assumptions C40_refused.

Example C40_case : exists boxes,
  iter_spatial_decomposition (fun b => b) (0, 0, 8, 4)%Q 1 (0, 1 # 2, 1 # 2, 0)%Q [2; 3] None = Ok boxes /\ zlen boxes = 6 /\
  Forall2 (fun b b' : qbox => let '(a0, a1, a2, a3) := b in let '(b0, b1, b2, b3) := b' in (a0 == b0 /\ a1 == b1 /\ a2 == b2 /\ a3 == b3)%Q)
    (firstn 2 boxes) [(- (1 # 2), -1, 8 # 3, 9 # 4); (8 # 3, -1, 35 # 6, 9 # 4)]%Q.
Proof. eexists. split; [reflexivity|]. split; [reflexivity|]. repeat constructor; reflexivity. Qed.
