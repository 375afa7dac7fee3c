(** C03, C08, C09, C38: distributions over ranks. *)
From Verif Require Import Py Spec DimensionModel DimensionSpec DistModel DistSpec DistProofs ScatterProofs.

(** C03.  [outs] is what every rank ends up with, [parts] the chosen dimension
    on every rank.  Partial: with more than one rank the dimension must have at
    least [min_elements] elements, see the refutation. *)
Theorem C03_update_dimension_bounds_partial : forall size min_elements dims,
  1 <= size -> 1 <= min_elements ->
  existsb d_dist dims = true ->
  (forall d, In d dims -> 0 <= dim_len d) ->
  exists dd, LongestDistributed dims dd /\
    forall whole, Represents dd whole -> d_empty dd = false -> whole <> [] -> size = 1 \/ min_elements <= zlen whole ->
    exists outs parts ls,
      map_res (fun r => update_group size min_elements r dims) (zrange 0 size) = Ok outs /\
      Parts whole parts ls /\
      Forall (fun d => d_name d = d_name dd /\ d_dist d = true /\
                (d_empty d = false -> (1 < size -> min_elements <= dim_len d) /\ SameKind (d_src dd) (d_src d))) parts /\
      Forall2 (fun out part => Forall2 (fun d d' => if String.eqb (d_name d) (d_name dd) then d' = part
                                                    else OnlyUndistributed d d') dims out) outs parts.
Proof. exact update_group_spec. Qed.
Print Assumptions C03_update_dimension_bounds_partial.

(** A second update raises. *)
Theorem C03_second_update_raises : forall od me od',
  update_dimension_bounds od me = Ok od' -> forall me', update_dimension_bounds od' me' = Err ValueError.
Proof. exact update_second_raises. Qed.
Print Assumptions C03_second_update_raises.

Definition case_dims : list dim :=
  [mkdim "time" (Some 4) (Some 4) None true false None None;
   mkdim "x" (Some 11) (Some 11) (Some (SrcBounds 20 31)) true false None None;
   mkdim "z" (Some 30) (Some 30) None false false None None].

Example C03_case :
  existsb d_dist case_dims = true /\
  choose_distributed case_dims = Some (mkdim "x" (Some 11) (Some 11) (Some (SrcBounds 20 31)) true false None None) /\
  (do o <- map_res (fun r => update_group 6 2 r case_dims) (zrange 0 6);
   Ok (map (map (fun d => (d_name d, d_src d, d_dist d, bounds_local d))) o)) =
   Ok (map (fun p : Z * Z => [("time"%string, None, false, (0, 4)); 
            ("x"%string, (if fst p =? snd p then None else Some (SrcBounds (20 + fst p) (20 + snd p))), true, p);
            ("z"%string, None, false, (0, 30))])
       [(0, 3); (3, 5); (5, 7); (7, 9); (9, 11); (0, 0)]).
Proof. vm_compute. repeat split. Qed.

(** C03 refuted: a distributed dimension shorter than [min_elements] is given to
    no rank at all. *)
Theorem C03_update_dimension_bounds_refuted :
  exists size me dd whole outs,
    1 <= size /\ 1 <= me /\ d_dist dd = true /\ Represents dd whole /\ whole <> [] /\ d_empty dd = false /\
    map_res (fun r => update_group size me r [dd]) (zrange 0 size) = Ok outs /\
    forall out d, In out outs -> In d out -> d_empty d = true /\ dim_len d = 0.
Proof.
  exists 2, 2, (mkdim "x" (Some 1) (Some 1) None true false None None), [0],
    (repeat [mkdim "x" (Some 0) (Some 0) None true true (Some (0, 0)) (Some (0, 0))] 2).
  repeat (split; [(vm_compute; congruence) || (split; reflexivity)|]).
  intros out d [<-|[<-|[]]] [<-|[]]; split; reflexivity.
Qed.
Print Assumptions C03_update_dimension_bounds_refuted.

(** C08: distribute, scatter, gather on the ranks that hold something. *)
Theorem C08_scatter_gather : forall A size min_elements dims whole dd (v : var A),
  1 <= size -> 1 <= min_elements -> existsb d_dist dims = true -> (forall d, In d dims -> 0 <= dim_len d) ->
  choose_distributed dims = Some dd -> Represents dd whole -> d_empty dd = false -> whole <> [] ->
  size = 1 \/ min_elements <= zlen whole ->
  d_dist (v_dim v) = false -> zlen (v_vals v) = zlen whole ->
  match v_mask v with None => True | Some m => zlen m = zlen (v_vals v) end ->
  exists outs parts scattered v',
    map_res (fun r => update_group size min_elements r dims) (zrange 0 size) = Ok outs /\
    Forall2 (fun out p => In p out /\ d_name p = d_name dd /\ d_dist p = true) outs parts /\
    variable_scatter v parts = Ok scattered /\
    zlen scattered = size /\
    variable_gather (filter (fun s => nonempty (v_dim s)) scattered) = Ok v' /\
    v_vals v' = map Some (v_vals v) /\ v_mask v' = v_mask v /\
    Represents (v_dim v') whole /\ SameKind (d_src dd) (d_src (v_dim v')) /\ d_dist (v_dim v') = false.
Proof. exact @distribute_scatter_gather. Qed.
Print Assumptions C08_scatter_gather.

(** C08 for any distribution of the dimension in consecutive pieces, however it
    came about. *)
Theorem C08_scatter_gather_any_parts : forall A (v : var A) src whole parts ls,
  d_dist (v_dim v) = false -> whole <> [] -> Parts whole parts ls ->
  zlen (v_vals v) = zlen whole ->
  match v_mask v with None => True | Some m => zlen m = zlen (v_vals v) end ->
  Forall (fun d => d_empty d = false -> SameKind src (d_src d)) parts ->
  match src with Some (SrcBounds _ _) => exists a b, whole = zrange a b | _ => True end ->
  exists scattered v',
    variable_scatter v parts = Ok scattered /\
    Forall2 (fun s d => v_dim s = d /\ zlen (v_vals s) = dim_len d) scattered parts /\
    variable_gather (filter (fun s => nonempty (v_dim s)) scattered) = Ok v' /\
    v_vals v' = map Some (v_vals v) /\ v_mask v' = v_mask v /\
    Represents (v_dim v') whole /\ SameKind src (d_src (v_dim v')) /\ d_dist (v_dim v') = false.
Proof. exact @scatter_gather_spec. Qed.
Print Assumptions C08_scatter_gather_any_parts.

Definition case_var : var Z :=
  mkvar (mkdim "x" (Some 5) (Some 5) None false false None None) [7; 8; 9; 10; 11] (Some [true; false; false; true; false]).

Example C08_case :
  let dd := mkdim "x" (Some 5) (Some 5) (Some (SrcFancy [3; 4; 9; 1; 0])) true false None None in
  choose_distributed [dd] = Some dd /\ Represents dd [3; 4; 9; 1; 0] /\
  (do o <- map_res (fun r => update_group 4 2 r [dd]) (zrange 0 4);
   do sc <- variable_scatter case_var (concat o);
   do g <- variable_gather (filter (fun s => nonempty (v_dim s)) sc);
   Ok (map v_vals sc, v_vals g, v_mask g)) =
  Ok ([[7; 8; 9]; [10; 11]; []; []], map Some [7; 8; 9; 10; 11], Some [true; false; false; true; false]).
Proof. vm_compute. repeat split. Qed.

(** C09. *)
Theorem C09_unique_global_array : forall arrs, Forall (fun a => a <> []) arrs ->
  exists outs, create_unique_global_array arrs = Ok outs /\ List.length outs = List.length arrs /\
    (forall r a out, nth_error arrs r = Some a -> nth_error outs r = Some out -> incl out a /\ NoDup out) /\
    (forall x, In x (concat arrs) -> ExactlyOne (In x) outs) /\
    NoDup (concat outs).
Proof. exact create_unique_global_array_spec. Qed.
Print Assumptions C09_unique_global_array.

Example C09_case :
  Forall (fun a => a <> []) [[5; 1; 5]; [2; 5; 3]; [9; 8]; [1; 9; 4]] /\
  create_unique_global_array [[5; 1; 5]; [2; 5; 3]; [9; 8]; [1; 9; 4]] = Ok [[1; 5]; [2; 3]; [8; 9]; [4]].
Proof. split; [repeat constructor; discriminate|reflexivity]. Qed.

(** A rank with no values makes the call raise. *)
Theorem C09_empty_raises : forall arrs, In [] arrs -> create_unique_global_array arrs = Err ValueError.
Proof. exact create_unique_empty_raises. Qed.
Print Assumptions C09_empty_raises.

(** C38.  Partial: a dimension of length one must not be split; and only the
    slices, see the regridding files for what is done with them. *)
Theorem C38_dst_grid_slices_partial : forall ny nx sy sx,
  1 <= ny -> 1 <= sy -> sy = 1 \/ 2 <= ny -> 1 <= nx -> 1 <= sx -> sx = 1 \/ 2 <= nx ->
  exists cells, iter_dst_grid_slices ny nx sy sx None = Ok cells /\ zlen cells = sy * sx /\
    (forall y x, 0 <= y < ny -> 0 <= x < nx -> ExactlyOne (fun c => InChunk c y x) cells) /\
    (forall c y x, In c cells -> InChunk c y x -> 0 <= y < ny /\ 0 <= x < nx) /\
    (forall k, iter_dst_grid_slices ny nx sy sx (Some (Z.of_nat k)) =
       Ok (match nth_error cells k with Some c => [c] | None => [] end)).
Proof. exact iter_dst_grid_slices_spec. Qed.
Print Assumptions C38_dst_grid_slices_partial.

Example C38_case : iter_dst_grid_slices 5 7 2 3 None =
  Ok [((0, 3), (0, 3)); ((0, 3), (3, 5)); ((0, 3), (5, 7)); ((3, 5), (0, 3)); ((3, 5), (3, 5)); ((3, 5), (5, 7))].
Proof. vm_compute. reflexivity. Qed.

(** C38 refuted: a single row asked for in two chunks is in none. *)
Theorem C38_dst_grid_slices_refuted : exists ny nx sy sx cells,
  1 <= ny /\ 1 <= nx /\ 1 <= sy /\ 1 <= sx /\ iter_dst_grid_slices ny nx sy sx None = Ok cells /\
  forall c y x, In c cells -> ~ InChunk c y x.
Proof.
  exists 1, 4, 2, 1, [((0, 0), (0, 4)); ((0, 0), (0, 4))].
  repeat (split; [vm_compute; congruence|]).
  intros c y x [<-|[<-|[]]] [H _]; unfold InIval in H; cbn in H; lia.
Qed.
Print Assumptions C38_dst_grid_slices_refuted.
