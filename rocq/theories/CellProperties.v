(** Properties C134 - C138: cells of structured grids. *)
From Verif Require Import Lib Py PartitionModel NdModel CoordModel EsmfModel CellModel CoordSpec CellSpec CoordProofs BoundsProofs NdProofs SelectProofs CellProofs CellMore CellGeom.
From Coq Require Import Lqa Qabs.
Local Open Scope Z_scope.

(** Arrays for the examples. *)
Definition table (m n : Z) (f : Z -> Z -> Q) : nd Q := mknd [m; n] (fun idx => f (row_of idx) (col_of idx)).
Definition rows_of (c : list Q) (n : Z) : nd Q := table (zlen c) n (fun i _ => nth (Z.to_nat i) c 0%Q).
Lemma rows_of_along c n : AlongRows (rows_of c n) c n.
Proof.
  split; [reflexivity|]. intros i j x _ X. unfold rows_of, table, row_of. cbn [nd_at nth]. rewrite Nat2Z.id. rewrite (nth_error_nth _ _ 0%Q X). reflexivity.
Qed.
Ltac ascend := intros i j x y L X Y; destruct i as [|[|[|[|[|i]]]]], j as [|[|[|[|[|j]]]]]; try lia; cbn in X, Y; try discriminate; try (destruct i; discriminate); try (destruct j; discriminate);
  injection X as <-; injection Y as <-; reflexivity.

(** ** C134.  Extrapolated corners of a grid of cell centres. *)
Theorem C134_inner_corners : forall t arr m n o, nd_shape arr = [m; n] -> 2 <= m -> 2 <= n ->
  set_extrapolated_bounds t false (Some (C2 arr)) = Ok (Some (B2 o)) ->
  nd_shape o = [m; n; 4] /\ CornersAgree m n o /\
  forall i j, 0 <= i -> i + 1 < m -> 0 <= j -> j + 1 < n ->
    nd_at o [i; j; 2] = store t ((nd_at arr [i; j] + nd_at arr [i; (j + 1)%Z] + nd_at arr [(i + 1)%Z; j] + nd_at arr [(i + 1)%Z; (j + 1)%Z]) / 4)%Q.
Proof. exact array_inner. Qed.
Print Assumptions C134_inner_corners.
Theorem C134_defined : forall t arr m n, nd_shape arr = [m; n] -> 1 <= m -> 1 <= n ->
  (m = 1 /\ n = 1 -> set_extrapolated_bounds t false (Some (C2 arr)) = Err SingleElementError) /\
  (2 <= m \/ 2 <= n -> exists o, set_extrapolated_bounds t false (Some (C2 arr)) = Ok (Some (B2 o)) /\ nd_shape o = [m; n; 4]) /\
  set_extrapolated_bounds t true (Some (C2 arr)) = Err BoundsAlreadyAvailableError.
Proof. exact array_defined. Qed.
Print Assumptions C134_defined.
(** Evenly spaced centres, also of a turned grid: every corner is half a step away from
    the centre in both directions. *)
Theorem C134_even : forall arr m n a p q o, Even arr m n a p q -> 2 <= m -> 2 <= n ->
  set_extrapolated_bounds Float false (Some (C2 arr)) = Ok (Some (B2 o)) ->
  forall i j, 0 <= i < m -> 0 <= j < n ->
    let y k := (a + (inject_Z i + k) * p)%Q in let x k := ((inject_Z j + k) * q)%Q in
    (nd_at o [i; j; 0%Z] == y (- (1#2)) + x (- (1#2)))%Q /\ (nd_at o [i; j; 1%Z] == y (- (1#2)) + x (1#2))%Q /\
    (nd_at o [i; j; 2%Z] == y (1#2) + x (1#2))%Q /\ (nd_at o [i; j; 3%Z] == y (1#2) + x (- (1#2)))%Q.
Proof. exact array_even. Qed.
Print Assumptions C134_even.
Example C134_even_case : let arr := table 3 4 (fun i j => 10 - inject_Z i * 2 + inject_Z j * 3)%Q in
  Even arr 3 4 10 (-(2)) 3 /\ is_ok (set_extrapolated_bounds Float false (Some (C2 arr))) = true.
Proof. split; [|vm_compute; reflexivity]. split; [reflexivity|]. intros i j _ _. cbn. lra. Qed.
(** Coordinates along the rows: every cell but those of the first and last row contains
    its centre. *)
Theorem C134_rows_partial : forall arr c n o, AlongRows arr c n -> (2 <= List.length c)%nat -> 2 <= n -> Ascending c \/ Descending c ->
  set_extrapolated_bounds Float false (Some (C2 arr)) = Ok (Some (B2 o)) ->
  forall i j x, (0 < i)%nat -> (S i < List.length c)%nat -> 0 <= j < n -> nth_error c i = Some x ->
    InCell (nd_at o [Z.of_nat i; j; 0], nd_at o [Z.of_nat i; j; 3]) x /\ InCell (nd_at o [Z.of_nat i; j; 1], nd_at o [Z.of_nat i; j; 2]) x.
Proof.
  intros arr c n o A L Hn M O i j x I1 I2 J X. destruct (rows_cells arr c n o A L Hn M O) as [s [_ R]].
  destruct (R (Z.of_nat i) j ltac:(unfold zlen; lia) J) as [R0 [R1 [R2 R3]]].
  assert (K := edge_inner c s i x M I1 I2 X). split; [rewrite (incell_eq _ _ _ _ x R0 R3) | rewrite (incell_eq _ _ _ _ x R1 R2)]; exact K.
Qed.
Print Assumptions C134_rows_partial.
Theorem C134_columns_partial : forall arr c m o, AlongColumns arr c m -> (2 <= List.length c)%nat -> 2 <= m -> Ascending c \/ Descending c ->
  set_extrapolated_bounds Float false (Some (C2 arr)) = Ok (Some (B2 o)) ->
  forall i j x, (0 < j)%nat -> (S j < List.length c)%nat -> 0 <= i < m -> nth_error c j = Some x ->
    InCell (nd_at o [i; Z.of_nat j; 0], nd_at o [i; Z.of_nat j; 1]) x /\ InCell (nd_at o [i; Z.of_nat j; 3], nd_at o [i; Z.of_nat j; 2]) x.
Proof.
  intros arr c m o A L Hn M O i j x I1 I2 J X. destruct (columns_cells arr c m o A L Hn M O) as [s [_ R]].
  destruct (R i (Z.of_nat j) J ltac:(unfold zlen; lia)) as [R0 [R3 [R1 R2]]].
  assert (K := edge_inner c s j x M I1 I2 X). split; [rewrite (incell_eq _ _ _ _ x R0 R1) | rewrite (incell_eq _ _ _ _ x R3 R2)]; exact K.
Qed.
Print Assumptions C134_columns_partial.
(** The cells of the first and last row do exactly when half the outer gap is at most the
    mean gap. *)
Theorem C134_outer_rows_partial : forall arr c n o, AlongRows arr c n -> (2 <= List.length c)%nat -> 2 <= n -> Ascending c \/ Descending c ->
  set_extrapolated_bounds Float false (Some (C2 arr)) = Ok (Some (B2 o)) ->
  forall j, 0 <= j < n -> let m := List.length c in
    (InCell (nd_at o [0; j; 0], nd_at o [0; j; 3]) (nth 0 c 0%Q) <-> (Qabs (nth 1 c 0 - nth 0 c 0) / 2 <= mean_gap c)%Q) /\
    (InCell (nd_at o [zlen c - 1; j; 0], nd_at o [zlen c - 1; j; 3]) (nth (m - 1) c 0%Q) <-> (Qabs (nth (m - 1) c 0 - nth (m - 2) c 0) / 2 <= mean_gap c)%Q).
Proof.
  intros arr c n o A L Hn M O j J m. destruct (rows_cells arr c n o A L Hn M O) as [s [S' R]].
  destruct (R 0 j ltac:(unfold zlen; lia) J) as [R0 [_ [_ R3]]]. destruct (R (zlen c - 1) j ltac:(unfold zlen; lia) J) as [T0 [_ [_ T3]]].
  destruct (outer_criterion c s L M S') as [K1 K2]. replace (zlen c - 1 + 1) with (zlen c) in T3 by lia. change (0 + 1) with 1 in R3.
  rewrite (incell_eq _ _ _ _ _ R0 R3), (incell_eq _ _ _ _ _ T0 T3). split; assumption.
Qed.
Print Assumptions C134_outer_rows_partial.
Theorem C134_outer_columns_partial : forall arr c m o, AlongColumns arr c m -> (2 <= List.length c)%nat -> 2 <= m -> Ascending c \/ Descending c ->
  set_extrapolated_bounds Float false (Some (C2 arr)) = Ok (Some (B2 o)) ->
  forall i, 0 <= i < m -> let n := List.length c in
    (InCell (nd_at o [i; 0; 0], nd_at o [i; 0; 1]) (nth 0 c 0%Q) <-> (Qabs (nth 1 c 0 - nth 0 c 0) / 2 <= mean_gap c)%Q) /\
    (InCell (nd_at o [i; zlen c - 1; 0], nd_at o [i; zlen c - 1; 1]) (nth (n - 1) c 0%Q) <-> (Qabs (nth (n - 1) c 0 - nth (n - 2) c 0) / 2 <= mean_gap c)%Q).
Proof.
  intros arr c m o A L Hn M O i J n. destruct (columns_cells arr c m o A L Hn M O) as [s [S' R]].
  destruct (R i 0 J ltac:(unfold zlen; lia)) as [R0 [_ [R3 _]]]. destruct (R i (zlen c - 1) J ltac:(unfold zlen; lia)) as [T0 [_ [T3 _]]].
  destruct (outer_criterion c s L M S') as [K1 K2]. replace (zlen c - 1 + 1) with (zlen c) in T3 by lia. change (0 + 1) with 1 in R3.
  rewrite (incell_eq _ _ _ _ _ R0 R3), (incell_eq _ _ _ _ _ T0 T3). split; assumption.
Qed.
Print Assumptions C134_outer_columns_partial.
Example C134_rows_case : AlongRows (rows_of [0; 1; 3; 4]%Q 2) [0; 1; 3; 4]%Q 2 /\ Ascending [0; 1; 3; 4]%Q /\
  is_ok (set_extrapolated_bounds Float false (Some (C2 (rows_of [0; 1; 3; 4]%Q 2)))) = true.
Proof. split; [apply rows_of_along|]. split; [ascend | vm_compute; reflexivity]. Qed.
(** A cell of the first row that does not contain its centre. *)
Theorem C134_outer_refuted : exists arr c o, AlongRows arr c 2 /\ Ascending c /\ set_extrapolated_bounds Float false (Some (C2 arr)) = Ok (Some (B2 o)) /\
  ~ InCell (nd_at o [0; 0; 0], nd_at o [0; 0; 3]) (nth 0 c 0%Q).
Proof.
  destruct (array_defined Float (rows_of [0; 10; 11; 12; 13]%Q 2) 5 2 eq_refl ltac:(lia) ltac:(lia)) as [_ [D _]]. destruct (D ltac:(lia)) as [o [O _]].
  assert (A : Ascending [0; 10; 11; 12; 13]%Q) by ascend.
  exists (rows_of [0; 10; 11; 12; 13]%Q 2), [0; 10; 11; 12; 13]%Q, o. split; [apply rows_of_along|]. split; [exact A|]. split; [exact O|].
  intros H. apply (proj1 (C134_outer_rows_partial _ [0; 10; 11; 12; 13]%Q 2 o (rows_of_along _ _) ltac:(cbn; lia) ltac:(lia) (or_introl A) O 0 ltac:(lia))) in H.
  vm_compute in H. congruence.
Qed.
Print Assumptions C134_outer_refuted.
(** A grid of one row: the upper and lower corners of every cell are the same. *)
Theorem C134_single_row_refuted : forall t arr n o, nd_shape arr = [1; n] -> 2 <= n -> set_extrapolated_bounds t false (Some (C2 arr)) = Ok (Some (B2 o)) ->
  forall j, 0 <= j < n -> nd_at o [0; j; 0] = nd_at o [0; j; 3] /\ nd_at o [0; j; 1] = nd_at o [0; j; 2].
Proof.
  intros t arr n o H Hn O j Hj.
  assert (E : exists e, extrapolated_corners t arr = Ok e /\ nd_shape e = [1 + 1; n + 1] /\ forall a b, at2 (nd_at e) 0 b = at2 (nd_at e) a b).
  { unfold set_extrapolated_bounds in O. unfold extrapolated_corners in *. rewrite H in *. revert O. bool_cases. unfold corners_vector.
    destruct (bounds_vector t _) as [b|]; cbn [bind]; intros O; [|discriminate]. eexists. split; [reflexivity|]. split; [|reflexivity].
    cbn [nd_shape]. unfold zlen. rewrite map_length, zrange_length. f_equal. f_equal. lia. }
  destruct E as [e [E [Sh V]]]. destruct (extrapolated_array t arr e 1 n E Sh) as [o' [O' [_ K]]]. assert (o' = o) by congruence. subst o'.
  destruct (K 0 j ltac:(lia) Hj) as [-> [-> [-> ->]]]. split; apply V.
Qed.
Print Assumptions C134_single_row_refuted.
Example C134_single_row_case : is_ok (set_extrapolated_bounds Float false (Some (C2 (table 1 3 (fun _ j => inject_Z j))))) = true.
Proof. vm_compute. reflexivity. Qed.
(** Corners of integer centres are truncated. *)
Theorem C134_integer_refuted : exists arr o, Even arr 2 2 0 1 0 /\ set_extrapolated_bounds Int false (Some (C2 arr)) = Ok (Some (B2 o)) /\
  (nd_at o [0%Z; 0%Z; 2%Z] == 0)%Q.
Proof.
  eexists (table 2 2 (fun i _ => inject_Z i)), _. split; [split; [reflexivity|]; intros i j _ _; cbn; lra|]. split; [reflexivity|]. vm_compute. reflexivity.
Qed.
Print Assumptions C134_integer_refuted.

(** ** C135.  The same coordinates as vectors and as arrays. *)
Theorem C135_rows_partial : forall arr c n o b, AlongRows arr c n -> 2 <= n -> Ascending c \/ Descending c ->
  set_extrapolated_bounds Float false (Some (C2 arr)) = Ok (Some (B2 o)) -> set_extrapolated_bounds Float false (Some (C1 c)) = Ok (Some (B1 b)) ->
  forall i j lo hi, 0 <= j < n -> nth_error b i = Some (lo, hi) ->
    ((0 < i)%nat -> nd_at o [Z.of_nat i; j; 0%Z] == lo /\ nd_at o [Z.of_nat i; j; 1%Z] == lo)%Q /\
    ((S i < List.length c)%nat -> nd_at o [Z.of_nat i; j; 2%Z] == hi /\ nd_at o [Z.of_nat i; j; 3%Z] == hi)%Q.
Proof. exact same_inner_rows. Qed.
Print Assumptions C135_rows_partial.
Theorem C135_columns_partial : forall arr c m o b, AlongColumns arr c m -> 2 <= m -> Ascending c \/ Descending c ->
  set_extrapolated_bounds Float false (Some (C2 arr)) = Ok (Some (B2 o)) -> set_extrapolated_bounds Float false (Some (C1 c)) = Ok (Some (B1 b)) ->
  forall i j lo hi, 0 <= i < m -> nth_error b j = Some (lo, hi) ->
    ((0 < j)%nat -> nd_at o [i; Z.of_nat j; 0%Z] == lo /\ nd_at o [i; Z.of_nat j; 3%Z] == lo)%Q /\
    ((S j < List.length c)%nat -> nd_at o [i; Z.of_nat j; 1%Z] == hi /\ nd_at o [i; Z.of_nat j; 2%Z] == hi)%Q.
Proof. exact same_inner_columns. Qed.
Print Assumptions C135_columns_partial.
Theorem C135_even : forall c a d arr n o b, AlongRows arr c n -> 2 <= n -> EvenVector c a d ->
  set_extrapolated_bounds Float false (Some (C2 arr)) = Ok (Some (B2 o)) -> set_extrapolated_bounds Float false (Some (C1 c)) = Ok (Some (B1 b)) ->
  forall i j lo hi, 0 <= j < n -> nth_error b i = Some (lo, hi) ->
    (nd_at o [Z.of_nat i; j; 0%Z] == lo /\ nd_at o [Z.of_nat i; j; 1%Z] == lo /\ nd_at o [Z.of_nat i; j; 2%Z] == hi /\ nd_at o [Z.of_nat i; j; 3%Z] == hi)%Q.
Proof. exact even_columns_agree. Qed.
Print Assumptions C135_even.
Example C135_case : AlongRows (rows_of [0; 1; 3; 4]%Q 2) [0; 1; 3; 4]%Q 2 /\ Ascending [0; 1; 3; 4]%Q /\
  is_ok (set_extrapolated_bounds Float false (Some (C2 (rows_of [0; 1; 3; 4]%Q 2)))) = true /\ is_ok (set_extrapolated_bounds Float false (Some (C1 [0; 1; 3; 4]%Q))) = true /\
  EvenVector [1; 4; 7]%Q 1 3.
Proof.
  split; [apply rows_of_along|]. split; [ascend|]. do 2 (split; [vm_compute; reflexivity|]).
  intros k x X. destruct k as [|[|[|k]]]; cbn in X; [injection X as <-; reflexivity ..|destruct k; discriminate].
Qed.
(** The outermost edges differ. *)
Theorem C135_refuted : exists arr c o b lo hi, AlongRows arr c 2 /\ Ascending c /\
  set_extrapolated_bounds Float false (Some (C2 arr)) = Ok (Some (B2 o)) /\ set_extrapolated_bounds Float false (Some (C1 c)) = Ok (Some (B1 b)) /\
  nth_error b 0 = Some (lo, hi) /\ ~ (nd_at o [0%Z; 0%Z; 0%Z] == lo)%Q.
Proof.
  exists (rows_of [0; 1; 3; 4]%Q 2), [0; 1; 3; 4]%Q. do 4 eexists. split; [apply rows_of_along|]. split; [ascend|].
  split; [reflexivity|]. split; [reflexivity|]. split; [reflexivity|]. vm_compute. congruence.
Qed.
Print Assumptions C135_refuted.

(** ** C136.  Extrapolated bounds of a vector distributed over ranks. *)
Theorem C136_even_partial : forall parts a d b, EvenVector (concat parts) a d -> Forall (fun p => List.length p <> 1%nat) parts ->
  set_extrapolated_bounds Float false (Some (C1 (concat parts))) = Ok (Some (B1 b)) ->
  exists b', gathered (set_extrapolated_bounds_ranks Float parts) = Some b' /\ SamePairs b' b.
Proof. exact even_distributed. Qed.
Print Assumptions C136_even_partial.
(** Edges inside the part of a rank are those of the whole vector. *)
Theorem C136_inner_partial : forall t pre p post b bp k lo hi lo' hi',
  set_extrapolated_bounds t false (Some (C1 (concat pre ++ p ++ concat post))) = Ok (Some (B1 b)) ->
  set_extrapolated_bounds t false (Some (C1 p)) = Ok (Some (B1 bp)) ->
  nth_error bp k = Some (lo, hi) -> nth_error b (List.length (concat pre) + k) = Some (lo', hi') ->
  ((0 < k)%nat -> lo = lo') /\ ((S k < List.length p)%nat -> hi = hi').
Proof. exact inner_ranks. Qed.
Print Assumptions C136_inner_partial.
Example C136_case : EvenVector (concat [[1; 4]; []; [7; 10; 13]])%Q 1 3 /\ Forall (fun p => List.length p <> 1%nat) [[1; 4]; []; [7; 10; 13]]%Q /\
  is_ok (set_extrapolated_bounds Float false (Some (C1 (concat [[1; 4]; []; [7; 10; 13]])%Q))) = true.
Proof.
  split; [|split; [repeat constructor; cbn; lia | vm_compute; reflexivity]].
  intros k x X. destruct k as [|[|[|[|[|k]]]]]; cbn in X; [injection X as <-; reflexivity ..|destruct k; discriminate].
Qed.
(** A rank with one coordinate raises. *)
Theorem C136_one_coordinate_refuted : forall t parts x, In [x] parts -> In (Err ValueError) (set_extrapolated_bounds_ranks t parts).
Proof. exact single_rank. Qed.
Print Assumptions C136_one_coordinate_refuted.
(** The cells of neighbouring ranks do not meet. *)
Theorem C136_gap_refuted : exists parts b k lo hi lo' hi', Ascending (concat parts) /\ gathered (set_extrapolated_bounds_ranks Float parts) = Some b /\
  nth_error b k = Some (lo, hi) /\ nth_error b (S k) = Some (lo', hi') /\ (hi < lo')%Q.
Proof. exists [[0; 1]; [3; 4]]%Q. eexists. exists 1%nat. do 4 eexists. split; [cbn; ascend|]. do 3 (split; [reflexivity|]). vm_compute. reflexivity. Qed.
Print Assumptions C136_gap_refuted.

(** ** C137.  Geometries of the cells. *)
(** Every cell once, row by row; those without geometry are the masked ones. *)
Theorem C137_cells : forall g mask ub v m n,
  match sg_coords g with Vectors ys xs _ => m = zlen ys /\ n = zlen xs | Arrays y _ _ => nd_shape y = [m; n] end -> get_geometry_variable g mask ub = Ok v ->
  let used := match mask with Some h => Some h | None => sg_mask g end in
  map fst (gv_value v) = list_prod (zrange 0 m) (zrange 0 n) /\ gv_mask v = used /\
  (forall i j gm, In ((i, j), gm) (gv_value v) -> (gm = None <-> exists h, used = Some h /\ nd_at h [i; j] = true)).
Proof.
  intros g mask ub v m n Sh' H used.
  assert (Sh : grid_shape (sg_coords g) = (m, n)) by (destruct (sg_coords g); cbn; [destruct Sh' as [-> ->]; reflexivity|rewrite Sh'; reflexivity]).
  unfold get_geometry_variable in H. fold used in H. change (match mask with Some h => Some h | None => sg_mask g end) with used in H.
  replace (match mask with Some _ => mask | None => sg_mask g end) with used in H by (unfold used; destruct mask; reflexivity).
  destruct (geometry_iterable g ub used) as [l|] eqn:E; [|discriminate]. cbn [bind] in H. injection H as <-. cbn [gv_value gv_mask].
  destruct (iterable_cells g ub used l m n Sh E) as [K1 K2]. auto.
Qed.
Print Assumptions C137_cells.
Theorem C137_point : forall g mask v i j gm, get_point g mask = Ok v -> In ((i, j), Some gm) (gv_value v) ->
  match sg_coords g with
  | Vectors ys xs _ => forall y x, nth_error ys (Z.to_nat i) = Some y -> nth_error xs (Z.to_nat j) = Some x -> gm = GPoint x y
  | Arrays y x _ => gm = GPoint (nd_at x [i; j]) (nd_at y [i; j])
  end.
Proof.
  intros g mask v i j gm H I. unfold get_point, get_geometry_variable in H. destruct (geometry_iterable g false _) as [l|] eqn:E; [|discriminate]. cbn [bind] in H. injection H as <-.
  assert (K := iterable_geometry g false _ l i j gm E I). cbv beta iota in K. subst gm. destruct (sg_coords g) as [ys xs b|y x c]; [|reflexivity].
  intros y x Y X. cbn [cell_point]. rewrite (nth_error_nth _ _ 0%Q Y), (nth_error_nth _ _ 0%Q X). reflexivity.
Qed.
Print Assumptions C137_point.
(** A cell of a grid of vectors is the box of its bounds, whichever bound is greater. *)
Theorem C137_box : forall ys xs yb xb a mask mk v i j gm px py, a <> Some APoint ->
  get_polygon (mksgrid (Vectors ys xs (Some (yb, xb))) a mk) mask = Ok v -> In ((i, j), Some gm) (gv_value v) ->
  nth_error yb (Z.to_nat i) = Some py -> nth_error xb (Z.to_nat j) = Some px ->
  forall x y, InGeom gm x y <-> InCell px x /\ InCell py y.
Proof.
  intros ys xs yb xb a mask mk v i j gm px py A H I Y X. unfold get_polygon, get_geometry_variable in H.
  destruct (geometry_iterable _ true _) as [l|] eqn:E; [|discriminate]. cbn [bind] in H. injection H as <-.
  assert (K := iterable_geometry _ true _ l i j gm E I). unfold grid_abstraction in K. cbn [sg_abstraction sg_coords has_bounds] in K.
  destruct a as [[| |]|]; [congruence | | destruct K |]; apply (box_region ys xs yb xb i j gm px py K Y X).
Qed.
Print Assumptions C137_box.
(** After [expand] it is the ring of the corners of this box. *)
Theorem C137_expanded : forall ys xs yb xb a mask mk v i j gm px py, a <> Some APoint -> 0 <= i -> 0 <= j ->
  get_polygon (mksgrid (expand_bounds Float (Vectors ys xs (Some (yb, xb)))) a mk) mask = Ok v -> In ((i, j), Some gm) (gv_value v) ->
  nth_error yb (Z.to_nat i) = Some py -> nth_error xb (Z.to_nat j) = Some px ->
  gm = GPolygon [(fst px, fst py); (snd px, fst py); (snd px, snd py); (fst px, snd py)].
Proof.
  intros ys xs yb xb a mask mk v i j gm px py A Hi Hj H I Y X. unfold get_polygon, get_geometry_variable in H.
  destruct (geometry_iterable _ true _) as [l|] eqn:E; [|discriminate]. cbn [bind] in H. injection H as <-.
  assert (K := iterable_geometry _ true _ l i j gm E I). unfold grid_abstraction in K. cbn [sg_abstraction sg_coords] in K.
  change (has_bounds (expand_bounds Float (Vectors ys xs (Some (yb, xb))))) with true in K.
  assert (R := expanded_ring ys xs yb xb i j px py Hi Hj Y X).
  destruct a as [[| |]|]; [congruence | | destruct K |]; rewrite R in K; congruence.
Qed.
Print Assumptions C137_expanded.
Example C137_case : is_ok (get_polygon (mksgrid (Vectors [1; 2]%Q [5; 4]%Q (Some ([(0, 1); (1, 3)], [(6, 5); (5, 3)])%Q)) None None) None) = true /\
  is_ok (get_polygon (mksgrid (expand_bounds Float (Vectors [1; 2]%Q [5; 4]%Q (Some ([(0, 1); (1, 3)], [(6, 5); (5, 3)])%Q))) None None) None) = true.
Proof. split; vm_compute; reflexivity. Qed.
(** A polygon abstraction without bounds raises; so does a line abstraction. *)
Theorem C137_deficient : forall g mask, has_bounds (sg_coords g) = false -> sg_abstraction g = Some APolygon -> get_polygon g mask = Err GridDeficientError.
Proof.
  intros g mask B A. unfold get_polygon, get_geometry_variable, geometry_iterable, grid_abstraction. rewrite A, B. destruct (grid_shape (sg_coords g)). reflexivity.
Qed.
Print Assumptions C137_deficient.
(** [get_polygon] of a grid without bounds gives points. *)
Theorem C137_polygon_refuted : forall g mask, has_bounds (sg_coords g) = false -> sg_abstraction g = None ->
  get_polygon g mask = get_point g mask /\ exists v, get_point g mask = Ok v.
Proof.
  intros g mask B A. unfold get_polygon, get_point, get_geometry_variable, geometry_iterable, grid_abstraction. rewrite A, B. destruct (grid_shape (sg_coords g)) as [m n].
  split; [reflexivity|]. eexists. reflexivity.
Qed.
Example C137_polygon_case : exists l, get_polygon (mksgrid (Vectors [1; 2]%Q [5]%Q None) None None) None = Ok (mkgvar POINT_NAME (((0, 0), Some (GPoint 5 1)) :: l) None).
Proof. eexists. reflexivity. Qed.
Print Assumptions C137_polygon_refuted.
(** The points of a grid with bounds have the name of polygons. *)
Theorem C137_name_refuted : forall g mask v, has_bounds (sg_coords g) = true -> sg_abstraction g = None -> get_point g mask = Ok v -> gv_name v = POLYGON_NAME.
Proof.
  intros g mask v B A H. unfold get_point, get_geometry_variable in H. destruct (geometry_iterable g false _) as [l|]; [|discriminate]. cbn [bind] in H. injection H as <-.
  unfold grid_abstraction. rewrite A, B. reflexivity.
Qed.
Print Assumptions C137_name_refuted.
(** Expanding a grid with y bounds that are integers truncates the x bounds. *)
Theorem C137_expand_integer_refuted : exists ys xs yb xb, Forall (fun p => Integral (fst p) /\ Integral (snd p)) yb /\
  cell_polygon (expand_bounds Int (Vectors ys xs (Some (yb, xb)))) 0 0 = Ok (GPolygon [(0, 0); (1, 0); (1, 2); (0, 2)])%Q /\
  nth_error xb 0 = Some (1 # 2, 3 # 2)%Q.
Proof.
  exists [1]%Q, [1]%Q, [(0, 2)]%Q, [(1 # 2, 3 # 2)]%Q. split; [constructor; [split; eexists; reflexivity | constructor]|]. split; reflexivity.
Qed.
Print Assumptions C137_expand_integer_refuted.

(** ** C138.  Assignment of a part of a variable or grid. *)
Theorem C138_variable_partial : forall self slc v r, var_setitem self slc v = Ok r ->
  Assigned (cv_value self) (ranges (nd_shape (cv_value self)) slc) (cv_value v) (cv_value r) /\
  (cv_mask v = None -> cv_mask r = cv_mask self) /\
  (forall m, cv_mask v = Some m -> exists m', cv_mask r = Some m' /\
     let old := match cv_mask self with Some o => o | None => mknd (nd_shape (cv_value self)) (fun _ => false) end in
     Assigned old (ranges (nd_shape old) slc) m m') /\
  (cv_bounds self = None -> cv_bounds r = None) /\
  (forall b, cv_bounds self = Some b -> exists vb b', cv_bounds v = Some vb /\ cv_bounds r = Some b' /\
     Assigned b (ranges (nd_shape b) (slc ++ [slice_none])) vb b').
Proof. exact variable_assigned. Qed.
Print Assumptions C138_variable_partial.
Theorem C138_shapes : forall self slc v, cv_mask v = None -> cv_bounds self = None ->
  ((exists r, var_setitem self slc v = Ok r) <->
   nd_shape (cv_value v) = map (fun ab => Z.max 0 (snd ab - fst ab)) (ranges (nd_shape (cv_value self)) slc)).
Proof.
  intros self slc v M B. rewrite <- assign_ok. unfold var_setitem. rewrite M, B. destruct (assign (cv_value self) slc (cv_value v)) as [a|]; cbn [bind].
  - split; intros _; eexists; reflexivity.
  - split; intros [r H]; discriminate.
Qed.
Print Assumptions C138_shapes.
Theorem C138_grid_partial : forall self ys xs g r, grid_setitem self ys xs g = Ok r ->
  (exists sx sy, (vectorized self = true -> sx = [xs] /\ sy = [ys]) /\ (vectorized self = false -> sx = [ys; xs] /\ sy = [ys; xs]) /\
     var_setitem (vg_x self) sx (vg_x g) = Ok (vg_x r) /\ var_setitem (vg_y self) sy (vg_y g) = Ok (vg_y r)) /\
  (vg_mask g = None -> vg_mask r = vg_mask self) /\
  (forall m, vg_mask g = Some m -> exists m', vg_mask r = Some m' /\
     let old := match vg_mask self with Some o => o | None => mknd (vg_shape self) (fun _ => false) end in
     Assigned old (ranges (nd_shape old) [ys; xs]) m m').
Proof. exact grid_assigned. Qed.
Print Assumptions C138_grid_partial.
Definition wide : cvar := mkcvar (mknd [3] (fun idx => inject_Z (nth 0 idx 0))) (Some (mknd [3] (fun _ => true))) None.
Definition one : cvar := mkcvar (mknd [1] (fun _ => 9%Q)) None None.
Example C138_case : exists r, var_setitem wide [slice_of 1 2] one = Ok r /\ map (nd_at (cv_value r)) [[0]; [1]; [2]] = [0; 9; 2]%Q.
Proof. eexists. split; reflexivity. Qed.
Example C138_grid_case : is_ok (grid_setitem (mkvgrid wide wide None) (slice_of 0 1) (slice_of 2 3) (mkvgrid one one (Some (mknd [1; 1] (fun _ => true))))) = true.
Proof. reflexivity. Qed.
(** Values without a mask do not become visible where the target was masked. *)
Theorem C138_mask_refuted : exists self slc v r, cv_mask v = None /\ var_setitem self slc v = Ok r /\
  exists m, cv_mask r = Some m /\ in_box (ranges [3] slc) [1] = true /\ nd_at m [1] = true.
Proof. exists wide, [slice_of 1 2], one. eexists. split; [reflexivity|]. split; [reflexivity|]. eexists. split; [reflexivity|]. split; reflexivity. Qed.
Print Assumptions C138_mask_refuted.
(** The same for grids. *)
Theorem C138_grid_mask_refuted : forall self ys xs g r m, vg_mask g = None -> vg_mask self = Some m -> grid_setitem self ys xs g = Ok r -> vg_mask r = Some m.
Proof. intros self ys xs g r m G S' H. destruct (grid_assigned _ _ _ _ _ H) as [_ [K _]]. rewrite (K G). exact S'. Qed.
Print Assumptions C138_grid_mask_refuted.
