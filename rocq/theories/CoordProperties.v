(** C32, C33, C44, C45, C52, C53, C56 and C62. *)
From Verif Require Import Py Lib Spec NdModel NdSpec AggSpec CoordModel CoordSpec FloatModel FloatSpec FloatProofs CoordProofs ReorderProofs SelectProofs BoundsProofs CoordWitness.
From Coq Require Import Floats.SpecFloat Lqa.
Local Open Scope string_scope. Local Open Scope Z_scope.

(** ** C32.  Wrapping longitudes. *)

(** A coordinate array.  What is missing: floating point rounding (see below) and
    polygons that have to be cut at the wrap axis. *)
Theorem C32_arrays_partial : forall arr,
  (Forall (Within 0 360) arr ->
     Forall2 (fun x y => (-(180) < y <= 180)%Q /\ (y == x \/ y == x - 360)%Q) arr (wrap_array 180 arr) /\
     Forall2 (fun x z => (z == x \/ x == 360 /\ z == 0)%Q) arr (unwrap_array 0 (wrap_array 180 arr)) /\
     wrap_array 180 (wrap_array 180 arr) = wrap_array 180 arr) /\
  (Forall (Within (-(180)) 180) arr ->
     Forall2 (fun x y => (0 <= y < 360)%Q /\ (y == x \/ y == x + 360)%Q) arr (unwrap_array 0 arr) /\
     Forall2 (fun x z => (z == x \/ x == -(180) /\ z == 180)%Q) arr (wrap_array 180 (unwrap_array 0 arr)) /\
     unwrap_array 0 (unwrap_array 0 arr) = unwrap_array 0 arr).
Proof. exact arrays_spec. Qed.
Print Assumptions C32_arrays_partial.
Example C32_arrays_case : Forall (Within 0 360) [0; 179; 180; 181; 360]%Q /\ wrap_array 180 [0; 179; 180; 181; 360]%Q = [0; 179; 180; -179#1; 0#1]%Q /\
  Forall (Within (-(180)) 180) [-180#1; -1#1; 0; 180]%Q /\ unwrap_array 0 [-180#1; -1#1; 0; 180]%Q = [180; 359; 0; 180]%Q.
Proof. split; [|split; [reflexivity|split; [|reflexivity]]]; repeat (constructor; [split; unfold Qle; cbn; lia|]); constructor. Qed.

(** A distributed grid, with the check of the wrapped state over all ranks. *)
Theorem C32_grid_wrap_partial : forall f f' ranks, Forall (Forall (fun x => 0 <= x < 360)%Q) ranks ->
  let w := grid_wrap_or_unwrap WRAP f ranks in
  Forall (Forall (fun x => -(180) < x <= 180)%Q) w /\ Forall2 SameCoords (grid_wrap_or_unwrap UNWRAP f' w) ranks /\
  grid_wrap_or_unwrap WRAP f' w = w.
Proof. exact grid_wrap_spec. Qed.
Print Assumptions C32_grid_wrap_partial.
Theorem C32_grid_unwrap_partial : forall f f' ranks, Forall (Forall (fun x => -(180) < x <= 180)%Q) ranks ->
  let u := grid_wrap_or_unwrap UNWRAP f ranks in
  Forall (Forall (fun x => 0 <= x < 360)%Q) u /\ Forall2 SameCoords (grid_wrap_or_unwrap WRAP f' u) ranks /\
  grid_wrap_or_unwrap UNWRAP f' u = u.
Proof. exact grid_unwrap_spec. Qed.
Print Assumptions C32_grid_unwrap_partial.
Example C32_grid_case : grid_wrap_or_unwrap WRAP false [[0; 90]; [270; 350]]%Q = [[0; 90]; [-90#1; -10#1]]%Q /\
  grid_wrap_or_unwrap UNWRAP false [[0; 90]; [-90#1; -10#1]]%Q = [[0; 90]; [270; 350]]%Q.
Proof. vm_compute. split; reflexivity. Qed.

(** Geometries that are not cut and have no holes. *)
Theorem C32_geometries_partial : forall g g',
  match g with GPolygon _ holes => holes = [] | _ => True end ->
  ((forall p, In p (points_of g) -> Within 0 360 (fst p)) -> wrap_geom 180 g = Ok g' ->
     Forall2 (fun p q => snd q = snd p /\ (-(180) < fst q <= 180)%Q /\ (fst q == fst p \/ fst q == fst p - 360)%Q) (points_of g) (points_of g')) /\
  ((forall p, In p (points_of g) -> Within (-(180)) 180 (fst p)) -> unwrap_geom 0 g = Ok g' ->
     Forall2 (fun p q => snd q = snd p /\ (0 <= fst q < 360)%Q /\ (fst q == fst p \/ fst q == fst p + 360)%Q) (points_of g) (points_of g')).
Proof. exact geometries_spec. Qed.
Print Assumptions C32_geometries_partial.
Example C32_geometries_case : wrap_geom 180 (GMultiPoint [(10, 1); (200, 2)]%Q) = Ok (GMultiPoint [(10, 1); (-160#1, 2)]%Q).
Proof. reflexivity. Qed.

(** Wrapping a polygon with a hole fills the hole. *)
Theorem C32_holes_refuted : exists ext hole g', wrap_geom 180 (GPolygon ext [hole]) = Ok g' /\
  (forall p, In p (ext ++ hole)%list -> Within 0 360 (fst p)) /\ List.length (points_of g') <> List.length (points_of (GPolygon ext [hole])).
Proof. exact holes_lost. Qed.
Print Assumptions C32_holes_refuted.

(** In binary64 wrapping is exact: the value changes by nothing or by 360 degrees
    exactly, and unwrapping gives back the same double, for every double from 0 to 360
    (360 itself becomes 0). *)
Theorem C32_binary64_wrap : forall x, Double x -> 0 <= units x <= degrees 360 ->
  exists y, wrap_float [x] = [y] /\ Double y /\ degrees (-180) < units y <= degrees 180 /\
    (units y = units x \/ units y = units x - degrees 360) /\
    (unwrap_float [y] = [x] \/ (units x = degrees 360 /\ units y = 0)).
Proof. exact wrap_float_spec. Qed.
Print Assumptions C32_binary64_wrap.
Example C32_binary64_case : Double (fl 2873 (-3)) /\ 0 <= units (fl 2873 (-3)) <= degrees 360 /\ wrap_float [fl 2873 (-3)] = [fl (-7) (-3)].
Proof. vm_compute. repeat split; discriminate. Qed.

(** Unwrapping is not: a small negative longitude unwraps to 360, outside of [0, 360), and
    unwrapping and wrapping -0.1 gives another number. *)
Theorem C32_rounding_refuted :
  (exists x, SFltb (fl (-180) 0) x = true /\ SFltb x (fl 180 0) = true /\ unwrap_float [x] = [fl 360 0]) /\
  (exists x, SFltb (fl (-180) 0) x = true /\ SFltb x (fl 180 0) = true /\ wrap_float (unwrap_float [x]) <> [x]).
Proof. exact rounding. Qed.
Print Assumptions C32_rounding_refuted.

(** ** C33.  Reordering. *)

(** What is missing from the property: see the refutations below. *)
Theorem C33_partial : forall g xv, GoodGrid g xv ->
  (forall i, 0 <= i < snd (g_row g) -> exists x, In x (x_row g (nv_value xv) i) /\ (x < 0)%Q) ->
  (forall i x, 0 <= i < snd (g_row g) -> In x (x_row g (nv_value xv) i) -> (x <= 180)%Q) ->
  exists g' shift, grid_reorder g = Ok g' /\
    g_x g' = g_x g /\ g_row g' = g_row g /\ g_col g' = g_col g /\ g_vectorized g' = g_vectorized g /\
    (forall i, 0 <= i < snd (g_row g) -> FirstNegative (x_row g (nv_value xv) i) (shift i)) /\
    map fst (g_vars g') = map fst (g_vars g) /\
    forall name v, In (name, v) (g_vars g) -> exists v', In (name, v') (g_vars g') /\
      if g_vectorized g && String.eqb name (g_x g) then XReordered g shift v v' else VarReordered g shift v v'.
Proof. exact reorder_spec. Qed.
Print Assumptions C33_partial.

(** Rows that ascend from 0 eastwards ascend from the seam afterwards. *)
Theorem C33_ascending_partial : forall g xv g', GoodGrid g xv ->
  (forall i, 0 <= i < snd (g_row g) -> exists x, In x (x_row g (nv_value xv) i) /\ (x < 0)%Q) ->
  (forall i x, 0 <= i < snd (g_row g) -> In x (x_row g (nv_value xv) i) -> (-(180) <= x <= 180)%Q) ->
  grid_reorder g = Ok g' ->
  exists xv', In (g_x g, xv') (g_vars g') /\
    forall i, 0 <= i < snd (g_row g) -> Ascending (map eastward (x_row g (nv_value xv) i)) -> Ascending (x_row g' (nv_value xv') i).
Proof. exact reorder_ascending. Qed.
Print Assumptions C33_ascending_partial.

(** A grid of 2 rows and 3 columns, with a data variable over time as well. *)
Definition c33_of (shape : list Z) (l : list Q) : nd Q := mknd shape (fun idx => nth (Z.to_nat (fold_left (fun a p => a * snd p + fst p) (combine idx shape) 0)) l 0%Q).
Definition c33_x : nvar Q := mknvar [("x", 3)] (c33_of [3] [60; 180; -60#1]%Q) None.
Definition c33_y : nvar Q := mknvar [("y", 2)] (c33_of [2] [10; 20]%Q) None.
Definition c33_data : nvar Q := mknvar [("time", 2); ("y", 2); ("x", 3)] (c33_of [2; 2; 3] (map inject_Z (zrange 0 12)))
  (Some (mknd [2; 2; 3] (fun idx => nth 2 idx 0 =? 2))).
Definition c33_grid : grid := mkgrid [("x", c33_x); ("y", c33_y); ("data", c33_data)] "x" ("y", 2) ("x", 3) true.
Ltac c33_var :=
  split; [unfold GoodVar; cbn; split; [repeat (apply NoDup_cons; [cbn; intuition discriminate|]); apply NoDup_nil | split; [repeat (apply Forall_cons; [lia|]); apply Forall_nil | split; [reflexivity | first [exact I | reflexivity]]]]
         | split; intros n H'; cbn in H' |- *; repeat (destruct H' as [H'|H']; [congruence|]); contradiction].
Example C33_case : GoodGrid c33_grid c33_x /\
  (forall i, 0 <= i < 2 -> exists x, In x (x_row c33_grid (nv_value c33_x) i) /\ (x < 0)%Q) /\
  (forall i x, 0 <= i < 2 -> In x (x_row c33_grid (nv_value c33_x) i) -> (-(180) <= x <= 180)%Q) /\
  Ascending (map eastward (x_row c33_grid (nv_value c33_x) 0)) /\
  exists g', grid_reorder c33_grid = Ok g' /\
    match g_vars g' with
    | [(_, x); _; (_, d)] => x_row g' (nv_value x) 0 = [-60#1; 60; 180]%Q /\ map (nd_at (nv_value d)) (indices [2; 2; 3]) = [2; 0; 1; 5; 3; 4; 8; 6; 7; 11; 9; 10]%Q
    | _ => False
    end.
Proof.
  split; [|split; [|split; [|split]]].
  - split; [discriminate|]. split; [reflexivity|]. split; [reflexivity|]. split; [cbn; repeat (apply NoDup_cons; [cbn; intuition discriminate|]); apply NoDup_nil|]. split; [left; reflexivity|]. split; [reflexivity|].
    intros name v [H|[H|[H|[]]]]; assert (X := f_equal snd H); cbn in X; subst v; c33_var.
  - intros i Hi. exists (-60#1)%Q. split; [right; right; left; reflexivity | reflexivity].
  - intros i x Hi [H|[H|[H|[]]]]; subst x; split; vm_compute; discriminate.
  - intros i j x y Hij Hx Hy. destruct i as [|[|[|i]]], j as [|[|[|j]]]; try lia; cbn in Hx, Hy; try discriminate; try (destruct i; discriminate); try (destruct j; discriminate);
      injection Hx as <-; injection Hy as <-; reflexivity.
  - vm_compute. eexists. split; [reflexivity|]. split; reflexivity.
Qed.

(** The bounds of the x variable have the longitude dimension and are not rotated. *)
Definition c33_xb : nvar Q := mknvar [("x", 3); ("bnds", 2)] (c33_of [3; 2] [0; 120; 120; 240; -120#1; 0]%Q) None.
Theorem C33_bounds_refuted : exists g xv g' b b', GoodGrid g xv /\ grid_reorder g = Ok g' /\
  In ("x_bounds", b) (g_vars g) /\ In "x" (nv_names b) /\ In ("x_bounds", b') (g_vars g') /\ b' = b /\
  exists xv', In ("x", xv') (g_vars g') /\ nd_at (nv_value xv') [0] <> nd_at (nv_value xv) [0].
Proof.
  exists (mkgrid [("x", c33_x); ("x_bounds", c33_xb)] "x" ("y", 2) ("x", 3) true), c33_x. eexists. exists c33_xb, c33_xb.
  split; [|split; [vm_compute; reflexivity|]].
  - split; [discriminate|]. split; [reflexivity|]. split; [reflexivity|]. split; [cbn; repeat (apply NoDup_cons; [cbn; intuition discriminate|]); apply NoDup_nil|]. split; [left; reflexivity|]. split; [reflexivity|].
    intros name v [H|[H|[]]]; assert (X := f_equal snd H); cbn in X; subst v; c33_var.
  - split; [right; left; reflexivity|]. split; [left; reflexivity|]. split; [right; left; reflexivity|]. split; [reflexivity|].
    eexists. split; [left; reflexivity|]. vm_compute. discriminate.
Qed.
Print Assumptions C33_bounds_refuted.

(** A row without a negative longitude makes the call fail. *)
Definition c33_x2 : nvar Q := mknvar [("y", 2); ("x", 2)] (c33_of [2; 2] [1; -1#1; 1; 2]%Q) None.
Theorem C33_row_without_seam_refuted : exists g xv, GoodGrid g xv /\ grid_reorder g = Err TypeError.
Proof.
  exists (mkgrid [("x", c33_x2)] "x" ("y", 2) ("x", 2) false), c33_x2. split; [|vm_compute; reflexivity].
  split; [discriminate|]. split; [reflexivity|]. split; [reflexivity|]. split; [cbn; repeat (apply NoDup_cons; [cbn; intuition discriminate|]); apply NoDup_nil|]. split; [left; reflexivity|]. split; [reflexivity|].
  intros name v [H|[]]; assert (X := f_equal snd H); cbn in X; subst v; c33_var.
Qed.
Print Assumptions C33_row_without_seam_refuted.

(** ** C44.  Interpolated bounds. *)

Theorem C44_shared_edges : forall t c b, get_bounds_from_1d t c = Ok b -> List.length b = List.length c /\
  forall k x y, nth_error b k = Some x -> nth_error b (S k) = Some y -> snd x = fst y.
Proof. exact bounds_shared. Qed.
Print Assumptions C44_shared_edges.
Theorem C44_defined : forall t c, ((2 <= List.length c)%nat -> exists b, get_bounds_from_1d t c = Ok b) /\
  ((List.length c < 2)%nat -> get_bounds_from_1d t c = Err ValueError).
Proof. exact bounds_defined. Qed.
Print Assumptions C44_defined.
(** Every cell but the first and the last contains its coordinate. *)
Theorem C44_inner_cells_partial : forall t c b k x cell, (t = Int -> Forall Integral c) -> Ascending c \/ Descending c -> get_bounds_from_1d t c = Ok b ->
  (0 < k)%nat -> (S k < List.length c)%nat -> nth_error c k = Some x -> nth_error b k = Some cell -> InCell cell x.
Proof. exact interior_contains. Qed.
Print Assumptions C44_inner_cells_partial.
(** With two coordinates both cells do; with more, the outer cells do exactly when the
    outer gap is at most twice the mean gap of the midpoints. *)
Theorem C44_two_cells : forall a b, (a < b \/ b < a)%Q -> exists b0 b1, get_bounds_from_1d Float [a; b] = Ok [b0; b1] /\ InCell b0 a /\ InCell b1 b.
Proof. exact two_cells. Qed.
Print Assumptions C44_two_cells.
Theorem C44_outer_cells_partial : forall c b, (3 <= List.length c)%nat -> Ascending c -> get_bounds_from_1d Float c = Ok b ->
  exists c0 c1 cm cn b0 bn,
    nth_error c 0 = Some c0 /\ nth_error c 1 = Some c1 /\ nth_error c (List.length c - 2) = Some cm /\ nth_error c (List.length c - 1) = Some cn /\
    nth_error b 0 = Some b0 /\ nth_error b (List.length c - 1) = Some bn /\
    let mean_gap := (((cm + cn) / 2 - (c0 + c1) / 2) / inject_Z (zlen c - 2))%Q in
    (InCell b0 c0 <-> ((c1 - c0) / 2 <= mean_gap)%Q) /\ (InCell bn cn <-> ((cn - cm) / 2 <= mean_gap)%Q).
Proof. exact edge_cells. Qed.
Print Assumptions C44_outer_cells_partial.
(** Regular spacing: the coordinate is the midpoint of its cell. *)
Theorem C44_regular : forall a d c b, (2 <= List.length c)%nat -> (forall k x, nth_error c k = Some x -> (x == a + inject_Z (Z.of_nat k) * d)%Q) ->
  get_bounds_from_1d Float c = Ok b ->
  forall k x cell, nth_error c k = Some x -> nth_error b k = Some cell -> (fst cell == x - d / 2)%Q /\ (snd cell == x + d / 2)%Q.
Proof. exact regular_cells. Qed.
Print Assumptions C44_regular.
Example C44_case : Ascending [0; 1; 3; 4]%Q /\ (exists b, get_bounds_from_1d Float [0; 1; 3; 4]%Q = Ok b /\ List.length b = 4%nat) /\
  (forall k x, nth_error [1; 4; 7]%Q k = Some x -> (x == 1 + inject_Z (Z.of_nat k) * 3)%Q).
Proof.
  split; [|split; [eexists; split; [vm_compute; reflexivity | reflexivity]|]].
  - intros i j x y Hij Hx Hy. destruct i as [|[|[|[|i]]]], j as [|[|[|[|j]]]]; try lia; cbn in Hx, Hy; try discriminate; try (destruct i; discriminate); try (destruct j; discriminate);
      injection Hx as <-; injection Hy as <-; reflexivity.
  - intros k x H. destruct k as [|[|[|k]]]; cbn in H; [injection H as <-; reflexivity ..|destruct k; discriminate].
Qed.
(** An outer cell that misses its coordinate, and integer coordinates which are not
    the midpoints of their cells. *)
Theorem C44_outer_cell_refuted : exists c b cell, Ascending c /\ get_bounds_from_1d Float c = Ok b /\ nth_error b 0 = Some cell /\
  (exists x, nth_error c 0 = Some x /\ ~ InCell cell x).
Proof. exact outer_cell. Qed.
Print Assumptions C44_outer_cell_refuted.
Theorem C44_integer_midpoint_refuted : exists b cell, get_bounds_from_1d Int [1; 2; 3]%Q = Ok b /\ nth_error b 1 = Some cell /\ ~ ((fst cell + snd cell) / 2 == 2)%Q.
Proof. exact integer_midpoint. Qed.
Print Assumptions C44_integer_midpoint_refuted.

(** ** C45.  Corner conversions: inverse up to the order of the two axes. *)
Theorem C45_ocgis_partial : forall A (zero : A) (c : nd A) m n, 0 <= m -> 0 <= n -> nd_shape c = [m; n; 4] -> CornersAgree m n c ->
  exists e o, esmf_from_ocgis zero c = Ok e /\ nd_shape e = [n + 1; m + 1] /\ ocgis_from_esmf zero (transpose e) = Ok o /\ SameArray o c.
Proof. exact @ocgis_roundtrip. Qed.
Print Assumptions C45_ocgis_partial.
Theorem C45_esmf_partial : forall A (zero : A) (e : nd A) r c, 2 <= r -> 2 <= c -> nd_shape e = [r; c] ->
  exists o e', ocgis_from_esmf zero e = Ok o /\ CornersAgree (r - 1) (c - 1) o /\ esmf_from_ocgis zero o = Ok e' /\ SameArray (transpose e') e.
Proof. exact @esmf_roundtrip. Qed.
Print Assumptions C45_esmf_partial.
Example C45_case : let e := mknd [3; 4] (fun idx => nth 0 idx 0 * 10 + nth 1 idx 0) in
  match ocgis_from_esmf 0 e with Ok o => map (nd_at o) (indices [2; 3; 4]) = [0; 1; 11; 10; 1; 2; 12; 11; 2; 3; 13; 12; 10; 11; 21; 20; 11; 12; 22; 21; 12; 13; 23; 22] | Err _ => False end.
Proof. vm_compute. reflexivity. Qed.
(** Composed as they are, the conversions swap the axes. *)
Theorem C45_refuted : exists (c e o : nd Z), nd_shape c = [1; 2; 4] /\ CornersAgree 1 2 c /\ esmf_from_ocgis 0 c = Ok e /\ ocgis_from_esmf 0 e = Ok o /\ nd_shape o <> nd_shape c.
Proof. exact composed_swaps. Qed.
Print Assumptions C45_refuted.

(** ** C52.  Multi-part coordinates. *)
Theorem C52_multipart : forall arr v, join v (iter_multipart_coordinates arr v) = arr /\
  (forall p, In p (iter_multipart_coordinates arr v) -> ~ In v p) /\
  zlen (iter_multipart_coordinates arr v) = 1 + zlen (filter (fun x => x =? v) arr).
Proof. exact multipart_spec. Qed.
Print Assumptions C52_multipart.
Example C52_case : iter_multipart_coordinates [1; 2; -8; 3; -8; -8; 4] (-8) = [[1; 2]; [3]; []; [4]].
Proof. reflexivity. Qed.

(** ** C53.  The global extent. *)
Theorem C53_extent_global : forall ranks, ranks <> [] -> Forall (fun r => fst r <> [] /\ snd r <> []) ranks ->
  exists minx miny maxx maxy, get_extent_global ranks = Ok (minx, miny, maxx, maxy) /\
  (forall r x, In r ranks -> In x (fst r) -> (minx <= x <= maxx)%Q) /\ (forall r y, In r ranks -> In y (snd r) -> (miny <= y <= maxy)%Q) /\
  (exists r, In r ranks /\ In minx (fst r)) /\ (exists r, In r ranks /\ In maxx (fst r)) /\
  (exists r, In r ranks /\ In miny (snd r)) /\ (exists r, In r ranks /\ In maxy (snd r)).
Proof. exact extent_global_spec. Qed.
Print Assumptions C53_extent_global.
(** With an empty rank the call fails. *)
Theorem C53_empty_rank : forall ranks, Exists (fun r => fst r = [] \/ snd r = []) ranks -> exists e, get_extent_global ranks = Err e.
Proof. exact extent_global_empty. Qed.
Print Assumptions C53_empty_rank.
Example C53_case : get_extent_global [([1; 3], [2]); ([-2#1], [5; 4])]%Q = Ok (-2#1, 2, 3, 5)%Q.
Proof. reflexivity. Qed.

(** ** C56.  Selection inside a box. *)
Theorem C56_bounds : forall arr lower upper keep,
  ((lower <= upper)%Q -> exists sel, arr_intersects_bounds arr lower upper keep = Ok sel /\ Forall2 (fun x b => b = true <-> Selected keep lower upper x) arr sel) /\
  ((upper < lower)%Q -> arr_intersects_bounds arr lower upper keep = Err AssertionError).
Proof. exact bounds_select. Qed.
Print Assumptions C56_bounds.
Theorem C56_section : forall arr lower upper keep a b, (lower <= upper)%Q -> 0 <= a <= b -> b <= zlen arr ->
  exists sel, arr_intersects_section arr lower upper keep a b = Ok sel /\ List.length sel = List.length arr /\
    forall k x, nth_error arr k = Some x ->
      (nth_error sel k = Some true <-> a <= Z.of_nat k < b /\ Selected keep lower upper x).
Proof. exact section_spec. Qed.
Print Assumptions C56_section.
Theorem C56_xyz : forall x y z minx miny maxx maxy zb invert keep,
  List.length y = List.length x -> List.length z = List.length x -> (minx <= maxx)%Q -> (miny <= maxy)%Q ->
  match zb with None => True | Some (a, b) => (a <= b)%Q end ->
  exists sel, get_xyz_select x y minx miny maxx maxy z zb invert keep false = Ok sel /\ List.length sel = List.length x /\
    forall k vx vy vz, nth_error x k = Some vx -> nth_error y k = Some vy -> nth_error z k = Some vz ->
      (nth_error sel k = Some true <->
       if (invert : bool) then ~ SelectedPoint keep minx miny maxx maxy zb vx vy vz else SelectedPoint keep minx miny maxx maxy zb vx vy vz).
Proof. exact xyz_select_spec. Qed.
Print Assumptions C56_xyz.
Theorem C56_xyz_inverted_range : forall x y z minx miny maxx maxy zb invert keep nt,
  (maxx < minx)%Q \/ (maxy < miny)%Q \/ (exists a b, zb = Some (a, b) /\ (b < a)%Q) ->
  forall sel, get_xyz_select x y minx miny maxx maxy z zb invert keep nt <> Ok sel.
Proof. exact xyz_select_rejects. Qed.
Print Assumptions C56_xyz_inverted_range.
(** The hint mask of a grid: the boundary is always included. *)
Theorem C56_hint_vectorized : forall xs ys minx miny maxx maxy invert,
  exists sel, hint_mask_vectorized xs ys minx miny maxx maxy invert false = Ok sel /\ List.length sel = List.length ys /\
    forall i j x y, nth_error xs j = Some x -> nth_error ys i = Some y ->
      exists row, nth_error sel i = Some row /\ List.length row = List.length xs /\
        (nth_error row j = Some true <-> if (invert : bool) then ~ InBox (minx, miny, maxx, maxy) x y else InBox (minx, miny, maxx, maxy) x y).
Proof. exact hint_vectorized. Qed.
Print Assumptions C56_hint_vectorized.
Theorem C56_hint_2d : forall xs ys minx miny maxx maxy invert, Forall2 (fun a b => List.length a = List.length b) xs ys ->
  exists sel, hint_mask_2d xs ys minx miny maxx maxy invert false = Ok sel /\ List.length sel = List.length xs /\
    forall i j rx ry x y, nth_error xs i = Some rx -> nth_error ys i = Some ry -> nth_error rx j = Some x -> nth_error ry j = Some y ->
      exists row, nth_error sel i = Some row /\ List.length row = List.length rx /\
        (nth_error row j = Some true <-> if (invert : bool) then ~ InBox (minx, miny, maxx, maxy) x y else InBox (minx, miny, maxx, maxy) x y).
Proof. exact hint_2d. Qed.
Print Assumptions C56_hint_2d.
Example C56_case : arr_intersects_bounds [0; 1; 2; 3; 4]%Q 1 3 true = Ok [false; true; true; true; false] /\
  arr_intersects_bounds [0; 1; 2; 3; 4]%Q 1 3 false = Ok [false; false; true; false; false] /\
  arr_intersects_section [0; 1; 2; 3; 4]%Q 1 3 true 2 5 = Ok [false; false; true; true; false] /\
  get_xyz_select [0; 1; 2]%Q [0; 1; 5]%Q 0 0 2 2 [0; 0; 0]%Q None false true false = Ok [true; true; false] /\
  hint_mask_vectorized [0; 1; 2]%Q [5; 6]%Q 1 6 2 9 false false = Ok [[false; false; false]; [false; true; true]].
Proof. vm_compute. repeat split; reflexivity. Qed.
(** The hint mask accepts an inverted range and selects nothing. *)
Theorem C56_hint_inverted_range_refuted : exists xs ys sel, hint_mask_vectorized xs ys 3 0 1 9 false false = Ok sel /\ xs <> [] /\ ys <> [].
Proof. exact hint_inverted. Qed.
Print Assumptions C56_hint_inverted_range_refuted.

(** ** C62.  The touching barrier. *)
(** Two-dimensional coordinates: raised exactly when a corner of the box coincides with
    a coordinate pair; a coordinate on an edge of the box is not noticed. *)
Theorem C62_hint_2d_partial : forall xs ys minx miny maxx maxy invert, Forall2 (fun a b => List.length a = List.length b) xs ys ->
  (hint_mask_2d xs ys minx miny maxx maxy invert true = Err NoTouching <->
   exists i j rx ry x y, nth_error xs i = Some rx /\ nth_error ys i = Some ry /\ nth_error rx j = Some x /\ nth_error ry j = Some y /\
     (x == minx \/ x == maxx)%Q /\ (y == miny \/ y == maxy)%Q).
Proof. exact hint_2d_touch. Qed.
Print Assumptions C62_hint_2d_partial.
Theorem C62_hint_2d_edge_refuted : exists xs ys sel, hint_mask_2d xs ys 0 0 2 2 false true = Ok sel /\ xs = [[0%Q]] /\ ys = [[1%Q]].
Proof. exact hint_edge. Qed.
Print Assumptions C62_hint_2d_edge_refuted.
(** A vectorized grid tests the x coordinate with the index of the last row: a touching
    corner passes, and a shape with more rows than columns raises an index error. *)
Theorem C62_hint_vectorized_refuted :
  (exists xs ys sel, hint_mask_vectorized xs ys 0 0 2 2 false true = Ok sel /\ In 0%Q xs /\ In 0%Q ys) /\
  (exists xs ys, hint_mask_vectorized xs ys 0 0 2 2 false true = Err IndexError).
Proof. exact hint_vectorized_touch. Qed.
Print Assumptions C62_hint_vectorized_refuted.
(** Point selection notices only the lower left and the upper right corner. *)
Theorem C62_xyz_partial : forall x y z minx miny maxx maxy invert keep, (minx <= maxx)%Q -> (miny <= maxy)%Q -> List.length y = List.length x ->
  (get_xyz_select x y minx miny maxx maxy z None invert keep true = Err NoTouching <->
   exists k vx vy, nth_error x k = Some vx /\ nth_error y k = Some vy /\ ((vx == minx /\ vy == miny) \/ (vx == maxx /\ vy == maxy))%Q).
Proof. exact xyz_touch. Qed.
Print Assumptions C62_xyz_partial.
Theorem C62_xyz_refuted : exists sel, get_xyz_select [0%Q] [2%Q] 0 0 2 2 [] None false true true = Ok sel.
Proof. exact xyz_corner. Qed.
Print Assumptions C62_xyz_refuted.
Example C62_case : hint_mask_2d [[0; 1]]%Q [[2; 2]]%Q 0 0 2 2 false true = Err NoTouching /\ get_xyz_select [0%Q] [0%Q] 0 0 2 2 [] None false true true = Err NoTouching.
Proof. split; reflexivity. Qed.
