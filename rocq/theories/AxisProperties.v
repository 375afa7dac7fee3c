(** C123-C128: the axes of a file, their bounds, groups, the distributed dimension,
    dimension maps of the user, and meshes. *)
From Coq Require Import List String Ascii ZArith Bool Lia Permutation.
From Verif Require Import Py DmapModel DmapProofs AxisModel AxisSpec AxisProofs AxisMore AxisGroups AxisMesh RequestNames.
Import ListNotations.
Local Open Scope string_scope.
Local Open Scope Z_scope.

(** ** C123: the variable that holds an axis *)

(** A file with two-dimensional coordinates, known by their names, and a time axis that is declared. *)
Definition file : vmetas :=
  [("tas", mkvmeta "tas" ["time"; "j"; "i"] (Some []));
   ("lon", mkvmeta "lon" ["j"; "i"] (Some [("bounds", "lon_bnds")]));
   ("lat", mkvmeta "lat" ["j"; "i"] (Some []));
   ("t", mkvmeta "t" ["time"] (Some [("axis", "T"); ("climatology", "t_bnds")]));
   ("t_bnds", mkvmeta "t_bnds" ["time"; "b"] (Some []))].
Lemma file_plain : plain file.
Proof.
  split; [repeat (constructor; [cbn; intuition discriminate|]); constructor|].
  intros k v I. cbn in I. repeat (destruct I as [[= <- <-]|I]; [split; [reflexivity|split; [discriminate|eexists; reflexivity]]|]). destruct I.
Qed.
Definition file_map : storage := match cf_map None false false file with Ok st => st | Err _ => [] end.

(** An axis is held by a variable exactly when it is the only candidate. *)
Theorem C123_found : forall crs spherical strict ms st key axis, plain ms -> cf_map crs spherical strict ms = Ok st -> In (key, axis) axes ->
  spherical = false \/ (key <> "x" /\ key <> "y") ->
  forall k, var_of st key = Ok (Some k) <-> the_only (candidate strict ms axis "axis" axis) k.
Proof.
  intros crs spherical strict ms st key axis P H I S' k.
  destruct (cf_axis crs spherical strict ms st key axis H I S') as (o & O & A).
  exact (found_iff strict ms "axis" (mkwanted key axis axis) o st key P O (at_axis_shown st key o (axis_key key axis I) A) k).
Qed.
Example C123_found_case : cf_map None false false file = Ok file_map /\ var_of file_map "time" = Ok (Some "t") /\ var_of file_map "x" = Ok (Some "lon") /\ var_of file_map "level" = Ok None.
Proof. now vm_compute. Qed.
Print Assumptions C123_found.

(** The dimensions along it. *)
Theorem C123_dimensions : forall crs spherical strict ms st key axis k v, plain ms -> cf_map crs spherical strict ms = Ok st -> In (key, axis) axes ->
  var_of st key = Ok (Some k) -> In (k, v) ms -> dims_of st key = Ok (along strict axis (m_dims v)).
Proof.
  intros crs spherical strict ms st key axis k v P H I V J.
  assert (X : spherical = false \/ (key <> "x" /\ key <> "y") -> dims_of st key = Ok (along strict axis (m_dims v))).
  { intros S'. destruct (cf_axis crs spherical strict ms st key axis H I S') as (o & O & A).
    exact (found_dims strict ms "axis" (mkwanted key axis axis) o st key P O (at_axis_shown st key o (axis_key key axis I) A) k v V J). }
  destruct spherical; [|now apply X; left].
  destruct (cf_spec crs true strict ms st H) as (_ & _ & _ & Q).
  assert (Y : forall value, In (key, axis, value) [("x", "X", "longitude"); ("y", "Y", "latitude")] -> dims_of st key = Ok (along strict axis (m_dims v))).
  { intros value C. destruct (Q key axis value C) as (o & o' & O & O' & A). specialize (O' eq_refl). apply (at_axis_shown st key _ (axis_key key axis I)) in A.
    destruct o' as [x|]; cbn [or_else] in A.
    - exact (found_dims strict ms "standard_name" (mkwanted key axis value) _ st key P O' A k v V J).
    - exact (found_dims strict ms "axis" (mkwanted key axis axis) _ st key P O A k v V J). }
  cbn in I. destruct I as [[= <- <-]|[[= <- <-]|[[= <- <-]|[[= <- <-]|[[= <- <-]|[]]]]]].
  - apply X. right. now split.
  - apply X. right. now split.
  - apply X. right. now split.
  - apply (Y "longitude"). now left.
  - apply (Y "latitude"). right. now left.
Qed.
Example C123_dimensions_case : dims_of file_map "x" = Ok ["i"] /\ dims_of file_map "y" = Ok ["j"] /\ dims_of file_map "time" = Ok ["time"].
Proof. now vm_compute. Qed.
Print Assumptions C123_dimensions.

(** Spherical coordinates that replace those of a rotated pole: where one variable
    has the standard name it holds the axis, otherwise nothing changes. *)
Theorem C123_spherical : forall crs strict ms st key axis value, plain ms -> cf_map crs true strict ms = Ok st ->
  In (key, axis, value) [("x", "X", "longitude"); ("y", "Y", "latitude")] -> forall k,
  var_of st key = Ok (Some k) <-> the_only (candidate strict ms axis "standard_name" value) k \/
    ((forall k', ~ the_only (candidate strict ms axis "standard_name" value) k') /\ the_only (candidate strict ms axis "axis" axis) k).
Proof.
  intros crs strict ms st key axis value P H I k. destruct (cf_spec crs true strict ms st H) as (_ & _ & _ & Q).
  destruct (Q key axis value I) as (o & o' & O & O' & A). specialize (O' eq_refl).
  assert (K : In key axis_keys) by (cbn in I; destruct I as [[= <- <- <-]|[[= <- <- <-]|[]]]; cbn; tauto).
  apply (at_axis_shown st key _ K) in A. destruct o' as [x|]; cbn [or_else] in A.
  - rewrite (found_iff strict ms "standard_name" (mkwanted key axis value) _ st key P O' A k). cbn [w_axis w_value]. split; [now left|].
    intros [T|[N _]]; [exact T|]. destruct x as [[n d] b]. destruct (axis_out_some _ _ _ _ _ _ _ P O') as (v & T & _). now destruct (N n).
  - rewrite (found_iff strict ms "axis" (mkwanted key axis axis) _ st key P O A k). cbn [w_axis w_value].
    pose proof (axis_out_none _ _ _ _ P O') as N. cbn [w_axis w_value] in N. split.
    + intros T. right. split; [exact N|exact T].
    + intros [T|[_ T]]; [now apply N in T|exact T].
Qed.
Definition rotated : vmetas :=
  [("rlon", mkvmeta "rlon" ["i"] (Some [("axis", "X")]));
   ("glon", mkvmeta "glon" ["j"; "i"] (Some [("standard_name", "longitude")]))].
Example C123_spherical_case :
  match cf_map None false false rotated, cf_map None true false rotated with
  | Ok a, Ok b => var_of a "x" = Ok (Some "rlon") /\ var_of b "x" = Ok (Some "glon") /\ dims_of b "x" = Ok ["i"]
  | _, _ => False
  end.
Proof. now vm_compute. Qed.
Print Assumptions C123_spherical.

(** The order of the variables in the file does not matter, unless several have
    the role of a mask. *)
Theorem C123_order_partial : forall crs spherical strict ms ms', NoDup (map fst ms) -> Permutation ms ms' -> one_mask ms ->
  cf_map crs spherical strict ms = cf_map crs spherical strict ms'.
Proof. exact cf_perm. Qed.
Example C123_order_case : NoDup (map fst file) /\ Permutation file (rev file) /\ one_mask file /\ file <> rev file.
Proof.
  split; [apply file_plain|]. split; [apply Permutation_rev|]. split; [|discriminate].
  intros k k' v v' I _ H. cbn in I. intuition (match goal with H : (_, _) = (_, _) |- _ => injection H as <- <- end; discriminate).
Qed.
Print Assumptions C123_order_partial.
Definition masks : vmetas :=
  [("m", mkvmeta "m" ["y"] (Some [("ocgis_role", "spatial_mask")])); ("n", mkvmeta "n" ["x"] (Some [("ocgis_role", "spatial_mask")]))].
Theorem C123_order_refuted : ~ (forall ms ms', plain ms -> Permutation ms ms' -> cf_map None false false ms = cf_map None false false ms').
Proof.
  intros H. specialize (H masks (rev masks)). assert (P : plain masks).
  { split; [repeat (constructor; [cbn; intuition discriminate|]); constructor|].
    intros k v I. cbn in I. repeat (destruct I as [[= <- <-]|I]; [split; [reflexivity|split; [discriminate|eexists; reflexivity]]|]). destruct I. }
  specialize (H P (Permutation_rev masks)). vm_compute in H. discriminate.
Qed.
Print Assumptions C123_order_refuted.

(** No variable holds two axes, if none with a usual name for one axis declares another. *)
Theorem C123_distinct_partial : forall crs strict ms st key1 key2 a1 a2 k, plain ms -> cf_map crs false strict ms = Ok st ->
  In (key1, a1) axes -> In (key2, a2) axes -> key1 <> key2 ->
  (forall n v a b, In (n, v) ms -> usual_name a n -> attr v "axis" = Some b -> b = a) ->
  var_of st key1 = Ok (Some k) -> var_of st key2 <> Ok (Some k).
Proof.
  intros crs strict ms st key1 key2 a1 a2 k P H I1 I2 N U V1 V2.
  apply (C123_found crs false strict ms st key1 a1 P H I1 (or_introl eq_refl)) in V1. apply (C123_found crs false strict ms st key2 a2 P H I2 (or_introl eq_refl)) in V2.
  assert (D : a1 <> a2).
  { intros ->. apply N. cbn in I1, I2. intuition (repeat match goal with H : (_, _) = (_, _) |- _ => injection H as <- ? end; subst; try discriminate; reflexivity). }
  destruct V1 as [[(v1 & J1 & A1 & _)|(_ & _ & U1 & J1)] _], V2 as [[(v2 & J2 & A2 & _)|(_ & _ & U2 & J2)] _].
  - pose proof (dget_nodup ms k v1 (proj1 P) J1) as E. rewrite (dget_nodup ms k v2 (proj1 P) J2) in E. injection E as ->. congruence.
  - apply D. now apply (U k v1 a2 a1).
  - apply D. symmetry. now apply (U k v2 a1 a2).
  - unfold usual_name in U1, U2. cbn [In] in U1, U2. intuition (subst; try discriminate; congruence).
Qed.
Example C123_distinct_case : forall n v a b, In (n, v) file -> usual_name a n -> attr v "axis" = Some b -> b = a.
Proof.
  intros n v a b I U A. cbn in I. unfold usual_name in U. cbn [In] in U.
  destruct I as [[= <- <-]|[[= <- <-]|[[= <- <-]|[[= <- <-]|[[= <- <-]|[]]]]]]; cbn in A; try discriminate. intuition discriminate.
Qed.
Print Assumptions C123_distinct_partial.
Theorem C123_distinct_refuted : exists ms st, plain ms /\ cf_map None false false ms = Ok st /\ var_of st "x" = Ok (Some "lon") /\ var_of st "y" = Ok (Some "lon").
Proof.
  exists [("lon", mkvmeta "lon" ["p"] (Some [("axis", "Y")]))]. eexists. split; [|now vm_compute].
  split; [repeat (constructor; [cbn; intuition discriminate|]); constructor|].
  intros k v I. cbn in I. repeat (destruct I as [[= <- <-]|I]; [split; [reflexivity|split; [discriminate|eexists; reflexivity]]|]). destruct I.
Qed.
Print Assumptions C123_distinct_refuted.

(** ** C124: bounds *)

Theorem C124_bounds : forall crs spherical strict ms st key axis k v, plain ms -> cf_map crs spherical strict ms = Ok st -> In (key, axis) axes ->
  var_of st key = Ok (Some k) -> In (k, v) ms -> exists b, bounds_of st key = Ok b /\
    forall x, b = Some x <-> names_bounds key v x /\ In x (map fst ms).
Proof.
  intros crs spherical strict ms st key axis k v P H I V J.
  assert (X : spherical = false \/ (key <> "x" /\ key <> "y") -> exists b, bounds_of st key = Ok b /\ forall x, b = Some x <-> names_bounds key v x /\ In x (map fst ms)).
  { intros S'. destruct (cf_axis crs spherical strict ms st key axis H I S') as (o & O & A).
    exact (found_bounds strict ms "axis" (mkwanted key axis axis) o st P O (at_axis_shown st key o (axis_key key axis I) A) k v V J). }
  destruct spherical; [|now apply X; left].
  destruct (cf_spec crs true strict ms st H) as (_ & _ & _ & Q).
  assert (Y : forall value, In (key, axis, value) [("x", "X", "longitude"); ("y", "Y", "latitude")] -> exists b, bounds_of st key = Ok b /\ forall x, b = Some x <-> names_bounds key v x /\ In x (map fst ms)).
  { intros value C. destruct (Q key axis value C) as (o & o' & O & O' & A). specialize (O' eq_refl). apply (at_axis_shown st key _ (axis_key key axis I)) in A.
    destruct o' as [x|]; cbn [or_else] in A.
    - exact (found_bounds strict ms "standard_name" (mkwanted key axis value) _ st P O' A k v V J).
    - exact (found_bounds strict ms "axis" (mkwanted key axis axis) _ st P O A k v V J). }
  cbn in I. destruct I as [[= <- <-]|[[= <- <-]|[[= <- <-]|[[= <- <-]|[[= <- <-]|[]]]]]].
  - apply X. right. now split.
  - apply X. right. now split.
  - apply X. right. now split.
  - apply (Y "longitude"). now left.
  - apply (Y "latitude"). right. now left.
Qed.
Example C124_bounds_case : bounds_of file_map "time" = Ok (Some "t_bnds") /\ bounds_of file_map "x" = Ok None.
Proof. now vm_compute. Qed.
Print Assumptions C124_bounds.

(** A file is understood, unless its time has both bounds and a climatology. *)
Theorem C124_opens_partial : forall crs spherical strict ms, plain ms ->
  (forall k v, In (k, v) ms -> candidate strict ms "T" "axis" "T" k -> attr v "bounds" = None \/ attr v "climatology" = None) ->
  exists st, cf_map crs spherical strict ms = Ok st.
Proof. exact cf_opens. Qed.
Example C124_opens_case : forall k v, In (k, v) file -> candidate false file "T" "axis" "T" k -> attr v "bounds" = None \/ attr v "climatology" = None.
Proof.
  intros k v I _. cbn in I. repeat (destruct I as [[= <- <-]|I]; [cbn; tauto|]). destruct I.
Qed.
Print Assumptions C124_opens_partial.
Theorem C124_opens_refuted : forall crs spherical strict ms k v b c, plain ms -> the_only (candidate strict ms "T" "axis" "T") k -> In (k, v) ms ->
  attr v "bounds" = Some b -> attr v "climatology" = Some c -> cf_map crs spherical strict ms = Err ValueError.
Proof. exact cf_both. Qed.
Example C124_opens_refuted_case : cf_map None false false [("time", mkvmeta "time" ["time"] (Some [("bounds", "b"); ("climatology", "c")]))] = Err ValueError.
Proof. now vm_compute. Qed.
Print Assumptions C124_opens_refuted.

(** ** C125: groups *)

Definition point_group (x y : string) : gmeta :=
  GMeta [(x, mkvmeta x ["i"] (Some [("axis", "X")])); (y, mkvmeta y ["j"] (Some [("axis", "Y")]))] [("i", 3); ("j", 4)] [].
Definition grouped : gmeta := GMeta file [("time", 2); ("j", 5); ("i", 4); ("b", 2)] [("g", point_group "a" "b")].
Definition nested : gmeta := GMeta file [("time", 2); ("j", 5); ("i", 4); ("b", 2)] [("g", GMeta [] [] [("h", point_group "a" "b")])].

(** The axes of the root, and those of a group whose name no other group has. *)
Theorem C125_groups_partial : forall crs spherical g st, from_metadata (cf_read crs spherical) g = Ok st ->
  (exists m, cf_read crs spherical g = Ok m /\ forall key, key <> "groups" -> dget String.eqb st key = dget String.eqb m key) /\
  (NoDup (map fst (below g)) -> forall k sub, In (k, sub) (g_groups g) -> map_at st [k] = cf_read crs spherical sub).
Proof.
  intros crs spherical g st H. split.
  - destruct (from_metadata_spec crs spherical g st H) as (m & F & _ & O & _). now exists m.
  - intros N k sub I. rewrite (groups_flat crs spherical g st k H). now rewrite (dget_nodup (below g) k sub N (in_below g k sub I)).
Qed.
Example C125_groups_case : match from_metadata (cf_read None false) grouped with
  | Ok st => match map_at st ["g"] with Ok m => var_of m "x" = Ok (Some "a") /\ var_of st "x" = Ok (Some "lon") | Err _ => False end
  | Err _ => False
  end.
Proof. now vm_compute. Qed.
Print Assumptions C125_groups_partial.
(** The map of a group within a group is not found there ... *)
Theorem C125_nested_refuted : forall crs spherical g st a b rest, from_metadata (cf_read crs spherical) g = Ok st ->
  map_at st (a :: b :: rest) = Err DimensionMapError.
Proof. exact groups_nested. Qed.
Example C125_nested_case : exists st, from_metadata (cf_read None false) nested = Ok st /\ group_at nested ["g"; "h"] = Some (point_group "a" "b").
Proof. eexists. split; [now vm_compute|reflexivity]. Qed.
Print Assumptions C125_nested_refuted.
(** ... but among the groups of the root, where the first of a name is the only one. *)
Theorem C125_flat_refuted : forall crs spherical g st k, from_metadata (cf_read crs spherical) g = Ok st ->
  map_at st [k] = match dget String.eqb (below g) k with Some sub => cf_read crs spherical sub | None => Err DimensionMapError end.
Proof. exact groups_flat. Qed.
Example C125_flat_case :
  match from_metadata (cf_read None false) (GMeta [] [] [("g", GMeta [] [] [("h", point_group "a" "b")]); ("h", point_group "c" "d")]) with
  | Ok st => match map_at st ["h"] with Ok m => var_of m "x" = Ok (Some "a") | Err _ => False end
  | Err _ => False
  end.
Proof. now vm_compute. Qed.
Print Assumptions C125_flat_refuted.

(** ** C126: the distributed dimension *)

(** The larger of the two horizontal dimensions of the root. *)
Theorem C126_larger_partial : forall crs spherical g m kx ky dx rx dy ry, plain (g_vars g) -> g_groups g = [] -> cf_read crs spherical g = Ok m ->
  var_of m "x" = Ok (Some kx) -> var_of m "y" = Ok (Some ky) -> dims_of m "x" = Ok (dx :: rx) -> dims_of m "y" = Ok (dy :: ry) ->
  In dx (map fst (g_dims g)) -> In dy (map fst (g_dims g)) ->
  (exists n, distributed crs spherical DOcgis None g = Ok [([], Some n)] /\ larger (g_dims g) dx dy n) /\
  distributed crs spherical DEsmf None g = Ok [([], Some dx)].
Proof.
  intros crs spherical g m kx ky dx rx dy ry P G F VX VY DX DY IX IY.
  assert (N : g_dims g <> []) by (intros E; rewrite E in IX; destruct IX). split.
  - destruct (cf_larger_ok crs spherical (g_vars g) m kx ky P F VX VY (g_dims g) dx dy rx ry DX DY IX IY) as [n C].
    destruct (cf_larger crs spherical (g_vars g) m kx ky P F VX VY (g_dims g) dx dy rx ry n DX DY C) as (name & -> & L).
    exists name. split; [|exact L]. now apply (distributed_alone crs spherical DOcgis g m).
  - apply (distributed_alone crs spherical DEsmf g m); try assumption. now apply (cf_esmf crs spherical (g_vars g) m kx ky P F VX VY (g_dims g) dx rx).
Qed.
Example C126_larger_case : distributed None false DOcgis None (GMeta file [("time", 2); ("j", 5); ("i", 4); ("b", 2)] []) = Ok [([], Some "j")].
Proof. now vm_compute. Qed.
Print Assumptions C126_larger_partial.

(** With groups: the root, and each group whose name no other group has. *)
Theorem C126_groups_partial : forall crs spherical g st l, plain (g_vars g) -> from_metadata (cf_read crs spherical) g = Ok st ->
  distributed crs spherical DOcgis None g = Ok l -> NoDup (map fst (below g)) ->
  forall k sub, (k, sub) = ([], g) \/ (exists name, k = [name] /\ In (name, sub) (g_groups g)) -> plain (g_vars sub) -> g_dims sub <> [] ->
  exists m n, cf_read crs spherical sub = Ok m /\ In (k, n) l /\
    (forall kx ky dx rx dy ry, var_of m "x" = Ok (Some kx) -> var_of m "y" = Ok (Some ky) -> dims_of m "x" = Ok (dx :: rx) -> dims_of m "y" = Ok (dy :: ry) ->
       exists name, n = Some name /\ larger (g_dims sub) dx dy name) /\
    (var_of m "x" = Ok None \/ var_of m "y" = Ok None -> n = None).
Proof.
  intros crs spherical g st l P H D ND k sub [[= -> ->]|(name & -> & I)] PS NE.
  - destruct (from_metadata_spec crs spherical g st H) as (m & F & _).
    destruct (distributed_root crs spherical DOcgis g st m l P H F NE D) as (n & C & J). exists m, n. split; [exact F|]. split; [exact J|]. split.
    + intros kx ky dx rx dy ry VX VY DX DY. exact (cf_larger crs spherical (g_vars g) m kx ky P F VX VY (g_dims g) dx dy rx ry n DX DY C).
    + intros V. rewrite (cf_absent m (g_dims g) DOcgis (cf_good _ _ _ _ _ F) V) in C. now injection C.
  - destruct (distributed_child crs spherical DOcgis g st name sub l P H ND I NE D) as (m & n & F & C & J). exists m, n. split; [exact F|]. split; [exact J|]. split.
    + intros kx ky dx rx dy ry VX VY DX DY. exact (cf_larger crs spherical (g_vars sub) m kx ky PS F VX VY (g_dims sub) dx dy rx ry n DX DY C).
    + intros V. rewrite (cf_absent m (g_dims sub) DOcgis (cf_good _ _ _ _ _ F) V) in C. now injection C.
Qed.
Example C126_groups_case : distributed None false DOcgis None grouped = Ok [([], Some "j"); (["g"], Some "j")].
Proof. now vm_compute. Qed.
Print Assumptions C126_groups_partial.

(** Horizontal coordinates without dimensions, found by their names. *)
Theorem C126_scalar_refuted : forall crs spherical d g st m kx ky, plain (g_vars g) -> from_metadata (cf_read crs spherical) g = Ok st -> cf_read crs spherical g = Ok m ->
  g_dims g <> [] -> var_of m "x" = Ok (Some kx) -> var_of m "y" = Ok (Some ky) -> dims_of m "x" = Ok [] -> distributed crs spherical d None g = Err IndexError.
Proof.
  intros crs spherical d g st m kx ky P H F N VX VY DX. apply (distributed_root_err crs spherical d g st m); try assumption.
  now apply (cf_scalar crs spherical (g_vars g) m kx ky).
Qed.
Definition station : gmeta :=
  GMeta [("tas", mkvmeta "tas" ["time"] (Some [])); ("time", mkvmeta "time" ["time"] (Some [("axis", "T")]));
         ("lon", mkvmeta "lon" [] (Some [])); ("lat", mkvmeta "lat" [] (Some []))] [("time", 10)] [].
Example C126_scalar_case : match cf_read None false station with
  | Ok m => var_of m "x" = Ok (Some "lon") /\ var_of m "y" = Ok (Some "lat") /\ dims_of m "x" = Ok [] /\ distributed None false DOcgis None station = Err IndexError
  | Err _ => False
  end.
Proof. now vm_compute. Qed.
Print Assumptions C126_scalar_refuted.

(** A group within a group is never distributed. *)
Theorem C126_nested_refuted : forall crs spherical d g st l a b rest n, plain (g_vars g) -> from_metadata (cf_read crs spherical) g = Ok st ->
  distributed crs spherical d None g = Ok l -> In (a :: b :: rest, n) l -> n = None.
Proof. exact distributed_nested. Qed.
Example C126_nested_case : distributed None false DOcgis None nested = Ok [([], Some "j"); (["g"], None); (["g"; "h"], None)] /\
  distributed None false DOcgis None (point_group "a" "b") = Ok [([], Some "j")].
Proof. now vm_compute. Qed.
Print Assumptions C126_nested_refuted.

(** A group with dimensions that uses a horizontal dimension of the root. *)
Theorem C126_inherited_refuted : forall crs spherical g st name sub m kx ky dx rx dy ry l, plain (g_vars g) -> from_metadata (cf_read crs spherical) g = Ok st ->
  NoDup (map fst (below g)) -> In (name, sub) (g_groups g) -> plain (g_vars sub) -> g_dims sub <> [] -> cf_read crs spherical sub = Ok m ->
  var_of m "x" = Ok (Some kx) -> var_of m "y" = Ok (Some ky) -> dims_of m "x" = Ok (dx :: rx) -> dims_of m "y" = Ok (dy :: ry) ->
  ~ In dx (map fst (g_dims sub)) \/ ~ In dy (map fst (g_dims sub)) -> distributed crs spherical DOcgis None g <> Ok l.
Proof.
  intros crs spherical g st name sub m kx ky dx rx dy ry l P H ND I PS NE F VX VY DX DY N D.
  destruct (distributed_child crs spherical DOcgis g st name sub l P H ND I NE D) as (m' & n & F' & C & _). rewrite F in F'. injection F' as <-.
  rewrite (cf_missing crs spherical (g_vars sub) m kx ky PS F VX VY (g_dims sub) dx dy rx ry DX DY N) in C. discriminate.
Qed.
Example C126_inherited_case : distributed None false DOcgis None
  (GMeta [] [("j", 5)] [("g", GMeta (g_vars (point_group "a" "b")) [("i", 3)] [])]) = Err KeyError.
Proof. now vm_compute. Qed.
Print Assumptions C126_inherited_refuted.

(** ** C127: dimension maps of the user *)

(** What a dimension map says about an axis is kept when it gives dimensions, or
    when there are none in the metadata to fill in. *)
Theorem C127_given_partial : forall ms st, proper_map st -> NoDup (map fst ms) -> exists st', update_dimensions ms st = Ok st' /\
  forall key axis, In (key, axis) axes ->
    (forall n v, var_of st key = Ok (Some n) -> dims_of st key = Ok [] -> In (n, v) ms -> m_dims v = []) ->
    same_axis st st' key.
Proof.
  intros ms st G ND. destruct (update_dimensions_spec ms st G) as (st' & E & G' & O & A). exists st'. split; [exact E|].
  intros key axis I H. pose proof (axis_key key axis I) as K. specialize (A key K). unfold after_update, updated_key in A.
  unfold same_axis. rewrite !var_read, !dims_read, !bounds_read in * by assumption.
  assert (S' : same3 st st' key).
  { destruct (rd_var st key) as [n|] eqn:V; [|exact A]. destruct (rd_dims st key) eqn:D; [|exact A].
    unfold source_dims in A. destruct (dg ms n) as [v|] eqn:En; [|exact A]. apply dget_in in En.
    rewrite (H n v eq_refl eq_refl En) in A. exact A. }
  destruct S' as (a & b & c). repeat split; congruence.
Qed.
Definition user_map (dims : option (list string)) : storage :=
  fst (set_variable [] "time" (DName "t") dims (Some "t_bnds") None None false None).
Example C127_given_case : proper_map (user_map (Some ["time"])) /\ dims_of (user_map (Some ["time"])) "time" = Ok ["time"].
Proof. split; [|reflexivity]. intros k I. vm_compute in I. intuition (subst; vm_compute; eauto). Qed.
Print Assumptions C127_given_partial.

(** Dimensions that are not given are those of the variable ... *)
Theorem C127_filled : forall ms st key axis n v, proper_map st -> NoDup (map fst ms) -> In (key, axis) axes -> var_of st key = Ok (Some n) -> dims_of st key = Ok [] ->
  In (n, v) ms -> m_dims v <> [] -> exists st', update_dimensions ms st = Ok st' /\ var_of st' key = Ok (Some n) /\ dims_of st' key = Ok (m_dims v).
Proof.
  intros ms st key axis n v G ND I V D J N. destruct (update_dimensions_spec ms st G) as (st' & E & G' & O & A). exists st'. split; [exact E|].
  pose proof (axis_key key axis I) as K. specialize (A key K). unfold after_update, updated_key in A.
  rewrite var_read, dims_read in * by assumption. injection V as V. injection D as D. rewrite V, D in A.
  unfold source_dims in A. rewrite (dget_nodup ms n v ND J) in A. destruct (m_dims v) as [|d0 dl]; [easy|]. destruct A as (-> & -> & _). now split.
Qed.
Example C127_filled_case : match update_dimensions file (user_map None) with Ok st => dims_of st "time" = Ok ["time"] | Err _ => False end.
Proof. now vm_compute. Qed.
Print Assumptions C127_filled.
(** ... but then the bounds that are given are lost. *)
Theorem C127_bounds_refuted : forall ms st key axis n v, proper_map st -> NoDup (map fst ms) -> In (key, axis) axes -> var_of st key = Ok (Some n) -> dims_of st key = Ok [] ->
  In (n, v) ms -> m_dims v <> [] -> exists st', update_dimensions ms st = Ok st' /\ bounds_of st' key = Ok None.
Proof.
  intros ms st key axis n v G ND I V D J N. destruct (update_dimensions_spec ms st G) as (st' & E & G' & O & A). exists st'. split; [exact E|].
  pose proof (axis_key key axis I) as K. specialize (A key K). unfold after_update, updated_key in A.
  rewrite var_read, dims_read in * by assumption. rewrite bounds_read by assumption. injection V as V. injection D as D. rewrite V, D in A.
  unfold source_dims in A. rewrite (dget_nodup ms n v ND J) in A. destruct (m_dims v) as [|d0 dl]; [easy|]. destruct A as (_ & _ & ->). reflexivity.
Qed.
Example C127_bounds_case : bounds_of (user_map None) "time" = Ok (Some "t_bnds") /\ dims_of (user_map None) "time" = Ok [] /\
  match update_dimensions file (user_map None) with Ok st => bounds_of st "time" = Ok None | Err _ => False end.
Proof. now vm_compute. Qed.
Print Assumptions C127_bounds_refuted.

(** ** C128: meshes *)

Definition mesh (host : list (string * string)) : vmetas :=
  [("mesh", mkvmeta "mesh" [] (Some (("cf_role", "mesh_topology") :: host)));
   ("nx", mkvmeta "nx" ["node"] (Some [])); ("ny", mkvmeta "ny" ["node"] (Some []));
   ("fx", mkvmeta "fx" ["face"] (Some [])); ("fy", mkvmeta "fy" ["face"] (Some []));
   ("conn", mkvmeta "conn" ["face"; "corner"] (Some []))].
Lemma mesh_plain host : plain (mesh host).
Proof.
  split; [repeat (constructor; [cbn; intuition discriminate|]); constructor|].
  intros k v I. cbn in I. repeat (destruct I as [[= <- <-]|I]; [split; [reflexivity|split; [discriminate|eexists; reflexivity]]|]). destruct I.
Qed.
Lemma mesh_hosted host : mesh_host (mesh host) (mkvmeta "mesh" [] (Some (("cf_role", "mesh_topology") :: host))).
Proof.
  eexists [], "mesh", _. split; [reflexivity|]. split; [reflexivity|]. intros k v I. cbn in I.
  intuition (match goal with H : (_, _) = (_, _) |- _ => injection H as <- <- end; discriminate).
Qed.

(** A mesh with nodes is distributed along the elements of its connectivity. *)
Theorem C128_elements_partial : forall crs strict ms host st x, plain ms -> mesh_host ms host -> ugrid_map crs strict ms = Ok st ->
  attr host "node_coordinates" = Some x -> exists c v d rest,
    attr host "face_node_connectivity" = Some c /\ In (c, v) ms /\ m_dims v = d :: rest /\ ugrid_distributed st = Ok d.
Proof. intros crs strict ms host st x P Hh Hm. exact (ugrid_elements crs strict ms host st P Hh Hm x). Qed.
Definition nodes := [("node_coordinates", "nx ny"); ("face_node_connectivity", "conn")].
Example C128_elements_case : match ugrid_map None false (mesh nodes) with Ok st => ugrid_distributed st = Ok "face" | Err _ => False end.
Proof. now vm_compute. Qed.
Print Assumptions C128_elements_partial.
(** A mesh that has only the centres of its faces cannot be read. *)
Theorem C128_points_refuted : forall crs strict ms host st, plain ms -> mesh_host ms host -> ugrid_map crs strict ms = Ok st ->
  attr host "node_coordinates" = None -> ugrid_distributed st = Err ValueError.
Proof. exact ugrid_points. Qed.
Example C128_points_case : match ugrid_map None false (mesh [("face_coordinates", "fx fy")]) with
  | Ok st => (exists t, topology_of st "point" = Some t /\ var_of t "x" = Ok (Some "fx") /\ dims_of t "x" = Ok ["face"]) /\ ugrid_distributed st = Err ValueError
  | Err _ => False
  end.
Proof. vm_compute. split; [|reflexivity]. eexists. now split. Qed.
Print Assumptions C128_points_refuted.

(** The coordinates of the nodes are the two variables named. *)
Theorem C128_nodes_partial : forall crs strict ms host st a b, plain ms -> mesh_host ms host -> ugrid_map crs strict ms = Ok st ->
  no_space a -> no_space b -> attr host "node_coordinates" = Some (a ++ " " ++ b)%string ->
  exists t, topology_of st "polygon" = Some t /\ var_of t "x" = Ok (Some a) /\ var_of t "y" = Ok (Some b).
Proof.
  intros crs strict ms host st a b P Hh Hm Na Nb E.
  apply (ugrid_nodes crs strict ms host st P Hh Hm a b E).
  - intros I. assert (S' : split_space (a ++ " " ++ b) = [a; b]) by (cbn [String.append]; rewrite (split_cons a b Na), (split_word b Nb); reflexivity).
    destruct (ugrid_steps crs strict ms host st P Hh Hm) as (st0 & st1 & st2 & T0 & _ & _ & _ & H1 & H2 & _).
    unfold host_coordinates at 1 in H2. rewrite E, S' in H2.
    destruct (host_coordinates_spec ms host "face_coordinates" "point" st0 st1 T0 H1) as (T1 & _).
    destruct (on_topology_spec _ _ _ _ T1 H2) as (t & F & _). cbn [set_coordinates] in F.
    assert (Z' : dg ms "" = None).
    { apply dget_none. intros J. apply in_map_iff in J. destruct J as ((k & v) & Ek & J). cbn [fst] in Ek. subst k. now destruct (proj2 P "" v J) as (_ & Q & _). }
    destruct I as [->|[->|[]]].
    + unfold first_dimension in F. rewrite Z' in F. discriminate.
    + apply bind_Ok in F. destruct F as (? & _ & F). apply bind_Ok in F. destruct F as (? & _ & F). unfold first_dimension in F. rewrite Z' in F. discriminate.
  - cbn [String.append]. now rewrite (split_cons a b Na), (split_word b Nb).
Qed.
Example C128_nodes_case : no_space "nx" /\ no_space "ny" /\ exists st, ugrid_map None false (mesh nodes) = Ok st.
Proof. split; [cbn; intuition discriminate|]. split; [cbn; intuition discriminate|]. eexists. now vm_compute. Qed.
Print Assumptions C128_nodes_partial.
(** More than one space between the names is not understood. *)
Theorem C128_spaces_refuted : forall crs strict ms host st a b, plain ms -> mesh_host ms host -> no_space a ->
  attr host "node_coordinates" = Some (a ++ "  " ++ b)%string -> ugrid_map crs strict ms <> Ok st.
Proof.
  intros crs strict ms host st a b P Hh Na E Hm.
  destruct (ugrid_steps crs strict ms host st P Hh Hm) as (st0 & st1 & st2 & T0 & _ & _ & _ & H1 & H2 & _).
  assert (S' : split_space (a ++ "  " ++ b) = a :: "" :: split_space b).
  { cbn [String.append]. rewrite (split_cons a _ Na). f_equal. exact (split_cons "" b I). }
  unfold host_coordinates at 1 in H2. rewrite E, S' in H2.
  destruct (host_coordinates_spec ms host "face_coordinates" "point" st0 st1 T0 H1) as (T1 & _).
  destruct (on_topology_spec _ _ _ _ T1 H2) as (t & F & _). cbn [set_coordinates] in F.
  apply bind_Ok in F. destruct F as (? & _ & F). apply bind_Ok in F. destruct F as (? & _ & F).
  assert (Z' : dg ms "" = None).
  { apply dget_none. intros J. apply in_map_iff in J. destruct J as ((k & v) & Ek & J). cbn [fst] in Ek. subst k. now destruct (proj2 P "" v J) as (_ & Q & _). }
  unfold first_dimension in F. rewrite Z' in F. discriminate.
Qed.
Example C128_spaces_case : ugrid_map None false (mesh [("node_coordinates", "nx  ny"); ("face_node_connectivity", "conn")]) = Err KeyError.
Proof. now vm_compute. Qed.
Print Assumptions C128_spaces_refuted.
