(** * Coordinate systems: C112 to C115 *)
From Verif Require Import Py Lib RequestNames CrsModel CrsSpec CrsProofs CrsMore.
From Coq Require Import String Ascii Bool List ZArith Lia.
Import ListNotations.
Local Open Scope string_scope.
Local Open Scope list_scope.

(** ** C112: the coordinate system of a file *)

(** The attributes of the grid mapping variable as the object keeps them: without the name
    of the mapping, with the units of the horizontal coordinate for Lambert's projection. *)
Definition kept (k : cfclass) (a p : attrs) (u : aval) : Prop :=
  forall q v, q <> "grid_mapping_name" -> (k = Lambert -> q <> "units") -> aget a q = Some v -> aget p q = Some v.

(** A file with one complete grid mapping: the coordinate system is of its class, has its
    name and attributes, and its parameters are given to PROJ.4 under their PROJ.4 names.
    (A rotated pole may be replaced when it has no priority, see below.) *)
Theorem C112_declared_partial md k g a px py u rp :
  only_mapping md k g a -> k <> Spherical -> coordinates md k px py -> (k = Lambert -> units_of md px u) ->
  (forall p, In p (required k) -> present a p) -> ~ present a "epsg" -> (k <> Rotated \/ rp = true) ->
  exists c, get_crs_variable md rp = Ok (Some c) /\ cs_class c = SCF k /\ cs_name c = g /\ cs_px c = px /\ cs_py c = py /\
    kept k a (cs_params c) u /\ says (cs_value c) "proj" (projection k) /\
    (forall p key, k = Lambert -> In (p, key) [("false_easting", "x_0"); ("false_northing", "y_0")] -> aget a p = None -> aget (cs_value c) key = Some (ANum 0)) /\
    (forall p key v, In (p, key) (proj_key k) -> aget a p = Some v -> aget (cs_value c) key = Some v) /\
    (k = Albers \/ k = Lambert ->
       (forall l i z, aget a "standard_parallel" = Some (ASeq l) -> nth_error l i = Some z ->
          aget (cs_value c) ("lat_" ++ digits (1 + i))%string = Some (ANum z)) /\
       (forall z, aget a "standard_parallel" = Some (ANum z) -> aget (cs_value c) "lat_1" = Some (ANum z))).
Proof.
  intros O K Co Un R E Rp. destruct (the_crs_ok k md g a px py u (om_names _ _ _ _ O) K Co Un R E) as (d & D & T).
  eexists. rewrite (get_crs_variable_only md k g a _ rp O K T).
  assert (B : (negb rp && is_rotated (Some (mkcsys (SCF k) g (add_absent k (read_params md k px a u)) d px py)))%bool = false).
  { destruct Rp as [Rp | ->]; [|reflexivity]. cbn [is_rotated cs_class]. destruct k; try easy; now rewrite andb_false_r. }
  rewrite B. split; [reflexivity|]. cbn [cs_class cs_name cs_px cs_py cs_params cs_value].
  do 4 (split; [reflexivity|]).
  assert (P : forall q v, q <> "grid_mapping_name" -> (k = Lambert -> q <> "units") -> aget a q = Some v ->
                aget (add_absent k (read_params md k px a u)) q = Some v).
  { intros q v N1 N2 G.
    assert (G' : aget (read_params md k px a u) q = Some v).
    { unfold read_params. destruct k; rewrite ?aset_other by (now apply N2); now rewrite dget_dremove. }
    rewrite add_absent_get; [exact G'|now exists v]. }
  split; [exact P|]. split; [|split; [|split; [|intros KL; split]]].
  - unfold says. rewrite (proj_value_proj k _ d D). destruct k; reflexivity.
  - intros p key -> I G. apply (proj_value_zero _ d p key D I). cbn [add_absent]. unfold read_params.
    destruct I as [[= <- <-]|[[= <- <-]|[]]]; rewrite ?aset_other by easy; now rewrite dget_dremove.
  - intros p key v I G. apply (proj_value_key k _ d p key v D I). apply P; [| |exact G];
      destruct k; cbn [proj_key In] in I; decompose [or] I; try easy; congruence.
  - intros l i z G H. apply (proj_value_parallel k _ d l i z KL D); [|exact H]. now apply P.
  - intros z G. apply (proj_value_parallel1 k _ d z KL D). now apply P.
Qed.
Print Assumptions C112_declared_partial.

Definition ex_lambert : attrs :=
  [("grid_mapping_name", AStr "lambert_conformal_conic"); ("standard_parallel", ASeq [30; 60]);
   ("longitude_of_central_meridian", ANum 250); ("latitude_of_projection_origin", ANum 40); ("earth_radius", ANum 6371229)].
Definition ex_md : metadata :=
  [("lcc", mkvmeta "lcc" ex_lambert);
   ("x", mkvmeta "x" [("standard_name", AStr "projection_x_coordinate"); ("units", AStr "m")]);
   ("y", mkvmeta "y" [("standard_name", AStr "projection_y_coordinate"); ("units", AStr "m")]);
   ("tas", mkvmeta "tas" [("grid_mapping", AStr "lcc")])].

Lemma ex_names : names_ok ex_md.
Proof.
  split.
  - cbn. repeat constructor; cbn; intuition discriminate.
  - intros n v I. cbn in I. repeat (destruct I as [I|I]; [injection I as <- <-; reflexivity|]). easy.
Qed.

Lemma ex_only : only_mapping ex_md Lambert "lcc" ex_lambert.
Proof.
  split.
  - exact ex_names.
  - now left.
  - exists "lambert_conformal_conic". split; reflexivity.
  - exists "tas", (mkvmeta "tas" [("grid_mapping", AStr "lcc")]). split; [cbn; auto|reflexivity].
  - easy.
  - intros h (n & v & I & S'). cbn in I. repeat (destruct I as [I|I]; [injection I as <- <-; cbn in S'; try easy|]); try easy.
    unfold says in S'. cbn in S'. congruence.
  - intros n v I S'. cbn in I. repeat (destruct I as [I|I]; [injection I as <- <-; cbn in S'; easy|]). easy.
  - intros n v I F. cbn in I. repeat (destruct I as [I|I]; [injection I as <- <-; try reflexivity; cbn in F; decompose [or] F; easy|]). easy.
Qed.

Example C112_declared_case : exists c, get_crs_variable ex_md false = Ok (Some c) /\ cs_class c = SCF Lambert /\
  aget (cs_value c) "lat_1" = Some (ANum 30) /\ aget (cs_value c) "lat_2" = Some (ANum 60) /\
  aget (cs_value c) "lon_0" = Some (ANum 250) /\ aget (cs_value c) "x_0" = Some (ANum 0) /\
  coordinates ex_md Lambert (cs_px c) (cs_py c) /\ units_of ex_md (cs_px c) (AStr "m").
Proof.
  eexists. split; [vm_compute; reflexivity|]. do 5 (split; [reflexivity|]). split.
  - exists "x", "y". do 2 (split; [reflexivity|]). split; (split; [eexists; split; [cbn; eauto|reflexivity]|]);
      intros m w I S'; cbn in I; repeat (destruct I as [I|I]; [injection I as <- <-; cbn in S'; try reflexivity; easy|]); easy.
  - exists "x". eexists. split; [reflexivity|]. split; [cbn; eauto|]. left. reflexivity.
Qed.

(** Whatever the file: if a variable refers to a grid mapping of a known class and a
    coordinate system is returned, then it is that one, or the spherical one which stands
    in for a rotated pole. *)
Theorem C112_agrees md k s g a n v rp r :
  names_ok md -> In (g, mkvmeta g a) md -> cf_grid_mapping k s -> says a "grid_mapping_name" s -> k <> Spherical ->
  In (n, v) md -> says (vm_attrs v) "grid_mapping" g -> g <> "latitude_longitude" ->
  ~ says (vm_attrs v) "grid_mapping_name" "latitude_longitude" ->
  get_crs_variable md rp = Ok r ->
  exists c, r = Some c /\ ((cs_class c = SCF k /\ cs_name c = g) \/ (k = Rotated /\ rp = false /\ c = cf_spherical)).
Proof.
  intros N Hg Cs Ss K I Sg NL NoL H. apply cf_grid_mapping_iff in Cs. subst s.
  exact (get_crs_variable_refers md k g a n v rp r N Hg Ss K I Sg NL NoL H).
Qed.
Print Assumptions C112_agrees.

(** A file whose variables use two different grid mappings cannot be opened at all, also
    for the variables which use only one of them. *)
Theorem C112_several_refuted md k s g a n v k' s' g' a' n' v' rp :
  names_ok md ->
  In (g, mkvmeta g a) md -> cf_grid_mapping k s -> says a "grid_mapping_name" s -> k <> Spherical -> k <> Rotated ->
  In (n, v) md -> says (vm_attrs v) "grid_mapping" g -> g <> "latitude_longitude" ->
  ~ says (vm_attrs v) "grid_mapping_name" "latitude_longitude" ->
  In (g', mkvmeta g' a') md -> cf_grid_mapping k' s' -> says a' "grid_mapping_name" s' -> k' <> Spherical -> k' <> Rotated ->
  In (n', v') md -> says (vm_attrs v') "grid_mapping" g' -> g' <> "latitude_longitude" ->
  ~ says (vm_attrs v') "grid_mapping_name" "latitude_longitude" -> g <> g' ->
  exists e, get_crs_variable md rp = Err e.
Proof.
  intros N H1 H2 H3 H4 H4' H5 H6 H7 H8 J1 J2 J3 J4 J4' J5 J6 J7 J8 D.
  destruct (get_crs_variable md rp) as [r|e] eqn:E; [|now exists e]. exfalso.
  destruct (C112_agrees md k s g a n v rp r N H1 H2 H3 H4 H5 H6 H7 H8 E) as (c & -> & [[_ A]|[A _]]); [|congruence].
  destruct (C112_agrees md k' s' g' a' n' v' rp _ N J1 J2 J3 J4 J5 J6 J7 J8 E) as (c' & [= <-] & [[_ B]|[B _]]); congruence.
Qed.
Print Assumptions C112_several_refuted.

Definition ex_albers : attrs :=
  [("grid_mapping_name", AStr "albers_conical_equal_area"); ("standard_parallel", ANum 30);
   ("longitude_of_central_meridian", ANum 250); ("latitude_of_projection_origin", ANum 40);
   ("false_easting", ANum 0); ("false_northing", ANum 0)].
Example C112_several_case :
  get_crs_variable (ex_md ++ [("aea", mkvmeta "aea" ex_albers); ("pr", mkvmeta "pr" [("grid_mapping", AStr "aea")])]) false = Err ValueError.
Proof. reflexivity. Qed.

(** Spherical coordinates take the place of a rotated pole without priority exactly when
    there is one longitude and one latitude. *)
Theorem C112_rotated md g a : only_mapping md Rotated g a ->
  (forall p, In p (required Rotated) -> present a p) -> ~ present a "epsg" ->
  (forall x y, the_coordinate md "longitude" x -> the_coordinate md "latitude" y ->
     get_crs_variable md false = Ok (Some cf_spherical)) /\
  ((forall x, ~ the_coordinate md "longitude" x) \/ (forall y, ~ the_coordinate md "latitude" y) ->
     exists c, get_crs_variable md false = Ok (Some c) /\ cs_class c = SCF Rotated /\ cs_name c = g).
Proof.
  intros O R E.
  destruct (the_crs_ok Rotated md g a None None ANone (om_names _ _ _ _ O)) as (d & D & T); try easy.
  rewrite (get_crs_variable_only md Rotated g a _ false O ltac:(easy) T). cbn [negb andb is_rotated cs_class]. split.
  - intros x y X Y. now rewrite (load_spherical2_some md x y (om_names _ _ _ _ O) X Y).
  - intros H. rewrite (load_spherical2_none md (om_names _ _ _ _ O) H). eexists. split; [reflexivity|]. now split.
Qed.
Print Assumptions C112_rotated.

Definition ex_rotated : metadata :=
  [("rotated_pole", mkvmeta "rotated_pole" [("grid_mapping_name", AStr "rotated_latitude_longitude");
      ("grid_north_pole_longitude", ANum 83); ("grid_north_pole_latitude", ANum 42)]);
   ("lon", mkvmeta "lon" [("standard_name", AStr "longitude")]);
   ("lat", mkvmeta "lat" [("standard_name", AStr "latitude")]);
   ("tas", mkvmeta "tas" [("grid_mapping", AStr "rotated_pole")])].
Example C112_rotated_case :
  get_crs_variable ex_rotated false = Ok (Some cf_spherical) /\
  (exists c, get_crs_variable ex_rotated true = Ok (Some c) /\ cs_class c = SCF Rotated) /\
  (exists c, get_crs_variable (ex_rotated ++ [("lon2", mkvmeta "lon2" [("standard_name", AStr "longitude")])]) false = Ok (Some c) /\
     cs_class c = SCF Rotated).
Proof. split; [reflexivity|]. split; (eexists; split; [vm_compute; reflexivity|reflexivity]). Qed.

(** Without a grid mapping, the PROJ.4 string written by this package counts, and then the
    default of the driver. *)
Theorem C112_none md rp d : names_ok md -> no_mapping md ->
  ((forall n v t, In (n, v) md -> ~ proj4_variable v t) -> get_crs d md rp = Ok d) /\
  (forall n v t, In (n, v) md -> proj4_variable v t -> (forall m w s, In (m, w) md -> proj4_variable w s -> m = n) ->
     get_crs d md rp = Ok (Some (mkcsys (SProj4 t) n [] [] None None))) /\
  (forall n v t n' v' t', In (n, v) md -> proj4_variable v t -> In (n', v') md -> proj4_variable v' t' -> n <> n' ->
     get_crs d md rp = Err ValueError).
Proof.
  intros N M. unfold get_crs. rewrite (no_mapping_proj4 md rp N M). split; [|split].
  - intros H. now rewrite (load_proj4_none md H).
  - intros n v t I P U. now rewrite (load_proj4_one md n v t N I P U).
  - intros n v t n' v' t' I P I' P' D. now rewrite (load_proj4_two md n v t n' v' t' I P I' P' D).
Qed.
Print Assumptions C112_none.

Example C112_none_case :
  get_crs (Some cf_spherical) [("tas", mkvmeta "tas" [])] false = Ok (Some cf_spherical) /\
  get_crs (Some cf_spherical) [("tas", mkvmeta "tas" [("grid_mapping", AStr "c")]);
      ("c", mkvmeta "c" [("proj4", AStr "+proj=lcc"); ("ocgis_role", AStr "coordinate_system")])] false
    = Ok (Some (mkcsys (SProj4 "+proj=lcc") "c" [] [] None None)).
Proof. split; reflexivity. Qed.

(** The radius of a file on a sphere is never read: every spherical coordinate system has
    the default radius. *)
Theorem C112_radius_refuted md rp c : get_crs_variable md rp = Ok (Some c) -> cs_class c = SCF Spherical ->
  aget (cs_value c) "a" = Some (ANum 6370997) /\ aget (cs_value c) "b" = Some (ANum 6370997).
Proof. intros H K. rewrite (spherical_found md rp c H K). split; reflexivity. Qed.
Print Assumptions C112_radius_refuted.

Example C112_radius_case : get_crs_variable
  [("crs", mkvmeta "crs" [("grid_mapping_name", AStr "latitude_longitude"); ("earth_radius", ANum 6371229)]);
   ("tas", mkvmeta "tas" [("grid_mapping", AStr "crs")])] false = Ok (Some cf_spherical).
Proof. reflexivity. Qed.

(** The shape of the Earth does not count for the other classes either. *)
Theorem C112_ellipsoid_refuted k px py name kwds c p v :
  cf_init k px py name kwds = Ok c -> In p earth_attributes ->
  exists c', cf_init k px py name (aset kwds p v) = Ok c' /\ cs_value c' = cs_value c.
Proof.
  intros H I. apply (unread_attribute k px py name kwds c p v H);
    cbn [earth_attributes In] in I; decompose [or] I; try subst p; try easy;
    destruct k; cbn; intuition discriminate.
Qed.
Print Assumptions C112_ellipsoid_refuted.

Example C112_ellipsoid_case : exists c c', get_crs_variable ex_md false = Ok (Some c) /\
  get_crs_variable (("lcc", mkvmeta "lcc" (aset ex_lambert "earth_radius" (ANum 1))) :: tl ex_md) false = Ok (Some c') /\
  cs_value c = cs_value c' /\ cs_params c <> cs_params c'.
Proof. do 2 eexists. split; [vm_compute; reflexivity|]. split; [vm_compute; reflexivity|]. split; [reflexivity|discriminate]. Qed.

(** A file cannot be opened when its horizontal coordinates have no standard names... *)
Theorem C112_coordinates_refuted md k g a rp :
  only_mapping md k g a -> k <> Spherical -> k <> Rotated ->
  (forall n v, In (n, v) md -> ~ says (vm_attrs v) "standard_name" "projection_x_coordinate") ->
  exists e, get_crs_variable md rp = Err e.
Proof.
  intros O K K' No. destruct (get_crs_variable md rp) as [r|e] eqn:E; [|now exists e]. exfalso.
  destruct (get_crs_variable_inv md rp r E) as (found & F & _).
  destruct (om_used _ _ _ _ O) as (n & v & I & Sg).
  destruct (proj1 (found_all_in md _ F) n v I) as (o & Eo & Io).
  pose proof O as [N Hr (s & Cs & Ss) _ NL On NoL Al]. apply cf_grid_mapping_iff in Cs. subst s.
  destruct (first_class_refers md k g a n v subclasses o N Hr Ss K I Sg NL (NoL n v I) Eo (in_subclasses k)) as (c & -> & C1 & _).
  destruct (first_class_some _ _ _ _ Eo) as (k' & _ & L).
  destruct (load_class_some _ _ _ _ L) as [[-> ->]|(_ & Kc & w & g' & _ & _ & _ & T)].
  - cbn in C1. congruence.
  - assert (k' = k) as -> by congruence. unfold the_crs in T.
    assert (Fc : finds_coordinates k = true) by (destruct k; easy). rewrite Fc in T.
    rewrite (projection_coordinate_none md "projection_x_coordinate" No) in T. easy.
Qed.
Print Assumptions C112_coordinates_refuted.

Example C112_coordinates_case :
  get_crs_variable [("lcc", mkvmeta "lcc" ex_lambert); ("x", mkvmeta "x" [("axis", AStr "X")]);
    ("tas", mkvmeta "tas" [("grid_mapping", AStr "lcc")]); ("pr", mkvmeta "pr" [])] false = Err ProjectionCoordinateNotFound.
Proof. reflexivity. Qed.

(** ...or when an optional attribute is left out: CF's false easting and northing, and the
    standard parallel of a polar stereographic projection given by its scale factor. *)
Theorem C112_optional_refuted k px py name kwds p : In p (required k) -> ~ present (add_absent k kwds) p ->
  exists e, cf_init k px py name kwds = Err e.
Proof.
  intros I N. destruct (cf_init k px py name kwds) as [c|e] eqn:E; [|now exists e]. exfalso.
  destruct (cf_init_inv _ _ _ _ _ _ E) as (_ & V & _). exact (N (proj_value_required _ _ _ V p I)).
Qed.
Print Assumptions C112_optional_refuted.

Example C112_optional_case :
  cf_init Albers (Some "x") (Some "y") "aea" [("standard_parallel", ANum 30); ("longitude_of_central_meridian", ANum 250);
    ("latitude_of_projection_origin", ANum 40)] = Err KeyError /\
  cf_init Polar (Some "x") (Some "y") "ps" [("scale_factor_at_projection_origin", ANum 1); ("latitude_of_projection_origin", ANum 90);
    ("straight_vertical_longitude_from_pole", ANum 0); ("false_easting", ANum 0); ("false_northing", ANum 0)] = Err KeyError.
Proof. split; reflexivity. Qed.

(** A coordinate system given with the request is the one of the request and of its field. *)
Theorem C112_given d md rp g c : get_crs d md rp = Ok c ->
  field_crs (Given g) d md rp = Ok g /\ request_crs (Given g) d md rp = Ok g /\
  field_crs Auto d md rp = Ok c /\ request_crs Auto d md rp = Ok c.
Proof. intros H. unfold field_crs, request_crs. now rewrite H. Qed.
Print Assumptions C112_given.

(** But it does not help to open a file whose own coordinate system cannot be read. *)
Theorem C112_given_refuted d md rp g e : get_crs_variable md rp = Err e ->
  request_crs (Given g) d md rp = Ok g /\ field_crs (Given g) d md rp = Err e.
Proof. intros H. unfold field_crs, request_crs, get_crs. now rewrite H. Qed.
Print Assumptions C112_given_refuted.

Example C112_given_case :
  field_crs (Given None) (Some cf_spherical) ex_md false = Ok None /\
  field_crs (Given (Some cf_spherical)) None [("lcc", mkvmeta "lcc" ex_lambert); ("tas", mkvmeta "tas" [("grid_mapping", AStr "lcc")])] false
    = Err ProjectionCoordinateNotFound.
Proof. split; reflexivity. Qed.

(** ** C113: writing a coordinate system and reading it again *)

(** A CF coordinate system comes back unchanged, if the file has its coordinates, and for
    Lambert's projection the same units of the coordinates. *)
Theorem C113_cf_partial k px py g kwds c md w text :
  cf_init k px py g kwds = Ok c -> k <> Spherical ->
  NoDup (map fst (cs_params c)) -> ~ In "grid_mapping_name" (map fst (cs_params c)) ->
  (forall p v, In (p, v) (cs_params c) -> v = ANone -> k = Lambert /\ p = "units") ->
  only_mapping md k g (snd (write_crs (WCF c) w text)) -> coordinates md k px py ->
  (k = Lambert -> exists u, units_of md px u /\ aget (cs_params c) "units" = Some u) ->
  get_crs_variable md true = Ok (Some c).
Proof. exact (roundtrip_cf k px py g kwds c md w text). Qed.
Print Assumptions C113_cf_partial.

Example C113_cf_case : exists c, get_crs_variable ex_md false = Ok (Some c) /\
  get_crs_variable (("lcc", mkvmeta "lcc" (snd (write_crs (WCF c) None (fun _ => "")))) :: tl ex_md) true = Ok (Some c).
Proof. eexists. split; vm_compute; reflexivity. Qed.

(** Another coordinate system comes back with its name and its PROJ.4 string, if the file
    has no grid mapping besides. *)
Theorem C113_proj4_partial n t md rp d w text : names_ok md -> no_mapping md ->
  In (n, mkvmeta n (snd (write_crs (WProj4 n t) w text))) md ->
  (forall m v s, In (m, v) md -> proj4_variable v s -> m = n) ->
  get_crs d md rp = Ok (Some (mkcsys (SProj4 t) n [] [] None None)).
Proof.
  intros N M I U. apply (proj1 (proj2 (C112_none md rp d N M)) n _ t I); [|exact U].
  destruct w; split; reflexivity.
Qed.
Print Assumptions C113_proj4_partial.

Example C113_proj4_case :
  get_crs (Some cf_spherical) [("tas", mkvmeta "tas" [("grid_mapping", AStr "ocgis_coordinate_system")]);
     let '(n, a) := write_crs (WProj4 "ocgis_coordinate_system" "+proj=utm") None (fun _ => "") in (n, mkvmeta n a)] false
  = Ok (Some (mkcsys (SProj4 "+proj=utm") "ocgis_coordinate_system" [] [] None None)).
Proof. reflexivity. Qed.

(** A sphere of any radius is read again as the sphere with the default radius, and so is
    any coordinate system with the name of the CF sphere. *)
Theorem C113_name_refuted md n v x w text rp r : names_ok md -> In (n, v) md ->
  says (vm_attrs v) "grid_mapping" "latitude_longitude" ->
  (exists radius t, x = WSpherical radius t) \/ (exists t, x = WProj4 "latitude_longitude" t) ->
  In ("latitude_longitude", mkvmeta "latitude_longitude" (snd (write_crs x w text))) md ->
  get_crs_variable md rp = Ok r -> r = Some cf_spherical.
Proof.
  intros N I Sg X Iw H. destruct (get_crs_variable_inv md rp r H) as (found & F & Y).
  destruct (proj1 (found_all_in md _ F) n v I) as (o & Eo & Io).
  assert (o = Some cf_spherical) as ->.
  { unfold subclasses in Eo. cbn [first_class load_class] in Eo. unfold load_spherical1 in Eo. rewrite (aget_in md n v N I) in Eo.
    rewrite (proj2 (attr_is_iff _ _ _) Sg) in Eo. cbn [orb bind] in Eo. now injection Eo as <-. }
  pose proof (Io _ eq_refl) as Ic.
  destruct Y as [[-> _]|(d & t & -> & Nm & R)]; [easy|]. destruct R as [-> |(_ & _ & _ & ->)]; [|reflexivity].
  destruct (proj2 (found_all_in md _ F) d (or_introl eq_refl)) as (m & u & Im & E).
  destruct (first_class_some _ _ _ _ E) as (k & Ik & L).
  destruct (load_class_some _ _ _ _ L) as [[_ ->]|(N' & Kc & v' & g' & E1 & E2 & E3 & E4)]; [reflexivity|].
  exfalso. apply the_crs_class in E4. destruct E4 as [_ E4]. rewrite <- (Nm _ Ic) in E4. cbn [cs_name cf_spherical] in E4.
  destruct (grid_mapping_of_in md k v' g' E2) as [m' Ig]. rewrite (proj2 N m' g' Ig) in E4. subst m'.
  pose proof (aget_in md _ g' N Ig) as Q. rewrite (aget_in md _ _ N Iw) in Q. injection Q as <-. cbn [vm_attrs] in E3.
  destruct X as [(ra & t' & ->)|(t' & ->)]; destruct w; cbn in E3; easy.
Qed.
Print Assumptions C113_name_refuted.

Example C113_name_case :
  get_crs_variable [("tas", mkvmeta "tas" [("grid_mapping", AStr "latitude_longitude")]);
    let '(n, a) := write_crs (WSpherical 6371229 "+proj=longlat +a=6371229") None (fun _ => "") in (n, mkvmeta n a)] false
  = Ok (Some cf_spherical).
Proof. reflexivity. Qed.

(** The argument which asks for the PROJ.4 string, or for none, has no effect. *)
Theorem C113_keyword_refuted x b text : write_crs x (Some b) text = write_crs x None text.
Proof. reflexivity. Qed.
Print Assumptions C113_keyword_refuted.

Example C113_keyword_case :
  write_crs (WProj4 "c" "+proj=utm") (Some false) (fun _ => "") = ("c", [("proj4", AStr "+proj=utm"); ("ocgis_role", AStr "coordinate_system")]) /\
  write_crs (WCF cf_spherical) (Some true) (fun _ => "+proj=longlat") = ("latitude_longitude", [("grid_mapping_name", AStr "latitude_longitude")]).
Proof. split; reflexivity. Qed.

(** ** C114: equality of coordinate systems *)

(** Every coordinate system equals itself. *)
Theorem C114_reflexive same a : (forall v, same v v = true) -> py_eq same a a = true.
Proof.
  intros H. destruct a as [c v|i|]; [|apply Nat.eqb_refl|reflexivity].
  destruct c; cbn [py_eq method_eq]; unfold wgs_eq; cbn [base_eq]; rewrite H; reflexivity.
Qed.
Print Assumptions C114_reflexive.

(** Equality is symmetric, as far as the library's comparison is, except between [WGS84]
    and the siblings of its class. *)
Theorem C114_symmetric_partial same a b : (forall v w, same v w = same w v) ->
  (forall c v, a = EProj c v -> NoDup (map fst v)) -> (forall c v, b = EProj c v -> NoDup (map fst v)) ->
  (forall v c w, (a = EProj EWgs84 v /\ b = EProj c w) \/ (b = EProj EWgs84 v /\ a = EProj c w) -> c = EBase) ->
  py_eq same a b = py_eq same b a.
Proof.
  intros H Na Nb W. destruct a as [c v|i|], b as [c' w|j|]; try reflexivity; try (destruct c; reflexivity); try (destruct c'; reflexivity).
  - pose proof (Na c v eq_refl) as Nv. pose proof (Nb c' w eq_refl) as Nw.
    destruct c, c'; try reflexivity; cbn [py_eq method_eq]; try exact (base_eq_sym same _ _ v w H Nv Nw);
      try (specialize (W v EGeneral w); assert (EGeneral = EBase) by (apply W; auto); easy);
      try (specialize (W w EGeneral v); assert (EGeneral = EBase) by (apply W; auto); easy).
    + specialize (W w (ESpherical radians) v). assert (ESpherical radians = EBase) by (apply W; auto). easy.
    + specialize (W v (ESpherical radians) w). assert (ESpherical radians = EBase) by (apply W; auto). easy.
    + specialize (W v EWgs84 w). assert (EWgs84 = EBase) by (apply W; auto). easy.
  - cbn [py_eq]. destruct (Nat.eqb_spec i j), (Nat.eqb_spec j i); congruence.
Qed.
Print Assumptions C114_symmetric_partial.

Example C114_symmetric_case :
  py_eq deq (EProj EBase wgs84_plain) (EProj EWgs84 wgs84_value) = true /\ py_eq deq (EProj EWgs84 wgs84_value) (EProj EBase wgs84_plain) = true.
Proof. split; reflexivity. Qed.

(** [WGS84() == CRS(...)] and [CRS(...) == WGS84()] can differ, *)
Theorem C114_wgs84_refuted same : same wgs84_plain wgs84_value = false ->
  py_eq same (EProj EWgs84 wgs84_value) (EProj EGeneral wgs84_plain) = true /\
  py_eq same (EProj EGeneral wgs84_plain) (EProj EWgs84 wgs84_value) = false.
Proof.
  intros H. split; [|cbn [py_eq method_eq base_eq]; rewrite H; reflexivity].
  cbn [py_eq method_eq]. unfold wgs_eq. apply orb_true_iff. right. reflexivity.
Qed.
Print Assumptions C114_wgs84_refuted.

Example C114_wgs84_case : deq wgs84_plain wgs84_value = false.
Proof. reflexivity. Qed.

(** and equality is not transitive, even if the library's comparison is. *)
Definition ex_a : attrs := [("proj", AStr "ob_tran"); ("lon_0", ANum 10)].
Definition ex_b : attrs := [("proj", AStr "ob_tran"); ("lon_0", ANum 10); ("wktext", AStr "True")].
Definition ex_c : attrs := [("proj", AStr "ob_tran"); ("lon_0", ANum 370); ("wktext", AStr "True")].
Definition ex_key (v : attrs) : bool := dmem String.eqb v "wktext".
Definition ex_same (v w : attrs) : bool := Bool.eqb (ex_key v) (ex_key w).

Theorem C114_transitive_refuted : exists same a b c, equivalence same /\
  py_eq same a b = true /\ py_eq same b c = true /\ py_eq same a c = false.
Proof.
  exists ex_same, (EProj EGeneral ex_a), (EProj EGeneral ex_b), (EProj EGeneral ex_c). split.
  - unfold equivalence, ex_same. split; [|split].
    + intros v. apply eqb_reflx.
    + intros v w. destruct (ex_key v), (ex_key w); reflexivity.
    + intros v w x H1 H2. apply eqb_prop in H1, H2. rewrite H1, H2. apply eqb_reflx.
  - do 2 (split; [reflexivity|]). reflexivity.
Qed.
Print Assumptions C114_transitive_refuted.

(** Spheres measured in degrees and in radians are equal; two Cartesian systems are not. *)
Theorem C114_units_refuted same v : (forall v, same v v = true) ->
  py_eq same (EProj (ESpherical true) v) (EProj (ESpherical false) v) = true /\
  (forall i j, i <> j -> py_eq same (EPlain i) (EPlain j) = false).
Proof.
  intros H. split; [cbn [py_eq method_eq base_eq]; now rewrite H|]. intros i j N. cbn. now apply Nat.eqb_neq.
Qed.
Print Assumptions C114_units_refuted.

(** A PROJ.4 coordinate system is never equal to a Cartesian one, to [None] or to another
    object. *)
Theorem C114_other same c v b : (forall c' w, b <> EProj c' w) ->
  py_eq same (EProj c v) b = false /\ py_eq same b (EProj c v) = false /\
  py_ne same (EProj c v) b = true /\ py_ne same b (EProj c v) = true.
Proof.
  intros H. unfold py_ne. destruct b as [c' w|i|]; [now destruct (H c' w)| |]; destruct c; repeat split.
Qed.
Print Assumptions C114_other.

(** ** C115: making coordinate systems *)

(** A dictionary is used as it is; without one a PROJ.4 string, without that a code; nothing
    at all is refused; the code of WGS84 is always WGS84. *)
Theorem C115_source code value proj4 epsg : (forall d, value = Some d -> ~ In "init" (map fst d)) ->
  crs_init code value proj4 epsg =
    match epsg, value, proj4 with
    | Some 4326%Z, _, _ => Ok (FromValue wgs84_value)
    | _, Some d, _ => Ok (FromValue d)
    | _, None, Some t => Ok (FromText t)
    | Some n, None, None => Ok (FromCode n)
    | None, None, None => Err ValueError
    end.
Proof.
  intros H.
  assert (Q : forall n : Z, n <> 4326%Z -> forall (T : Type) (x y : T), match n with 4326%Z => x | _ => y end = y).
  { intros n N T x y. destruct n as [|p|p]; try reflexivity. do 13 (destruct p as [p|p|]; try reflexivity). easy. }
  assert (M : forall d, value = Some d -> dmem String.eqb d "init" = false).
  { intros d E. destruct (dmem String.eqb d "init") eqn:M; [|reflexivity]. apply dmem_iff in M. now destruct (H d E). }
  destruct epsg as [n|].
  - destruct (Z.eq_dec n 4326) as [->|N]; [reflexivity|]. unfold crs_init. cbv zeta. rewrite !(Q n N).
    destruct value as [d|]; [rewrite (M d eq_refl); reflexivity|]. now destruct proj4.
  - unfold crs_init. cbv zeta. destruct value as [d|]; [rewrite (M d eq_refl); reflexivity|]. now destruct proj4.
Qed.
Print Assumptions C115_source.

Example C115_source_case code :
  crs_init code (Some ex_a) (Some "+proj=utm") (Some 2136%Z) = Ok (FromValue ex_a) /\
  crs_init code None (Some "+proj=utm") (Some 2136%Z) = Ok (FromText "+proj=utm") /\ crs_init code None None None = Err ValueError.
Proof. split; [|split]; reflexivity. Qed.

(** The code in a dictionary is found when it is the first entry, *)
Theorem C115_init_partial code s n t proj4 epsg : starts_epsg s = true -> code s = Some n -> epsg <> Some 4326%Z -> proj4 = None ->
  crs_init code (Some (("init", AStr s) :: t)) proj4 epsg = Ok (FromCode n).
Proof.
  intros A C N ->.
  assert (Q : forall n : Z, n <> 4326%Z -> forall (T : Type) (x y : T), match n with 4326%Z => x | _ => y end = y).
  { intros m N' T x y. destruct m as [|p|p]; try reflexivity. do 13 (destruct p as [p|p|]; try reflexivity). easy. }
  unfold crs_init. cbv zeta. destruct epsg as [m|]; [rewrite Q by congruence|];
    unfold dmem; cbn [dget]; rewrite String.eqb_refl, A, C; reflexivity.
Qed.
Print Assumptions C115_init_partial.

(** and otherwise the first entry is taken for it, or the construction fails. *)
Theorem C115_init_refuted code k0 s n x t : In "init" (map fst t) ->
  (starts_epsg s = true -> code s = Some n -> crs_init code (Some ((k0, AStr s) :: t)) None None = Ok (FromCode n)) /\
  crs_init code (Some ((k0, ANum x) :: t)) None None = Err AttributeError.
Proof.
  intros I.
  assert (M : forall v, dmem String.eqb ((k0, v) :: t) "init" = true).
  { intros v. apply dmem_iff. cbn [map fst]. now right. }
  split.
  - intros A C. unfold crs_init. cbv zeta. now rewrite M, A, C.
  - unfold crs_init. cbv zeta. now rewrite M.
Qed.
Print Assumptions C115_init_refuted.

Example C115_init_case code :
  crs_init code (Some [("zone", ANum 10); ("init", AStr "epsg:2136")]) None None = Err AttributeError /\
  (code "epsg:2136" = Some 2136%Z -> crs_init code (Some [("init", AStr "epsg:2136"); ("zone", ANum 10)]) None None = Ok (FromCode 2136)).
Proof. split; [reflexivity|]. intros H. now apply C115_init_partial. Qed.

(** [create_crs]: a sphere or WGS84 only for dictionaries which say so; otherwise the
    dictionary itself under the name asked for. *)
Theorem C115_create_partial code d name r : create_crs code (Some d) name = Ok (Some r) ->
  match r with
  | MadeSpherical => says d "proj" "longlat" /\ aget d "a" = Some (ANum 6370997) /\ aget d "b" = Some (ANum 6370997)
  | MadeWgs84 => says d "proj" "longlat" /\ says d "datum" "WGS84"
  | MadeOther m n => crs_init code (Some d) None None = Ok m /\ (forall s, name = Some s -> n = s)
  end /\ (forall t, aget d "towgs84" = Some t -> r = MadeSpherical \/ r = MadeWgs84 -> t = AStr "0,0,0,0,0,0,0").
Proof.
  unfold create_crs.
  assert (F : forall req t, fuzzy_check req t d = true -> (forall k v, In (k, v) req -> aget d k = Some v) /\
                (forall x, aget d "towgs84" = Some x -> x = t)).
  { intros req t H. unfold fuzzy_check in H. apply andb_true_iff in H. destruct H as [H1 H2]. rewrite forallb_forall in H1. split.
    - intros k v I. specialize (H1 (k, v) I). cbn in H1. destruct (aget d k) as [w|]; [|easy]. apply aval_eqb_eq in H1. now subst.
    - intros x E. rewrite E in H2. now apply aval_eqb_eq in H2. }
  destruct (fuzzy_spherical d) eqn:S', (fuzzy_wgs84 d) eqn:W; try easy.
  - intros [= <-]. destruct (F _ _ S') as [A B]. split.
    + split; [|split]; apply A; cbn; auto.
    + intros t E _. exact (B t E).
  - intros [= <-]. destruct (F _ _ W) as [A B]. split.
    + split; apply A; cbn; auto.
    + intros t E _. exact (B t E).
  - destruct (crs_init code (Some d) None None) as [m|]; [|easy]. cbn [bind]. intros [= <-]. split.
    + split; [reflexivity|]. intros s ->. reflexivity.
    + intros t _ [E|E]; discriminate E.
Qed.
Print Assumptions C115_create_partial.

Example C115_create_case code :
  create_crs code (Some (spherical_value 6370997)) None = Ok (Some MadeSpherical) /\
  create_crs code (Some wgs84_plain) None = Ok (Some MadeWgs84) /\
  create_crs code (Some ex_a) (Some "mine") = Ok (Some (MadeOther (FromValue ex_a) "mine")) /\ create_crs code None None = Ok None.
Proof. repeat split. Qed.

(** Everything else in a dictionary of WGS84 is forgotten, as is the name asked for. *)
Theorem C115_create_refuted code d name name' k v :
  create_crs code (Some d) name = Ok (Some MadeWgs84) -> ~ In k ["proj"; "datum"; "towgs84"; "a"; "b"] ->
  create_crs code (Some (aset d k v)) name' = Ok (Some MadeWgs84).
Proof.
  unfold create_crs. intros H N.
  assert (F : forall req t, (forall x, In x (map fst req) -> x <> k) -> fuzzy_check req t (aset d k v) = fuzzy_check req t d).
  { intros req t X. unfold fuzzy_check. rewrite (aset_other d k v "towgs84") by (intros <-; apply N; cbn; auto). f_equal.
    induction req as [|[p q] l IH]; [reflexivity|]. cbn [forallb]. rewrite IH by (intros x I; apply X; now right).
    rewrite aset_other; [reflexivity|]. apply X. now left. }
  assert (A : fuzzy_spherical (aset d k v) = fuzzy_spherical d).
  { apply F. intros x I E. subst x. apply N. cbn in I |- *. decompose [or] I; subst; auto 8. }
  assert (B : fuzzy_wgs84 (aset d k v) = fuzzy_wgs84 d).
  { apply F. intros x I E. subst x. apply N. cbn in I |- *. decompose [or] I; subst; auto 8. }
  rewrite A, B. destruct (fuzzy_spherical d), (fuzzy_wgs84 d); try easy.
  destruct (crs_init code (Some d) None None); easy.
Qed.
Print Assumptions C115_create_refuted.

Example C115_create_lost_case code :
  create_crs code (Some (wgs84_plain ++ [("pm", AStr "paris")])) (Some "mine") = Ok (Some MadeWgs84).
Proof. reflexivity. Qed.
