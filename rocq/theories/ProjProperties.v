(** * Transformation between coordinate systems: C116 and C117 *)
From Verif Require Import Py Lib RequestNames CrsModel CrsSpec CrsProofs CrsMore CrsProperties ProjModel ProjSpec ProjProofs.
From Coq Require Import String Ascii Bool List ZArith Lia.
Import ListNotations.
Local Open Scope string_scope.
Local Open Scope list_scope.

(** ** C116: [update_crs] keeps places *)

(** Between systems which the libraries know, every point, corner and vertex of a field is
    the same place afterwards, in the same order, and the field has the new system. *)
Theorem C116_field_partial {pt place} project rotate cart unwrapped with_height same
  (dec : crs -> pt -> place) lonlat f cur c d from :
  right_libraries dec lonlat project rotate cart ->
  field_system f = Ok cur -> (match from with Some c => Some c | None => cur end) = Some c ->
  (forall x, cur = Some x -> ordinary x) -> ordinary c -> ordinary d -> in_degrees d ->
  (same c d = true -> forall p, dec d p = dec c p) -> masked_gaps f ->
  f_grid f <> None \/ f_geom f <> None ->
  exists f', update_crs project rotate cart unwrapped with_height same f (Some d) from = Ok f' /\ is_in f' d /\
    point_places (dec d) f' = point_places (dec c) f /\ corner_places (dec d) f' = corner_places (dec c) f /\
    geom_places (dec d) f' = geom_places (dec c) f.
Proof.
  intros R S' F U C D Dg Sm M Sp.
  destruct (update_ordinary project rotate cart unwrapped with_height same dec lonlat f cur c d from R S' F U C D Dg Sm M Sp)
    as (f' & E & I & _ & P). exists f'. now split.
Qed.
Print Assumptions C116_field_partial.

(** A world for the cases: places are numbers; coordinates are shifted by the length of the
    dictionary, by 1000 for a rotated pole and by 5000 for Cartesian coordinates. *)
Definition ex_sys (k : kind) (n : string) (v : attrs) : crs := mkcrs k n v.
Definition ex_utm : crs := mkcrs (KGeneral false) "utm" [("proj", AStr "utm"); ("zone", ANum 10)].
Definition ex_wgs : crs := mkcrs KWgs84 "WGS84_EPSG_4326" wgs84_value.
Definition ex_sph : crs := mkcrs (KSphere false) "latitude_longitude" [].
Definition ex_rot : crs := mkcrs KRotated "rotated_pole" [("proj", AStr "omerc"); ("None", ANum 39)].
Definition ex_cart : crs := mkcrs KCartesian "cartesian" [].
Definition ex_dec (c : crs) (p : Z) : Z :=
  match c_kind c with KRotated => p - 1000 | KCartesian => p - 5000 | KTripole => p | _ => p - Z.of_nat (length (c_value c)) end%Z.
Definition ex_project (v w : attrs) (p : Z) : Z := (p - Z.of_nat (length v) + Z.of_nat (length w))%Z.
Definition ex_rotate (c : crs) (inverse : bool) (p : Z) : Z := (if inverse then p + 1000 else p - 1000)%Z.
Definition ex_off (c : crs) : Z := match c_kind c with KTripole => 0 | _ => Z.of_nat (length (c_value c)) end.
Definition ex_cartf (c : crs) (inverse : bool) (p : Z) : Z := (if inverse then p - 5000 + ex_off c else p - ex_off c + 5000)%Z.
Definition ex_same (c d : crs) : bool := deq (c_value c) (c_value d).
Definition ex_grid : grid Z := mkgrid [10; 20]%Z (Some [5; 15; 25]%Z) (Some true)
  [("units", AStr "m"); ("axis", AStr "X")] [("units", AStr "m")] [("units", AStr "hPa")].
Definition ex_poly : shape Z := mkshape true [1; 2; 3]%Z [[7; 8; 9]%Z] false.
Definition ex_field (c : crs) : field Z :=
  mkfield (Some (c_name c)) [(c_name c, c)] (Some ex_grid) (Some [(Some ex_poly, false)]) [("tas", None)].
Notation ex_update := (update_crs ex_project ex_rotate ex_cartf (fun _ => false) (fun p => p) ex_same).

Lemma ex_right : right_libraries ex_dec ex_sph ex_project ex_rotate ex_cartf.
Proof.
  constructor.
  - intros c d p C D. unfold ordinary in *. unfold ex_dec, ex_project. destruct (c_kind c), (c_kind d); try easy; lia.
  - intros r p K. unfold ex_dec, ex_rotate. rewrite K. cbn. lia.
  - intros r p K. unfold ex_dec, ex_rotate. rewrite K. cbn. lia.
  - intros s c p S' K. unfold spherical in S'. unfold ex_dec, ex_cartf, ex_off. rewrite K. destruct (c_kind s); try easy; lia.
  - intros s c p S' K. unfold spherical in S'. unfold ex_dec, ex_cartf, ex_off. rewrite K. destruct (c_kind s); try easy; lia.
Qed.

Example C116_field_case : exists f', ex_update (ex_field ex_utm) (Some ex_wgs) None = Ok f' /\ is_in f' ex_wgs /\
  point_places (ex_dec ex_wgs) f' = Some [8; 18]%Z /\ point_places (ex_dec ex_utm) (ex_field ex_utm) = Some [8; 18]%Z.
Proof. eexists. split; [vm_compute; reflexivity|]. repeat split. Qed.

(** From a rotated pole to longitudes and latitudes the points are kept, and so they are
    back to a rotated pole; the corners are lost. *)
Theorem C116_rotated_partial {pt place} project rotate cart unwrapped with_height same
  (dec : crs -> pt -> place) lonlat f g r d :
  right_libraries dec lonlat project rotate cart ->
  is_in f r -> c_kind r = KRotated -> f_grid f = Some g -> f_geom f = None ->
  is_cartesian d = false -> in_degrees d -> (forall p, dec d p = dec lonlat p) ->
  exists f', update_crs project rotate cart unwrapped with_height same f (Some d) None = Ok f' /\ is_in f' d /\
    point_places (dec d) f' = point_places (dec r) f /\ (forall g', f_grid f' = Some g' -> g_corners g' = None).
Proof.
  intros R I K G Ge Dc Dg Dl.
  destruct (update_ok project rotate cart unwrapped with_height same f (Some r) r d None I eq_refl Dg) as (f' & E & I' & _ & G1 & _).
  { left. now rewrite G. }
  { intros g0 _. rewrite (values_from_rotated project rotate cart unwrapped r d g0 K Dc). eexists; reflexivity. }
  { intros l El. congruence. }
  exists f'. split; [exact E|]. split; [exact I'|].
  destruct (G1 g G) as (g1 & g' & V & Eg & g3 & E3 & E4). rewrite (values_from_rotated project rotate cart unwrapped r d g K Dc) in V.
  injection V as <-. apply format_grid_values in E3, E4. destruct E3 as (A3 & B3 & _), E4 as (A4 & B4 & _). split.
  - unfold point_places. rewrite Eg, G. cbn [option_map]. rewrite A4, A3. cbn [g_points]. rewrite map_map. f_equal. apply map_ext.
    intros p. now rewrite Dl, (ok_unrotate _ _ _ _ _ R r p K).
  - intros g'' E'. rewrite Eg in E'. injection E' as <-. now rewrite B4, B3.
Qed.
Print Assumptions C116_rotated_partial.

Theorem C116_to_rotated_partial {pt place} project rotate cart unwrapped with_height same
  (dec : crs -> pt -> place) lonlat f g c r :
  right_libraries dec lonlat project rotate cart ->
  is_in f c -> c_kind r = KRotated -> f_grid f = Some g -> f_geom f = None ->
  ordinary c -> is_geographic c = true -> (forall p, dec c p = dec lonlat p) ->
  exists f', update_crs project rotate cart unwrapped with_height same f (Some r) None = Ok f' /\ is_in f' r /\
    point_places (dec r) f' = point_places (dec c) f /\ (forall g', f_grid f' = Some g' -> g_corners g' = None).
Proof.
  intros R I K G Ge C Gg Dl. destruct (ordinary_not c C) as [C1 C2].
  assert (V0 : forall g0, grid_values project rotate cart unwrapped (Some c) c r g0 =
    Ok (mkgrid (map (rotate r true) (g_points g0)) None (g_level g0) (g_x g0) (g_y g0) (g_z g0))).
  { intros g0. rewrite (values_to_rotated project rotate cart unwrapped c r g0 K C1 C2), Gg. reflexivity. }
  destruct (update_ok project rotate cart unwrapped with_height same f (Some c) c r None I eq_refl) as (f' & E & I' & _ & G1 & _).
  { unfold in_degrees. now rewrite K. }
  { left. now rewrite G. }
  { intros g0 _. rewrite V0. eexists; reflexivity. }
  { intros l El. congruence. }
  exists f'. split; [exact E|]. split; [exact I'|].
  destruct (G1 g G) as (g1 & g' & V & Eg & g3 & E3 & E4). rewrite V0 in V. injection V as <-.
  apply format_grid_values in E3, E4. destruct E3 as (A3 & B3 & _), E4 as (A4 & B4 & _). split.
  - unfold point_places. rewrite Eg, G. cbn [option_map]. rewrite A4, A3. cbn [g_points]. rewrite map_map. f_equal. apply map_ext.
    intros p. now rewrite (ok_rotate _ _ _ _ _ R r p K), Dl.
  - intros g'' E'. rewrite Eg in E'. injection E' as <-. now rewrite B4, B3.
Qed.
Print Assumptions C116_to_rotated_partial.

Definition ex_bare (c : crs) : field Z := mkfield (Some (c_name c)) [(c_name c, c)] (Some ex_grid) None [].

Example C116_rotated_case : exists f' f'', ex_update (ex_bare ex_rot) (Some ex_sph) None = Ok f' /\ ex_update f' (Some ex_rot) None = Ok f'' /\
  option_map g_points (f_grid f') = Some [-990; -980]%Z /\ option_map g_points (f_grid f'') = Some [10; 20]%Z /\ is_in f'' ex_rot.
Proof. do 2 eexists. split; [vm_compute; reflexivity|]. split; [vm_compute; reflexivity|]. repeat split. Qed.

(** But the coordinates made from a rotated pole are longitudes and latitudes whatever the
    destination is: a projection, or another rotated pole. *)
Theorem C116_rotated_refuted {pt} project rotate cart unwrapped with_height same (f : field pt) g r d :
  is_in f r -> c_kind r = KRotated -> f_grid f = Some g -> f_geom f = None -> is_cartesian d = false -> in_degrees d ->
  exists f', update_crs project rotate cart unwrapped with_height same f (Some d) None = Ok f' /\ is_in f' d /\
    option_map g_points (f_grid f') = Some (map (rotate r false) (g_points g)).
Proof.
  intros I K G Ge Dc Dg.
  destruct (update_ok project rotate cart unwrapped with_height same f (Some r) r d None I eq_refl Dg) as (f' & E & I' & _ & G1 & _).
  { left. now rewrite G. }
  { intros g0 _. rewrite (values_from_rotated project rotate cart unwrapped r d g0 K Dc). eexists; reflexivity. }
  { intros l El. congruence. }
  exists f'. split; [exact E|]. split; [exact I'|].
  destruct (G1 g G) as (g1 & g' & V & Eg & g3 & E3 & E4). rewrite (values_from_rotated project rotate cart unwrapped r d g K Dc) in V.
  injection V as <-. apply format_grid_values in E3, E4. destruct E3 as (A3 & _), E4 as (A4 & _).
  rewrite Eg. cbn [option_map]. now rewrite A4, A3.
Qed.
Print Assumptions C116_rotated_refuted.

Example C116_rotated_wrong_case : exists f', ex_update (ex_bare ex_rot) (Some ex_utm) None = Ok f' /\ is_in f' ex_utm /\
  point_places (ex_dec ex_utm) f' = Some [-992; -982]%Z /\ point_places (ex_dec ex_rot) (ex_bare ex_rot) = Some [-990; -980]%Z.
Proof. eexists. split; [vm_compute; reflexivity|]. repeat split. Qed.

(** A field on a projection can not be transformed to a rotated pole. *)
Theorem C116_to_rotated_refuted {pt} project rotate cart unwrapped with_height same (f : field pt) g c r :
  is_in f c -> ordinary c -> is_geographic c = false -> c_kind r = KRotated -> f_grid f = Some g ->
  update_crs project rotate cart unwrapped with_height same f (Some r) None = Err AssertionError.
Proof.
  intros I C Gg K G. unfold update_crs. rewrite I. cbn [bind]. unfold grid_update_crs. rewrite G, I. cbn [bind check_systems].
  destruct (ordinary_not c C) as [C1 C2]. rewrite (values_to_rotated project rotate cart unwrapped c r g K C1 C2), Gg. reflexivity.
Qed.
Print Assumptions C116_to_rotated_refuted.

Example C116_to_rotated_case : ex_update (ex_bare ex_utm) (Some ex_rot) None = Err AssertionError.
Proof. reflexivity. Qed.

(** The geometries of a field on a rotated pole are handed to the projection library with
    the dictionary of the pole, which holds its latitude only: poles with different
    longitudes give the same result. *)
Theorem C116_pole_refuted {pt} project cart unwrapped with_height same (l : list (element pt)) px py n n' kwds kwds' c c' d k :
  CrsModel.cf_init Rotated px py n kwds = Ok c -> CrsModel.cf_init Rotated px py n' kwds' = Ok c' ->
  aget kwds "grid_north_pole_latitude" = aget kwds' "grid_north_pole_latitude" ->
  same (mkcrs KRotated n (cs_value c)) (mkcrs k "d" d) = same (mkcrs KRotated n' (cs_value c')) (mkcrs k "d" d) ->
  k <> KCartesian ->
  geom_values project cart unwrapped with_height same (mkcrs KRotated n (cs_value c)) (mkcrs k "d" d) l =
  geom_values project cart unwrapped with_height same (mkcrs KRotated n' (cs_value c')) (mkcrs k "d" d) l.
Proof.
  intros E E' La Sm Kn.
  assert (V : cs_value c = cs_value c').
  { unfold CrsModel.cf_init in E, E'. cbn [add_absent] in E, E'.
    destruct (dmem String.eqb kwds "epsg"); [easy|]. destruct (dmem String.eqb kwds' "epsg"); [easy|].
    unfold proj_value in E, E'. cbn [map_parameters fold_res add_parameter iterable map_default] in E, E'.
    destruct (aget kwds "grid_north_pole_longitude") as [lo|]; [|easy]. destruct (aget kwds' "grid_north_pole_longitude") as [lo'|]; [|easy].
    cbn [bind] in E, E'. rewrite La in E. destruct (aget kwds' "grid_north_pole_latitude") as [la|]; [|easy]. cbn [bind] in E, E'.
    injection E as <-. injection E' as <-. reflexivity. }
  unfold geom_values. rewrite V in *. unfold is_cartesian. cbn [c_kind].
  rewrite Sm. destruct k; try easy; cbn [orb]; destruct (same (mkcrs KRotated n' (cs_value c')) _); reflexivity.
Qed.
Print Assumptions C116_pole_refuted.

Example C116_pole_case : exists c c',
  CrsModel.cf_init Rotated None None "r" [("grid_north_pole_longitude", ANum 18); ("grid_north_pole_latitude", ANum 39)] = Ok c /\
  CrsModel.cf_init Rotated None None "r" [("grid_north_pole_longitude", ANum 200); ("grid_north_pole_latitude", ANum 39)] = Ok c' /\
  cs_value c = cs_value c' /\ cs_params c <> cs_params c'.
Proof. do 2 eexists. split; [reflexivity|]. split; [reflexivity|]. split; [reflexivity|discriminate]. Qed.

(** Spheres and Cartesian coordinates, there and back, when the level has bounds if the
    horizontal coordinates have. *)
Theorem C116_cartesian_partial {pt place} project rotate cart unwrapped with_height same
  (dec : crs -> pt -> place) lonlat f g s c zb :
  right_libraries dec lonlat project rotate cart ->
  spherical s -> in_degrees s -> c_kind c = KCartesian -> f_grid f = Some g -> f_geom f = None -> g_level g = Some zb ->
  (is_in f s -> unwrapped (g_points g) = false -> (forall l, g_corners g = Some l -> zb = true /\ unwrapped l = false) ->
   exists f', update_crs project rotate cart unwrapped with_height same f (Some c) None = Ok f' /\ is_in f' c /\
     point_places (dec c) f' = point_places (dec s) f /\ corner_places (dec c) f' = corner_places (dec s) f) /\
  (is_in f c -> (forall l, g_corners g = Some l -> zb = true) ->
   exists f', update_crs project rotate cart unwrapped with_height same f (Some s) None = Ok f' /\ is_in f' s /\
     point_places (dec s) f' = point_places (dec c) f /\ corner_places (dec s) f' = corner_places (dec c) f).
Proof.
  intros R S' Sd K G Ge L. split.
  - intros I W B.
    assert (V0 := values_to_cartesian project rotate cart unwrapped s c g zb S' K L W B).
    destruct (update_ok project rotate cart unwrapped with_height same f (Some s) s c None I eq_refl) as (f' & E & I' & _ & G1 & _).
    { unfold in_degrees. now rewrite K. }
    { left. now rewrite G. }
    { intros g0 E. rewrite G in E. injection E as <-. rewrite V0. eexists; reflexivity. }
    { intros l El. congruence. }
    exists f'. split; [exact E|]. split; [exact I'|].
    destruct (G1 g G) as (g1 & g' & V & Eg & g3 & E3 & E4). rewrite V0 in V. injection V as <-.
    apply format_grid_values in E3, E4. destruct E3 as (A3 & B3 & _), E4 as (A4 & B4 & _).
    unfold point_places, corner_places. rewrite Eg, G. cbn [option_map]. rewrite A4, A3, B4, B3. cbn [g_points g_corners]. split.
    + rewrite map_map. f_equal. apply map_ext. intros p. now apply (ok_cart _ _ _ _ _ R).
    + destruct (g_corners g) as [l|]; [|reflexivity]. cbn [option_map]. rewrite map_map. do 2 f_equal. apply map_ext.
      intros p. now apply (ok_cart _ _ _ _ _ R).
  - intros I B.
    assert (V0 := values_from_cartesian project rotate cart unwrapped s c g zb S' K L B).
    destruct (update_ok project rotate cart unwrapped with_height same f (Some c) c s None I eq_refl Sd) as (f' & E & I' & _ & G1 & _).
    { left. now rewrite G. }
    { intros g0 E. rewrite G in E. injection E as <-. rewrite V0. eexists; reflexivity. }
    { intros l El. congruence. }
    exists f'. split; [exact E|]. split; [exact I'|].
    destruct (G1 g G) as (g1 & g' & V & Eg & g3 & E3 & E4). rewrite V0 in V. injection V as <-.
    apply format_grid_values in E3, E4. destruct E3 as (A3 & B3 & _), E4 as (A4 & B4 & _).
    unfold point_places, corner_places. rewrite Eg, G. cbn [option_map]. rewrite A4, A3, B4, B3. cbn [g_points g_corners]. split.
    + rewrite map_map. f_equal. apply map_ext. intros p. now apply (ok_uncart _ _ _ _ _ R).
    + destruct (g_corners g) as [l|]; [|reflexivity]. cbn [option_map]. rewrite map_map. do 2 f_equal. apply map_ext.
      intros p. now apply (ok_uncart _ _ _ _ _ R).
Qed.
Print Assumptions C116_cartesian_partial.

Example C116_cartesian_case : exists f' f'', ex_update (ex_bare ex_sph) (Some ex_cart) None = Ok f' /\ ex_update f' (Some ex_sph) None = Ok f'' /\
  option_map g_points (f_grid f') = Some [5010; 5020]%Z /\ option_map g_points (f_grid f'') = Some [10; 20]%Z.
Proof. do 2 eexists. split; [vm_compute; reflexivity|]. split; [vm_compute; reflexivity|]. split; reflexivity. Qed.

(** WGS84 and every system but a sphere can not be transformed to Cartesian coordinates or
    back; Cartesian coordinates can not be transformed to themselves; corners without a
    level with bounds are an error. *)
Theorem C116_cartesian_refuted {pt} project rotate cart unwrapped with_height same (f : field pt) g c d :
  f_grid f = Some g -> c_kind d = KCartesian ->
  (is_in f c -> ordinary c -> ~ spherical c ->
     update_crs project rotate cart unwrapped with_height same f (Some d) None = Err AttributeError) /\
  (is_in f d -> ~ spherical c -> update_crs project rotate cart unwrapped with_height same f (Some c) None = Err CRSNotEquivalenError) /\
  (is_in f c -> spherical c -> g_level g = Some false -> g_corners g <> None -> unwrapped (g_points g) = false ->
     update_crs project rotate cart unwrapped with_height same f (Some d) None = Err AttributeError).
Proof.
  intros G K. split; [|split].
  - intros I O N. unfold update_crs. rewrite I. cbn [bind]. unfold grid_update_crs. rewrite G, I. cbn [bind check_systems].
    unfold grid_values, is_cartesian. rewrite K, orb_true_r. unfold transform_grid, ordinary, spherical in *. destruct (c_kind c); easy.
  - intros I N. unfold update_crs. rewrite I. cbn [bind]. unfold grid_update_crs. rewrite G, I. cbn [bind check_systems].
    unfold grid_values, is_cartesian, transform_grid. rewrite K. cbn [orb]. unfold spherical in *. destruct (c_kind c); easy.
  - intros I S' L B W. unfold update_crs. rewrite I. cbn [bind]. unfold grid_update_crs. rewrite G, I. cbn [bind check_systems].
    unfold grid_values, is_cartesian. rewrite K, orb_true_r. unfold transform_grid.
    assert (E : sphere_transform_grid cart unwrapped c d g false = Err AttributeError).
    { unfold sphere_transform_grid. rewrite L, W. cbn [negb andb]. unfold transform_coordinates, is_cartesian. rewrite K. cbn [negb].
      rewrite W, andb_false_r. cbn [bind]. destruct (g_corners g); [reflexivity|easy]. }
    unfold spherical in S'. cbn [negb]. destruct (c_kind c); try easy; rewrite E; reflexivity.
Qed.
Print Assumptions C116_cartesian_refuted.

Example C116_cartesian_wrong_case :
  ex_update (ex_bare ex_wgs) (Some ex_cart) None = Err AttributeError /\ ex_update (ex_bare ex_cart) (Some ex_cart) None = Err CRSNotEquivalenError.
Proof. split; reflexivity. Qed.

(** Holes of polygons are lost in Cartesian coordinates, and several geometries are refused. *)
Theorem C116_holes_refuted {pt} project cart unwrapped with_height same s c (p : shape pt) m :
  spherical s -> c_kind c = KCartesian ->
  (forall l, geom_values project cart unwrapped with_height same s c [(Some p, m)] = Ok l -> exists q, l = [(Some q, m)] /\ s_holes q = []) /\
  (forall l, length l <> 1%nat -> geom_values project cart unwrapped with_height same s c l = Err AssertionError).
Proof.
  intros S' K. unfold geom_values, is_cartesian. rewrite K, orb_true_r. unfold transform_geometry. split.
  - intros l E.
    assert (E' : sphere_transform_geometry cart unwrapped with_height s c [(Some p, m)] false = Ok l).
    { unfold spherical in S'. destruct (c_kind s); try easy; exact E. }
    unfold sphere_transform_geometry in E'. destruct (s_polygon p); [|easy]. cbn [negb andb] in E'.
    destruct (unwrapped (s_points p)); [easy|].
    destruct (transform_coordinates _ _ _ _ _ _) as [q|]; [|easy]. cbn [bind] in E'. injection E' as <-. eexists. split; reflexivity.
  - intros l L.
    assert (E : forall b, sphere_transform_geometry cart unwrapped with_height s c l b = Err AssertionError).
    { intros b. unfold sphere_transform_geometry. destruct l as [|[[q|] n] [|y t]]; try reflexivity. now destruct L. }
    unfold spherical in S'. destruct (c_kind s); try easy; apply E.
Qed.
Print Assumptions C116_holes_refuted.

Example C116_holes_case :
  geom_values ex_project ex_cartf (fun _ => false) (fun p => p) ex_same ex_sph ex_cart [(Some ex_poly, false)] =
    Ok [(Some (mkshape true [5001; 5002; 5003]%Z [] true), false)].
Proof. reflexivity. Qed.

(** Transforming the grid of a field gives the new system to its geometries as well, without
    transforming them; afterwards they can not be transformed any more. *)
Theorem C116_grid_refuted {pt} project rotate cart unwrapped with_height same (f : field pt) g l c d :
  is_in f c -> ordinary c -> ordinary d -> in_degrees d -> f_grid f = Some g -> f_geom f = Some l -> same d d = true ->
  exists f', grid_update_crs project rotate cart unwrapped f (Some d) None = Ok f' /\ is_in f' d /\ f_geom f' = Some l /\
    exists f'', geom_update_crs project cart unwrapped with_height same f' (Some d) None = Ok f'' /\ f_geom f'' = Some l.
Proof.
  intros I C D Dg G L Sm.
  destruct (grid_update_ok project rotate cart unwrapped f g (Some c) c d _ None G I eq_refl
    (values_ordinary project rotate cart unwrapped (Some c) c d g ltac:(intros x [= <-]; exact C) C D) Dg) as (g3 & _ & g4 & _ & E).
  eexists. split; [exact E|].
  assert (I' : is_in (with_grid (replace_system f (Some c) d) g4) d).
  { unfold is_in. rewrite <- (replaced_system f (Some c) d). apply field_system_parts; reflexivity. }
  split; [exact I'|]. split; [exact L|].
  assert (V : geom_values project cart unwrapped with_height same d d l = Ok l).
  { unfold geom_values. destruct (ordinary_not d D) as [-> _]. cbn [orb]. now rewrite Sm. }
  eexists. split; [apply (geom_update_ok project cart unwrapped with_height same (with_grid (replace_system f (Some c) d) g4) l (Some d) d d l None L I' eq_refl V Dg)|]. reflexivity.
Qed.
Print Assumptions C116_grid_refuted.

Example C116_grid_case : exists f', grid_update_crs ex_project ex_rotate ex_cartf (fun _ => false) (ex_field ex_utm) (Some ex_sph) None = Ok f' /\
  point_places (ex_dec ex_sph) f' = Some [8; 18]%Z /\ geom_places (ex_dec ex_sph) f' <> geom_places (ex_dec ex_utm) (ex_field ex_utm).
Proof. eexists. split; [vm_compute; reflexivity|]. split; [reflexivity|vm_compute; discriminate]. Qed.

(** The argument for the system of the coordinates does not count for choosing how to
    transform them: a rotated pole given there is treated like a projection, *)
Theorem C116_from_refuted {pt} project rotate cart unwrapped with_height same (f : field pt) g r d :
  field_system f = Ok None -> c_kind r = KRotated -> ordinary d -> in_degrees d -> f_grid f = Some g -> f_geom f = None ->
  exists f', update_crs project rotate cart unwrapped with_height same f (Some d) (Some r) = Ok f' /\ is_in f' d /\
    option_map g_points (f_grid f') = Some (map (project (c_value r) (c_value d)) (g_points g)).
Proof.
  intros S' K D Dg G Ge.
  assert (V0 : forall g0, grid_values project rotate cart unwrapped None r d g0 =
    Ok (mkgrid (map (project (c_value r) (c_value d)) (g_points g0)) (option_map (map (project (c_value r) (c_value d))) (g_corners g0))
          (g_level g0) (g_x g0) (g_y g0) (g_z g0))).
  { intros g0. unfold grid_values. destruct (ordinary_not d D) as [-> ->]. cbn [orb]. rewrite (ordinary_proj4 d D).
    unfold proj4. rewrite K. reflexivity. }
  destruct (update_ok project rotate cart unwrapped with_height same f None r d (Some r) S' eq_refl Dg) as (f' & E & I' & _ & G1 & _).
  { left. now rewrite G. }
  { intros g0 _. rewrite V0. eexists; reflexivity. }
  { intros l El. congruence. }
  exists f'. split; [exact E|]. split; [exact I'|].
  destruct (G1 g G) as (g1 & g' & V & Eg & g3 & E3 & E4). rewrite V0 in V. injection V as <-.
  apply format_grid_values in E3, E4. destruct E3 as (A3 & _), E4 as (A4 & _). rewrite Eg. cbn [option_map]. now rewrite A4, A3.
Qed.
Print Assumptions C116_from_refuted.

Example C116_from_case : exists f', ex_update (mkfield None [] (Some ex_grid) None []) (Some ex_sph) (Some ex_rot) = Ok f' /\
  point_places (ex_dec ex_sph) f' = Some [8; 18]%Z /\
  point_places (ex_dec ex_rot) (mkfield None [] (Some ex_grid) None []) = Some [-990; -980]%Z.
Proof. eexists. split; [vm_compute; reflexivity|]. repeat split. Qed.

(** Without a system, or without a destination, a field is refused as long as it has
    a grid or geometries; *)
Theorem C116_none {pt} project rotate cart unwrapped with_height same (f : field pt) d :
  f_grid f <> None \/ f_geom f <> None ->
  (field_system f = Ok None -> update_crs project rotate cart unwrapped with_height same f d None = Err ValueError) /\
  (forall c from, field_system f = Ok c -> update_crs project rotate cart unwrapped with_height same f None from = Err ValueError).
Proof.
  intros Sp. split.
  - intros S'. unfold update_crs. rewrite S'. cbn [bind]. unfold grid_update_crs. destruct (f_grid f).
    + rewrite S'. reflexivity.
    + cbn [bind]. unfold geom_update_crs. destruct (f_geom f); [rewrite S'; reflexivity|]. now destruct Sp.
  - intros c from S'. unfold update_crs. rewrite S'.
    assert (X : forall o, check_systems c o None = Err ValueError) by (intros o; destruct c, o; reflexivity).
    destruct from as [c'|]; cbn [bind]; unfold grid_update_crs; destruct (f_grid f); try (rewrite S'; cbn [bind]; rewrite X; reflexivity);
      cbn [bind]; unfold geom_update_crs; destruct (f_geom f); try (rewrite S'; cbn [bind]; rewrite X; reflexivity); now destruct Sp.
Qed.
Print Assumptions C116_none.

Example C116_none_case : ex_update (mkfield None [] (Some ex_grid) None []) (Some ex_sph) None = Err ValueError /\
  ex_update (ex_field ex_utm) None None = Err ValueError.
Proof. split; reflexivity. Qed.

(** a field without both accepts everything and then names a system it does not have. *)
Theorem C116_bare_refuted {pt} project rotate cart unwrapped with_height same (f : field pt) cur d :
  f_grid f = None -> f_geom f = None -> field_system f = Ok cur -> ~ In (c_name d) (map fst (f_systems f)) ->
  exists f', update_crs project rotate cart unwrapped with_height same f (Some d) None = Ok f' /\ field_system f' = Err VariableNotFoundError.
Proof.
  intros G L S' N. unfold update_crs. rewrite S'. cbn [bind]. unfold grid_update_crs, geom_update_crs. rewrite G. cbn [bind]. rewrite L. cbn [bind].
  eexists. split; [reflexivity|]. unfold field_system. cbn [f_label f_systems]. apply dget_none in N. now rewrite N.
Qed.
Print Assumptions C116_bare_refuted.

Example C116_bare_case : exists f', ex_update (mkfield (Some "utm") [("utm", ex_utm)] None None [("tas", None)]) (Some ex_sph) None = Ok f' /\
  field_system f' = Err VariableNotFoundError.
Proof. eexists. split; [vm_compute; reflexivity|]. reflexivity. Qed.

(** ** C117: the attributes of the coordinates *)

(** After a transformation to a system without CF attributes of its own (a projection, a
    rotated pole, Cartesian coordinates) the horizontal coordinates have no units and no
    standard name; their other attributes are kept. *)
Theorem C117_projected_partial {pt} project rotate cart unwrapped with_height same (f : field pt) d from (g g' : grid pt) : ~ lonlat d -> attributes_once g ->
  transforms project rotate cart unwrapped with_height same f d from g g' ->
  ~ present (g_x g') "units" /\ ~ present (g_x g') "standard_name" /\
  ~ present (g_y g') "units" /\ ~ present (g_y g') "standard_name" /\
  (forall k, k <> "units" -> k <> "standard_name" -> aget (g_x g') k = aget (g_x g) k /\ aget (g_y g') k = aget (g_y g) k).
Proof.
  intros A (Nx & Ny & _) T. apply transforms_transformed in T. apply (proj2 (lonlat_attributes d)) in A. destruct (transformed_projected d g g' A T) as (-> & -> & _).
  destruct (remove_attrs_spec (g_x g) Nx) as (X1 & X2 & X3). destruct (remove_attrs_spec (g_y g) Ny) as (Y1 & Y2 & Y3).
  repeat split; auto.
Qed.
Print Assumptions C117_projected_partial.

(** So has the level, although its values are not transformed. *)
Theorem C117_level_refuted {pt} project rotate cart unwrapped with_height same (f : field pt) d from (g g' : grid pt) zb : ~ lonlat d -> attributes_once g -> g_level g = Some zb ->
  transforms project rotate cart unwrapped with_height same f d from g g' -> ~ present (g_z g') "units" /\ ~ present (g_z g') "standard_name".
Proof.
  intros A (_ & _ & Nz) L T. apply transforms_transformed in T. apply (proj2 (lonlat_attributes d)) in A. destruct (transformed_projected d g g' A T) as (_ & _ & Z'). rewrite L in Z'. rewrite Z'.
  destruct (remove_attrs_spec (g_z g) Nz) as (Z1 & Z2 & _). now split.
Qed.
Print Assumptions C117_level_refuted.

Example C117_level_case : exists f' g', ex_update (ex_bare ex_wgs) (Some ex_utm) None = Ok f' /\ f_grid f' = Some g' /\
  f_grid (ex_bare ex_wgs) = Some ex_grid /\ attributes_once ex_grid /\ g_z g' = [] /\ g_x g' = [("axis", AStr "X")].
Proof.
  do 2 eexists. split; [vm_compute; reflexivity|]. split; [reflexivity|]. split; [reflexivity|]. split; [|split; reflexivity].
  repeat split; repeat constructor; cbn; intuition congruence.
Qed.

(** After a transformation to longitudes and latitudes, coordinates which had no units and
    no standard name have the right ones, and the other attributes are kept. *)
Theorem C117_lonlat_partial {pt} project rotate cart unwrapped with_height same (f : field pt) d from (g g' : grid pt) : lonlat d -> transforms project rotate cart unwrapped with_height same f d from g g' ->
  ~ present (g_x g) "units" -> ~ present (g_x g) "standard_name" -> ~ present (g_y g) "units" -> ~ present (g_y g) "standard_name" ->
  says (g_x g') "units" "degrees_east" /\ says (g_x g') "standard_name" "longitude" /\
  says (g_y g') "units" "degrees_north" /\ says (g_y g') "standard_name" "latitude" /\ g_z g' = g_z g /\
  (forall k, k <> "units" -> k <> "standard_name" -> aget (g_x g') k = aget (g_x g) k /\ aget (g_y g') k = aget (g_y g) k).
Proof.
  intros A T X1 X2 Y1 Y2. apply transforms_transformed in T. apply (proj1 (lonlat_attributes d)) in A. destruct (transformed_lonlat d g g' A T) as (-> & -> & Z').
  destruct (add_attrs_fresh "degrees_east" "longitude" (g_x g) X1 X2) as (A1 & A2 & A3).
  destruct (add_attrs_fresh "degrees_north" "latitude" (g_y g) Y1 Y2) as (B1 & B2 & B3).
  repeat split; auto.
Qed.
Print Assumptions C117_lonlat_partial.

Example C117_lonlat_case : exists f' g', ex_update (mkfield (Some "utm") [("utm", ex_utm)] (Some (mkgrid [1]%Z None None [] [] [])) None []) (Some ex_sph) None = Ok f' /\
  f_grid f' = Some g' /\ g_x g' = [("units", AStr "degrees_east"); ("standard_name", AStr "longitude")].
Proof. do 2 eexists. split; [vm_compute; reflexivity|]. split; reflexivity. Qed.

(** Coordinates which had units or a standard name, for example metres and
    projection_x_coordinate, still have them when they are longitudes and latitudes. *)
Theorem C117_stale_refuted {pt} project rotate cart unwrapped with_height same (f : field pt) d from (g g' : grid pt) k v : lonlat d -> transforms project rotate cart unwrapped with_height same f d from g g' ->
  (aget (g_x g) k = Some v -> aget (g_x g') k = Some v) /\ (aget (g_y g) k = Some v -> aget (g_y g') k = Some v).
Proof.
  intros A T. apply transforms_transformed in T. apply (proj1 (lonlat_attributes d)) in A. destruct (transformed_lonlat d g g' A T) as (-> & -> & _). split; intros H; apply add_attrs_kept; exact H.
Qed.
Print Assumptions C117_stale_refuted.

Example C117_stale_case : exists f' g', ex_update (ex_bare ex_utm) (Some ex_sph) None = Ok f' /\ f_grid f' = Some g' /\
  aget (g_x g') "units" = Some (AStr "m") /\ aget (g_x g') "standard_name" = Some (AStr "longitude").
Proof. do 2 eexists. split; [vm_compute; reflexivity|]. repeat split. Qed.

(** A sphere measured in radians is refused. *)
Theorem C117_radians {pt} project rotate cart unwrapped with_height same (f : field pt) g d from f' :
  f_grid f = Some g -> c_kind d = KSphere true ->
  update_crs project rotate cart unwrapped with_height same f (Some d) from <> Ok f'.
Proof.
  intros G K E. destruct (update_transformed project rotate cart unwrapped with_height same f f' g d from G E) as (g' & _ & T).
  destruct T as (g1 & g3 & _ & T & _). unfold format_grid in T. now rewrite K in T.
Qed.
Print Assumptions C117_radians.

Example C117_radians_case : ex_update (ex_bare ex_wgs) (Some (mkcrs (KSphere true) "sphere" [])) None = Err ValueError.
Proof. reflexivity. Qed.

(** The data variables name their coordinate system when the field is written, and the
    names and values of everything else are as before. *)
Theorem C117_written {pt} c (f : field pt) : in_degrees c ->
  exists f', format_field c f = Ok f' /\ f_mapping f' = map (fun nm => (fst nm, Some (c_name c))) (f_mapping f) /\
    f_geom f' = f_geom f /\ option_map g_points (f_grid f') = option_map g_points (f_grid f) /\
    option_map g_corners (f_grid f') = option_map g_corners (f_grid f).
Proof.
  intros D. unfold format_field.
  assert (E : forall T (x : res T), match c_kind c with KSphere true => Err ValueError | _ => x end = x).
  { intros T x. unfold in_degrees in D. destruct (c_kind c) as [b| |[|]| | |]; congruence. }
  rewrite E. destruct (f_grid f) as [g|].
  - destruct (format_grid_ok c false g D) as [g' Eg]. rewrite Eg. cbn [bind]. eexists. split; [reflexivity|]. cbn [f_mapping f_geom f_grid option_map].
    destruct (format_grid_values c false g g' Eg) as (-> & -> & _). split; [|repeat split].
    apply map_ext. now intros [n m].
  - cbn [bind]. eexists. split; [reflexivity|]. cbn [f_mapping f_geom f_grid option_map]. split; [|repeat split]. apply map_ext. now intros [n m].
Qed.
Print Assumptions C117_written.

Example C117_written_case : exists f', format_field ex_utm (ex_field ex_wgs) = Ok f' /\ f_mapping f' = [("tas", Some "utm")].
Proof. eexists. split; reflexivity. Qed.

(** A field transformed to a CF projection and written to a file can not be read again:
    its coordinates have lost their standard names. *)
Theorem C117_reopened_refuted {pt} project rotate cart unwrapped with_height same (f : field pt) d from (g g' : grid pt) md k m a x rp : ~ lonlat d -> attributes_once g -> transforms project rotate cart unwrapped with_height same f d from g g' ->
  only_mapping md k m a -> k <> Spherical -> k <> Rotated -> In (x, mkvmeta x (g_x g')) md ->
  (forall n v, In (n, v) md -> says (vm_attrs v) "standard_name" "projection_x_coordinate" -> n = x) ->
  exists e, get_crs_variable md rp = Err e.
Proof.
  intros A N T O K K' I U. destruct (C117_projected_partial project rotate cart unwrapped with_height same f d from g g' A N T) as (_ & X & _).
  apply (C112_coordinates_refuted md k m a rp O K K'). intros n v In' Sx.
  pose proof (U n v In' Sx) as ->. pose proof (om_names _ _ _ _ O) as Nm.
  pose proof (aget_in md x v Nm In') as E1. rewrite (aget_in md x _ Nm I) in E1. injection E1 as <-.
  apply X. eexists. exact Sx.
Qed.
Print Assumptions C117_reopened_refuted.

Example C117_reopened_case : exists f' g', ex_update (ex_bare ex_wgs) (Some (mkcrs (KGeneral false) "lcc" [("proj", AStr "lcc")])) None = Ok f' /\
  f_grid f' = Some g' /\
  get_crs_variable [("lcc", mkvmeta "lcc" ex_lambert); ("x", mkvmeta "x" (g_x g')); ("y", mkvmeta "y" (g_y g'));
    ("tas", mkvmeta "tas" [("grid_mapping", AStr "lcc")])] false = Err ProjectionCoordinateNotFound.
Proof. do 2 eexists. split; [vm_compute; reflexivity|]. split; reflexivity. Qed.
