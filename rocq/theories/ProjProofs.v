(** Proofs about transformations between coordinate systems. *)
From Verif Require Import Py Lib RequestNames CrsModel CrsSpec CrsProofs CrsMore ProjModel ProjSpec.
From Coq Require Import String Ascii Bool List ZArith Lia.
Import ListNotations.
Local Open Scope string_scope.
Local Open Scope list_scope.

Lemma replaced_system {pt} (f : field pt) cur c : field_system (replace_system f cur c) = Ok (Some c).
Proof.
  unfold field_system, replace_system. cbn [f_label f_systems]. now rewrite dget_dset, String.eqb_refl.
Qed.

Lemma field_system_parts {pt} (f f' : field pt) : f_label f = f_label f' -> f_systems f = f_systems f' -> field_system f = field_system f'.
Proof. unfold field_system. now intros -> ->. Qed.

Lemma format_grid_values {pt} c b (g g' : grid pt) : format_grid c b g = Ok g' ->
  g_points g' = g_points g /\ g_corners g' = g_corners g /\ g_level g' = g_level g.
Proof.
  unfold format_grid. destruct (c_kind c) as [b'| |[|]| | |]; try easy;
    (destruct (cf_attributes c) as [[ax ay]|]; [|destruct b]; intros [= <-]; repeat split).
Qed.

Lemma format_grid_ok {pt} c b (g : grid pt) : in_degrees c -> exists g', format_grid c b g = Ok g'.
Proof.
  intros D. unfold format_grid, in_degrees in *. destruct (c_kind c) as [b'| |[|]| | |]; try congruence; eexists; reflexivity.
Qed.

Section With.
Context {pt : Type}.
Variable project : attrs -> attrs -> pt -> pt.
Variable rotate : crs -> bool -> pt -> pt.
Variable cart : crs -> bool -> pt -> pt.
Variable unwrapped : list pt -> bool.
Variable with_height : pt -> pt.
Variable same : crs -> crs -> bool.

Notation grid_update := (grid_update_crs project rotate cart unwrapped).
Notation geom_update := (geom_update_crs project cart unwrapped with_height same).
Notation update := (update_crs project rotate cart unwrapped with_height same).
Notation values := (grid_values project rotate cart unwrapped).
Notation gvalues := (geom_values project cart unwrapped with_height same).

Lemma grid_update_ok f g cur c d g1 from : f_grid f = Some g -> field_system f = Ok cur ->
  match from with Some c => Some c | None => cur end = Some c -> values cur c d g = Ok g1 -> in_degrees d ->
  exists g3, format_grid d false g1 = Ok g3 /\ (exists g4, format_grid d true g3 = Ok g4 /\
    grid_update f (Some d) from = Ok (with_grid (replace_system f cur d) g4)).
Proof.
  intros G S' F V D. destruct (format_grid_ok d false g1 D) as [g3 E3]. destruct (format_grid_ok d true g3 D) as [g4 E4].
  exists g3. split; [exact E3|]. exists g4. split; [exact E4|].
  unfold grid_update_crs. rewrite G, S'. cbn [bind]. unfold check_systems.
  assert (C : match cur, from with None, None => Err ValueError | _, _ => Ok tt end = Ok tt).
  { destruct cur, from; try reflexivity. discriminate F. }
  rewrite C. cbn [bind]. rewrite F, V. cbn [bind]. rewrite E3. cbn [bind]. rewrite E4. reflexivity.
Qed.

Lemma geom_update_ok f l cur c d l1 from : f_geom f = Some l -> field_system f = Ok cur ->
  match from with Some c => Some c | None => cur end = Some c -> gvalues c d l = Ok l1 -> in_degrees d ->
  geom_update f (Some d) from = Ok (with_geom (replace_system f cur d) l1).
Proof.
  intros G S' F V D. unfold geom_update_crs. rewrite G, S'. cbn [bind]. unfold check_systems.
  assert (C : match cur, from with None, None => Err ValueError | _, _ => Ok tt end = Ok tt).
  { destruct cur, from; try reflexivity. discriminate F. }
  rewrite C. cbn [bind]. rewrite F, V. cbn [bind].
  assert (E : match c_kind d with KSphere true => Err ValueError | _ => Ok tt end = Ok tt).
  { unfold in_degrees in D. destruct (c_kind d) as [b'| |[|]| | |]; congruence. }
  rewrite E. reflexivity.
Qed.

(** The two parts of the transformation of a field, one after the other. *)
Lemma update_ok f cur c d from : field_system f = Ok cur ->
  match from with Some c => Some c | None => cur end = Some c -> in_degrees d ->
  f_grid f <> None \/ f_geom f <> None ->
  (forall g, f_grid f = Some g -> exists g1, values cur c d g = Ok g1) ->
  (forall l, f_geom f = Some l -> exists l1, gvalues c d l = Ok l1) ->
  exists f', update f (Some d) from = Ok f' /\ is_in f' d /\ f_mapping f' = f_mapping f /\
    (forall g, f_grid f = Some g -> exists g1 g', values cur c d g = Ok g1 /\ f_grid f' = Some g' /\
       exists g3, format_grid d false g1 = Ok g3 /\ format_grid d true g3 = Ok g') /\
    (f_grid f = None -> f_grid f' = None) /\
    (forall l, f_geom f = Some l -> exists l1, gvalues c d l = Ok l1 /\ f_geom f' = Some l1) /\
    (f_geom f = None -> f_geom f' = None).
Proof.
  intros S' F D Sp Hg Hl. unfold update_crs.
  assert (Ef : (match from with Some c0 => Ok (Some c0) | None => field_system f end) = Ok (Some c)).
  { destruct from as [c'|]; [now rewrite F|]. now rewrite S', F. }
  rewrite Ef. cbn [bind].
  assert (G : exists f1, grid_update f (Some d) (Some c) = Ok f1 /\ f_geom f1 = f_geom f /\ f_mapping f1 = f_mapping f /\
    (f_grid f <> None -> is_in f1 d) /\ (f_grid f = None -> f1 = f) /\
    (forall g, f_grid f = Some g -> exists g1 g', values cur c d g = Ok g1 /\ f_grid f1 = Some g' /\
       exists g3, format_grid d false g1 = Ok g3 /\ format_grid d true g3 = Ok g')).
  { destruct (f_grid f) as [g|] eqn:Eg.
    - destruct (Hg g eq_refl) as [g1 V].
      destruct (grid_update_ok f g cur c d g1 (Some c) Eg S' eq_refl V D) as (g3 & E3 & g4 & E4 & U).
      eexists. split; [exact U|]. split; [reflexivity|]. split; [reflexivity|]. split.
      + intros _. unfold is_in. rewrite <- (replaced_system f cur d). apply field_system_parts; reflexivity.
      + split; [easy|]. intros g0 [= <-]. exists g1, g4. split; [exact V|]. split; [reflexivity|]. now exists g3.
    - exists f. unfold grid_update_crs. rewrite Eg. repeat split; easy. }
  destruct G as (f1 & U1 & Ge & Mp & In1 & Eq1 & Gr). rewrite U1. cbn [bind].
  destruct (f_geom f) as [l|] eqn:El.
  - destruct (Hl l eq_refl) as [l1 V].
    assert (S1 : exists cur1, field_system f1 = Ok cur1).
    { destruct (f_grid f) as [g|] eqn:Eg; [exists (Some d); now apply In1|]. exists cur. now rewrite Eq1. }
    destruct S1 as [cur1 S1]. rewrite (geom_update_ok f1 l cur1 c d l1 (Some c) Ge S1 eq_refl V D). cbn [bind].
    eexists. split; [reflexivity|]. split.
    + unfold is_in, field_system. cbn [f_label f_systems with_geom replace_system]. now rewrite dget_dset, String.eqb_refl.
    + split; [exact Mp|]. split; [exact Gr|]. split; [intros N; cbn [f_grid with_geom replace_system]; now rewrite (Eq1 N)|].
      split; [|easy]. intros l0 [= <-]. exists l1. split; [exact V|reflexivity].
  - unfold geom_update_crs. rewrite Ge. cbn [bind]. eexists. split; [reflexivity|].
    assert (Ng : f_grid f <> None) by (destruct Sp as [Sp|Sp]; [exact Sp|easy]).
    split; [|split; [exact Mp|split; [exact Gr|split; [intros N; easy|split; [easy|exact (fun _ => Ge)]]]]].
    specialize (In1 Ng). destruct (f_grid f) as [g|] eqn:Eg; [|easy]. destruct (Hg g eq_refl) as [g1 V].
    destruct (grid_update_ok f g cur c d g1 (Some c) Eg S' eq_refl V D) as (g3 & E3 & g4 & E4 & U).
    rewrite U in U1. injection U1 as <-. unfold is_in, field_system. cbn [f_label f_systems with_grid replace_system].
    now rewrite dget_dset, String.eqb_refl.
Qed.

(** ** Ordinary systems *)

Lemma ordinary_proj4 c : ordinary c -> proj4 c = Ok (c_value c).
Proof. unfold ordinary, proj4. destruct (c_kind c); easy. Qed.

Lemma ordinary_not c : ordinary c -> is_cartesian c = false /\ is_rotated_pole c = false.
Proof. unfold ordinary, is_cartesian, is_rotated_pole. destruct (c_kind c); easy. Qed.

Lemma values_ordinary cur c d g : (forall x, cur = Some x -> ordinary x) -> ordinary c -> ordinary d ->
  values cur c d g = Ok (mkgrid (map (project (c_value c) (c_value d)) (g_points g))
    (option_map (map (project (c_value c) (c_value d))) (g_corners g)) (g_level g) (g_x g) (g_y g) (g_z g)).
Proof.
  intros U C D. unfold grid_values. destruct (ordinary_not d D) as [-> ->].
  assert (A : match cur with Some x => is_cartesian x | None => false end = false)
    by (destruct cur as [x|]; [apply ordinary_not; now apply U|reflexivity]).
  assert (B : match cur with Some x => is_rotated_pole x | None => false end = false)
    by (destruct cur as [x|]; [apply ordinary_not; now apply U|reflexivity]).
  rewrite A, B. cbn [orb]. now rewrite (ordinary_proj4 c C), (ordinary_proj4 d D).
Qed.

Lemma project_elements v w l : (forall m, In (None, m) l -> m = true) ->
  map_res (project_element project v w) l = Ok (map (fun e => (option_map (project_shape project v w) (fst e), snd e)) l).
Proof.
  intros H. apply map_res_each. intros [[p|] m] I; [reflexivity|]. cbn [project_element fst snd option_map].
  rewrite (H m I). reflexivity.
Qed.

Lemma gvalues_ordinary c d l : ordinary c -> ordinary d -> (forall m, In (None, m) l -> m = true) ->
  gvalues c d l = Ok (if (same c d : bool) then l
    else map (fun e => (option_map (project_shape project (c_value c) (c_value d)) (fst e), snd e)) l).
Proof.
  intros C D H. unfold geom_values. destruct (ordinary_not c C) as [-> _]. destruct (ordinary_not d D) as [-> _]. cbn [orb].
  destruct (same c d); [reflexivity|]. rewrite (ordinary_proj4 c C), (ordinary_proj4 d D). cbn [bind]. now apply project_elements.
Qed.

Lemma element_project_places {place} (m m' : pt -> place) v w (e : element pt) : (forall p, m' (project v w p) = m p) ->
  element_places m' (option_map (project_shape project v w) (fst e), snd e) = element_places m e.
Proof.
  intros H. unfold element_places. cbn [fst snd]. destruct (fst e) as [s|]; [|reflexivity]. cbn [option_map]. f_equal. f_equal.
  unfold shape_places, project_shape. cbn [s_polygon s_points s_holes]. rewrite !map_map. f_equal; [f_equal; now apply map_ext|].
  apply map_ext. intros l. rewrite map_map. now apply map_ext.
Qed.

Lemma element_same_places {place} (m m' : pt -> place) (e : element pt) : (forall p, m' p = m p) ->
  element_places m' e = element_places m e.
Proof.
  intros H. unfold element_places. destruct (fst e) as [s|]; [|reflexivity]. cbn [option_map]. f_equal. f_equal.
  unfold shape_places. f_equal; [f_equal; now apply map_ext|]. apply map_ext. intros l. now apply map_ext.
Qed.

Lemma update_ordinary {place} (dec : crs -> pt -> place) lonlat f cur c d from :
  right_libraries dec lonlat project rotate cart ->
  field_system f = Ok cur -> (match from with Some c => Some c | None => cur end) = Some c ->
  (forall x, cur = Some x -> ordinary x) -> ordinary c -> ordinary d -> in_degrees d ->
  (same c d = true -> forall p, dec d p = dec c p) -> masked_gaps f ->
  f_grid f <> None \/ f_geom f <> None ->
  exists f', update f (Some d) from = Ok f' /\ is_in f' d /\ f_mapping f' = f_mapping f /\
    point_places (dec d) f' = point_places (dec c) f /\ corner_places (dec d) f' = corner_places (dec c) f /\
    geom_places (dec d) f' = geom_places (dec c) f.
Proof.
  intros R S' F U C D Dg Sm M Sp.
  destruct (update_ok f cur c d from S' F Dg Sp) as (f' & E & I & Mp & G1 & G0 & L1 & L0).
  { intros g _. rewrite (values_ordinary cur c d g U C D). eexists; reflexivity. }
  { intros l El. rewrite (gvalues_ordinary c d l C D (fun m => M l m El)). eexists; reflexivity. }
  exists f'. split; [exact E|]. split; [exact I|]. split; [exact Mp|].
  assert (P : forall p, dec d (project (c_value c) (c_value d) p) = dec c p) by (intros p; now apply (ok_project _ _ _ _ _ R)).
  split; [|split].
  - unfold point_places. destruct (f_grid f) as [g|]; [|now rewrite G0].
    destruct (G1 g eq_refl) as (g1 & g' & V & -> & g3 & E3 & E4). rewrite (values_ordinary cur c d g U C D) in V. injection V as <-.
    apply format_grid_values in E3, E4. destruct E3 as (E3 & _), E4 as (E4 & _). cbn [option_map]. rewrite E4, E3. cbn [g_points].
    rewrite map_map. f_equal. now apply map_ext.
  - unfold corner_places. destruct (f_grid f) as [g|]; [|now rewrite G0].
    destruct (G1 g eq_refl) as (g1 & g' & V & -> & g3 & E3 & E4). rewrite (values_ordinary cur c d g U C D) in V. injection V as <-.
    apply format_grid_values in E3, E4. destruct E3 as (_ & E3 & _), E4 as (_ & E4 & _). cbn [option_map]. rewrite E4, E3. cbn [g_corners].
    destruct (g_corners g) as [l|]; [|reflexivity]. cbn [option_map]. rewrite map_map. do 2 f_equal. now apply map_ext.
  - unfold geom_places. destruct (f_geom f) as [l|] eqn:El; [|now rewrite L0].
    destruct (L1 l eq_refl) as (l1 & V & ->). rewrite (gvalues_ordinary c d l C D (fun m => M l m El)) in V. injection V as <-. cbn [option_map]. f_equal.
    destruct (same c d).
    + apply map_ext. intros e. now apply element_same_places, Sm.
    + rewrite map_map. apply map_ext. intros e. now apply element_project_places.
Qed.

(** ** Rotated poles *)

Lemma values_from_rotated r d g : c_kind r = KRotated -> is_cartesian d = false ->
  values (Some r) r d g = Ok (mkgrid (map (rotate r false) (g_points g)) None (g_level g) (g_x g) (g_y g) (g_z g)).
Proof.
  intros K D. unfold grid_values, is_rotated_pole, rotate_grid, is_geographic, is_rotated_pole, is_cartesian in *. rewrite K, D. reflexivity.
Qed.

Lemma values_to_rotated c r g : c_kind r = KRotated -> is_cartesian c = false -> is_rotated_pole c = false ->
  values (Some c) c r g = if is_geographic c
    then Ok (mkgrid (map (rotate r true) (g_points g)) None (g_level g) (g_x g) (g_y g) (g_z g)) else Err AssertionError.
Proof.
  intros K C C'. unfold grid_values, rotate_grid. rewrite C, C'. unfold is_cartesian, is_rotated_pole. rewrite K. cbn [orb].
  rewrite orb_false_r. reflexivity.
Qed.

(** ** Cartesian coordinates *)

Lemma values_to_cartesian s c g zb : spherical s -> c_kind c = KCartesian -> g_level g = Some zb ->
  unwrapped (g_points g) = false -> (forall l, g_corners g = Some l -> zb = true /\ unwrapped l = false) ->
  values (Some s) s c g = Ok (mkgrid (map (cart s false) (g_points g)) (option_map (map (cart s false)) (g_corners g)) (g_level g)
    (g_x g) (g_y g) (g_z g)).
Proof.
  intros S' K L W B. unfold grid_values, is_cartesian. rewrite K, orb_true_r. unfold transform_grid.
  assert (E : sphere_transform_grid cart unwrapped s c g false =
    Ok (mkgrid (map (cart s false) (g_points g)) (option_map (map (cart s false)) (g_corners g)) (g_level g) (g_x g) (g_y g) (g_z g))).
  { unfold sphere_transform_grid. rewrite L, W. cbn [negb andb]. unfold transform_coordinates, is_cartesian. rewrite K. cbn [negb].
    rewrite W, andb_false_r. cbn [bind]. destruct (g_corners g) as [l|]; [|reflexivity].
    destruct (B l eq_refl) as [-> Wl]. rewrite Wl, andb_false_r. reflexivity. }
  unfold spherical in S'. destruct (c_kind s); try easy; exact E.
Qed.

Lemma values_from_cartesian s c g zb : spherical s -> c_kind c = KCartesian -> g_level g = Some zb ->
  (forall l, g_corners g = Some l -> zb = true) ->
  values (Some c) c s g = Ok (mkgrid (map (cart s true) (g_points g)) (option_map (map (cart s true)) (g_corners g)) (g_level g)
    (g_x g) (g_y g) (g_z g)).
Proof.
  intros S' K L B. unfold grid_values, is_cartesian, transform_grid. rewrite K. cbn [orb].
  assert (E : sphere_transform_grid cart unwrapped s c g true =
    Ok (mkgrid (map (cart s true) (g_points g)) (option_map (map (cart s true)) (g_corners g)) (g_level g) (g_x g) (g_y g) (g_z g))).
  { unfold sphere_transform_grid. rewrite L. cbn [negb andb]. unfold transform_coordinates, is_cartesian. rewrite K. cbn [negb andb bind].
    destruct (g_corners g) as [l|]; [|reflexivity]. rewrite (B l eq_refl). reflexivity. }
  unfold spherical in S'. destruct (c_kind s); try easy; exact E.
Qed.

End With.

(** ** Attributes *)

Lemma apop_gone (a : attrs) k : NoDup (map fst a) -> ~ In k (map fst (apop a k)).
Proof.
  induction a as [|[p v] t IH]; [easy|]. cbn [map fst]. intros N. apply NoDup_cons_iff in N. destruct N as [N1 N2].
  cbn [dremove]. destruct (String.eqb_spec k p) as [->|Q]; [exact N1|]. cbn [map fst]. intros [E|I]; [now apply Q|now apply (IH N2)].
Qed.

Lemma remove_attrs_spec (a : attrs) : NoDup (map fst a) ->
  ~ present (remove_attrs a) "units" /\ ~ present (remove_attrs a) "standard_name" /\
  (forall k, k <> "units" -> k <> "standard_name" -> aget (remove_attrs a) k = aget a k).
Proof.
  intros N. unfold remove_attrs, present. split; [|split].
  - intros [v E]. rewrite dget_dremove in E by discriminate. apply dget_in in E. apply (in_map fst) in E. cbn [fst] in E.
    revert E. now apply apop_gone.
  - intros [v E]. apply dget_in in E. apply (in_map fst) in E. cbn [fst] in E. revert E. apply apop_gone. now apply apop_nodup.
  - intros k K1 K2. now rewrite !dget_dremove.
Qed.

Definition lonlat_attrs (u n : string) (a : attrs) : attrs :=
  add_attrs [("units", AStr u); ("standard_name", AStr n)] a.

Lemma add_attrs_get u n a : add_attrs [("units", AStr u); ("standard_name", AStr n)] a = lonlat_attrs u n a.
Proof. reflexivity. Qed.

Lemma absent_dmem (a : attrs) k : ~ present a k -> dmem String.eqb a k = false.
Proof. unfold present, dmem. destruct (aget a k) as [v|]; [|reflexivity]. intros H. destruct H. now exists v. Qed.

Lemma present_dmem (a : attrs) k v : aget a k = Some v -> dmem String.eqb a k = true.
Proof. unfold dmem. now intros ->. Qed.

Lemma add_attrs_fresh u n a : ~ present a "units" -> ~ present a "standard_name" ->
  says (lonlat_attrs u n a) "units" u /\ says (lonlat_attrs u n a) "standard_name" n /\
  (forall k, k <> "units" -> k <> "standard_name" -> aget (lonlat_attrs u n a) k = aget a k).
Proof.
  intros U N. unfold lonlat_attrs, add_attrs, says. cbn [fold_left fst snd]. rewrite (absent_dmem a "units" U).
  assert (M : dmem String.eqb (aset a "units" (AStr u)) "standard_name" = false).
  { apply absent_dmem. intros [v E]. rewrite aset_other in E by discriminate. apply N. now exists v. }
  rewrite M. split; [|split].
  - rewrite aset_other by discriminate. apply aset_this.
  - apply aset_this.
  - intros k K1 K2. now rewrite !aset_other.
Qed.

Lemma add_attrs_kept l (a : attrs) k v : aget a k = Some v -> aget (add_attrs l a) k = Some v.
Proof.
  unfold add_attrs. revert a. induction l as [|[x y] t IH]; intros a H; [exact H|]. cbn [fold_left fst snd]. apply IH.
  destruct (dmem String.eqb a x) eqn:M; [exact H|]. rewrite aset_other; [exact H|]. intros ->. unfold dmem in M. now rewrite H in M.
Qed.

Lemma add_attrs_again u n a : add_attrs [("units", AStr u); ("standard_name", AStr n)] (lonlat_attrs u n a) = lonlat_attrs u n a.
Proof.
  assert (P : forall k, In k ["units"; "standard_name"] -> dmem String.eqb (lonlat_attrs u n a) k = true).
  { assert (H : forall l (b : attrs) k, In k (map fst l) -> dmem String.eqb (add_attrs l b) k = true).
    { induction l as [|[x y] t IH]; intros b k; [easy|]. intros [E|I]; unfold add_attrs; cbn [fold_left fst snd].
      - cbn [fst] in E. subst x.
        assert (Hk : exists w, aget (if dmem String.eqb b k then b else aset b k y) k = Some w).
        { destruct (dmem String.eqb b k) eqn:M; [unfold dmem in M; destruct (aget b k) as [w|]; [now exists w|easy]|exists y; apply aset_this]. }
        destruct Hk as [w Hw]. apply (add_attrs_kept t) in Hw. exact (present_dmem _ _ _ Hw).
      - now apply IH. }
    intros k I. apply H. exact I. }
  unfold add_attrs at 1. cbn [fold_left fst snd]. rewrite P by (cbn; auto). now rewrite P by (cbn; auto).
Qed.

(** [g'] is what a transformation to [d] makes of the attributes of [g]: whatever the new
    values are, the attributes are formatted for [d] after the system is set and at the end. *)
Definition transformed {pt} (d : crs) (g g' : grid pt) : Prop :=
  exists g1 g3, (g_level g1 = g_level g /\ g_x g1 = g_x g /\ g_y g1 = g_y g /\ g_z g1 = g_z g) /\
    format_grid d false g1 = Ok g3 /\ format_grid d true g3 = Ok g'.

Lemma lonlat_attributes c : (lonlat c <-> cf_attributes c <> None) /\ (~ lonlat c <-> cf_attributes c = None).
Proof. unfold lonlat, cf_attributes. destruct (c_kind c); intuition congruence. Qed.

Lemma transformed_projected {pt} d (g g' : grid pt) : cf_attributes d = None -> transformed d g g' ->
  g_x g' = remove_attrs (g_x g) /\ g_y g' = remove_attrs (g_y g) /\
  g_z g' = (match g_level g with Some _ => remove_attrs (g_z g) | None => g_z g end).
Proof.
  intros A (g1 & g3 & (L & X & Y & Z') & E3 & E4). unfold format_grid in E3, E4. rewrite A in E3, E4.
  destruct (c_kind d) as [b| |[|]| | |] eqn:K; try easy; injection E3 as <-; injection E4 as <-; cbn [g_x g_y g_z]; rewrite L, X, Y, Z'; repeat split.
Qed.

Lemma transformed_lonlat {pt} d (g g' : grid pt) : cf_attributes d <> None -> transformed d g g' ->
  g_x g' = lonlat_attrs "degrees_east" "longitude" (g_x g) /\ g_y g' = lonlat_attrs "degrees_north" "latitude" (g_y g) /\ g_z g' = g_z g.
Proof.
  intros A (g1 & g3 & (L & X & Y & Z') & E3 & E4). unfold format_grid, cf_attributes in *.
  destruct (c_kind d) as [b| |[|]| | |] eqn:K; try easy; injection E3 as <-; injection E4 as <-; cbn [g_x g_y g_z]; rewrite X, Y, Z';
    (split; [exact (add_attrs_again _ _ _)|split; [exact (add_attrs_again _ _ _)|reflexivity]]).
Qed.

Section With2.
Context {pt : Type}.
Variable project : attrs -> attrs -> pt -> pt.
Variable rotate : crs -> bool -> pt -> pt.
Variable cart : crs -> bool -> pt -> pt.
Variable unwrapped : list pt -> bool.
Variable with_height : pt -> pt.
Variable same : crs -> crs -> bool.

Lemma values_attrs cur c d (g g1 : grid pt) : grid_values project rotate cart unwrapped cur c d g = Ok g1 ->
  g_level g1 = g_level g /\ g_x g1 = g_x g /\ g_y g1 = g_y g /\ g_z g1 = g_z g.
Proof.
  assert (Sp : forall s o b, sphere_transform_grid cart unwrapped s o g b = Ok g1 ->
    g_level g1 = g_level g /\ g_x g1 = g_x g /\ g_y g1 = g_y g /\ g_z g1 = g_z g).
  { intros s o b. unfold sphere_transform_grid. destruct (negb b && unwrapped (g_points g))%bool; [easy|].
    destruct (g_level g) as [zb|] eqn:L; [|easy]. destruct (transform_coordinates _ _ _ _ _ _) as [p|]; [|easy]. cbn [bind].
    destruct (match g_corners g with Some _ => _ | None => _ end) as [q|]; [|easy]. cbn [bind]. intros [= <-].
    cbn [g_level g_x g_y g_z]. repeat split. }
  assert (Ro : forall p b, rotate_grid rotate p cur g b = Ok g1 ->
    g_level g1 = g_level g /\ g_x g1 = g_x g /\ g_y g1 = g_y g /\ g_z g1 = g_z g).
  { intros p b. unfold rotate_grid. destruct cur as [x|]; [|easy]. destruct (is_geographic x || is_rotated_pole x)%bool; [|easy].
    intros [= <-]. repeat split. }
  unfold grid_values. destruct (match cur with Some x => is_cartesian x | None => false end || is_cartesian d)%bool.
  - unfold transform_grid. destruct (c_kind c); try easy; try (apply Sp). destruct (c_kind d); try easy; apply Sp.
  - destruct (match cur with Some x => is_rotated_pole x | None => false end).
    + destruct (c_kind c); try easy. apply Ro.
    + destruct (is_rotated_pole d); [apply Ro|]. destruct (proj4 c); [|easy]. destruct (proj4 d); [|easy]. cbn [bind]. intros [= <-]. repeat split.
Qed.

Lemma update_transformed f f' g d from : f_grid f = Some g ->
  update_crs project rotate cart unwrapped with_height same f (Some d) from = Ok f' ->
  exists g' : grid pt, f_grid f' = Some g' /\ transformed d g g'.
Proof.
  intros G. unfold update_crs.
  destruct (match from with Some c => Ok (Some c) | None => field_system f end) as [from1|]; [|easy]. cbn [bind].
  destruct (grid_update_crs project rotate cart unwrapped f (Some d) from1) as [f1|] eqn:E1; [|easy]. cbn [bind].
  destruct (geom_update_crs project cart unwrapped with_height same f1 (Some d) from1) as [f2|] eqn:E2; [|easy]. cbn [bind].
  intros [= <-]. cbn [f_grid].
  assert (F2 : f_grid f2 = f_grid f1).
  { unfold geom_update_crs in E2. destruct (f_geom f1) as [l|]; [|now injection E2 as <-].
    destruct (field_system f1) as [c1|]; [|easy]. cbn [bind] in E2. destruct (check_systems c1 from1 (Some d)); [|easy]. cbn [bind] in E2.
    destruct (match from1 with Some c => Some c | None => c1 end) as [c|]; [|easy].
    destruct (geom_values _ _ _ _ _ c d l) as [l'|]; [|easy]. cbn [bind] in E2.
    destruct (match c_kind d with KSphere true => Err ValueError | _ => Ok tt end); [|easy]. cbn [bind] in E2. now injection E2 as <-. }
  rewrite F2. unfold grid_update_crs in E1. rewrite G in E1. destruct (field_system f) as [cur|]; [|easy]. cbn [bind] in E1.
  destruct (check_systems cur from1 (Some d)); [|easy]. cbn [bind] in E1.
  destruct (match from1 with Some c => Some c | None => cur end) as [c|]; [|easy].
  destruct (grid_values project rotate cart unwrapped cur c d g) as [g1|] eqn:V; [|easy]. cbn [bind] in E1.
  destruct (format_grid d false g1) as [g3|] eqn:E3; [|easy]. cbn [bind] in E1.
  destruct (format_grid d true g3) as [g4|] eqn:E4; [|easy]. cbn [bind] in E1. injection E1 as <-.
  exists g4. split; [reflexivity|]. exists g1, g3. split; [exact (values_attrs cur c d g g1 V)|]. now split.
Qed.

Lemma transforms_transformed f d from g g' : transforms project rotate cart unwrapped with_height same f d from g g' -> transformed d g g'.
Proof.
  intros (f' & E & G & G'). destruct (update_transformed f f' g d from G E) as (g2 & G2 & T). rewrite G' in G2. now injection G2 as <-.
Qed.

End With2.
