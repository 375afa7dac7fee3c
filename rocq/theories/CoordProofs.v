From Verif Require Import Py Lib Spec PartitionModel PartitionProofs TimeModel TimeProofs NdModel NdSpec NdProofs MaskProofs CalcModel AggModel AggSpec AggProofs CoordModel CoordSpec.
From Coq Require Import Lqa Permutation.

(** ** Boolean comparisons *)
Lemma qle_spec a b : reflect (a <= b)%Q (qle a b).
Proof. unfold qle. destruct (Qle_bool a b) eqn:E; constructor; [apply Qle_bool_iff; exact E | intro H; apply Qle_bool_iff in H; congruence]. Qed.
Lemma qlt_spec a b : reflect (a < b)%Q (qlt a b).
Proof.
  unfold qlt. fold (qle b a). destruct (qle_spec b a); cbn; constructor; [apply Qle_not_lt; assumption | apply Qnot_le_lt; assumption].
Qed.
Lemma qeq_spec a b : reflect (a == b)%Q (qeq a b).
Proof. unfold qeq. destruct (Qeq_bool a b) eqn:E; constructor; [apply Qeq_bool_iff; exact E | intro H; apply Qeq_bool_iff in H; congruence]. Qed.

(** ** Wrapping (C32) *)
Local Open Scope Q_scope.
Lemma forall2_map_r {A B} (R : A -> B -> Prop) (f : A -> B) l : Forall (fun x => R x (f x)) l -> Forall2 R l (map f l).
Proof. induction 1; cbn; constructor; auto. Qed.
Lemma forall2_map_l {A B} (R : B -> A -> Prop) (f : A -> B) l : Forall (fun x => R (f x) x) l -> Forall2 R (map f l) l.
Proof. induction 1; cbn; constructor; auto. Qed.

Ltac qcases := repeat match goal with |- context [qlt ?a ?b] => destruct (qlt_spec a b) | |- context [qle ?a ?b] => destruct (qle_spec a b) end.

Lemma wrap_range arr : Forall (Within 0 360) arr ->
  Forall2 (fun x y => -(180) < y <= 180 /\ (y == x \/ y == x - 360)) arr (wrap_array wrap_axis_default arr).
Proof.
  intros H. apply forall2_map_r. eapply Forall_impl; [|exact H]. unfold Within, wrap_axis_default. intros x Hx. qcases; split; try lra.
Qed.
Lemma unwrap_range arr : Forall (Within (-(180)) 180) arr ->
  Forall2 (fun x y => 0 <= y < 360 /\ (y == x \/ y == x + 360)) arr (unwrap_array center_axis_default arr).
Proof.
  intros H. apply forall2_map_r. eapply Forall_impl; [|exact H]. unfold Within, center_axis_default. intros x Hx. qcases; split; try lra.
Qed.
Lemma unwrap_wrap arr : Forall (Within 0 360) arr ->
  Forall2 (fun x z => z == x \/ (x == 360 /\ z == 0)) arr (unwrap_array center_axis_default (wrap_array wrap_axis_default arr)).
Proof.
  intros H. unfold unwrap_array, wrap_array. rewrite map_map. apply forall2_map_r. eapply Forall_impl; [|exact H].
  unfold Within, center_axis_default, wrap_axis_default. intros x Hx. qcases; lra.
Qed.
Lemma wrap_unwrap arr : Forall (Within (-(180)) 180) arr ->
  Forall2 (fun x z => z == x \/ (x == -(180) /\ z == 180)) arr (wrap_array wrap_axis_default (unwrap_array center_axis_default arr)).
Proof.
  intros H. unfold unwrap_array, wrap_array. rewrite map_map. apply forall2_map_r. eapply Forall_impl; [|exact H].
  unfold Within, center_axis_default, wrap_axis_default. intros x Hx. qcases; lra.
Qed.
Lemma wrap_fixed arr : Forall (fun x => x <= 180) arr -> wrap_array wrap_axis_default arr = arr.
Proof.
  intros H. unfold wrap_array. rewrite <- (map_id arr) at 2. apply map_ext_in. intros x Hx. rewrite Forall_forall in H. specialize (H x Hx).
  unfold wrap_axis_default. qcases; [lra | reflexivity].
Qed.
Lemma unwrap_fixed arr : Forall (fun x => 0 <= x) arr -> unwrap_array center_axis_default arr = arr.
Proof.
  intros H. unfold unwrap_array. rewrite <- (map_id arr) at 2. apply map_ext_in. intros x Hx. rewrite Forall_forall in H. specialize (H x Hx).
  unfold center_axis_default. qcases; [lra | reflexivity].
Qed.
Lemma wrap_bound arr : Forall (Within 0 360) arr -> Forall (fun x => -(180) < x <= 180) (wrap_array wrap_axis_default arr).
Proof. intros H. unfold wrap_array. rewrite Forall_map. eapply Forall_impl; [|exact H]. unfold Within, wrap_axis_default. intros x Hx. qcases; lra. Qed.
Lemma unwrap_bound arr : Forall (Within (-(180)) 180) arr -> Forall (fun x => 0 <= x < 360) (unwrap_array center_axis_default arr).
Proof. intros H. unfold unwrap_array. rewrite Forall_map. eapply Forall_impl; [|exact H]. unfold Within, center_axis_default. intros x Hx. qcases; lra. Qed.
Lemma wrap_idem arr : Forall (Within 0 360) arr -> wrap_array wrap_axis_default (wrap_array wrap_axis_default arr) = wrap_array wrap_axis_default arr.
Proof. intros H. apply wrap_fixed. eapply Forall_impl; [|apply wrap_bound; exact H]. cbn. intros; lra. Qed.
Lemma unwrap_idem arr : Forall (Within (-(180)) 180) arr -> unwrap_array center_axis_default (unwrap_array center_axis_default arr) = unwrap_array center_axis_default arr.
Proof. intros H. apply unwrap_fixed. eapply Forall_impl; [|apply unwrap_bound; exact H]. cbn. intros; lra. Qed.

(** The state of a whole grid. *)
Lemma state_nonneg arr : Forall (fun x => 0 <= x) arr -> is_wrapped (wrapped_state_from_array arr) = false.
Proof.
  intros H. unfold wrapped_state_from_array. destruct (existsb _ arr); [reflexivity|].
  destruct (existsb (fun x => qlt x 0) arr) eqn:E; [|reflexivity]. apply existsb_exists in E. destruct E as [x [Hx E]].
  rewrite Forall_forall in H. specialize (H x Hx). destruct (qlt_spec x 0); [lra | discriminate].
Qed.
Lemma state_le180 arr : Forall (fun x => x <= 180) arr -> is_unwrapped (wrapped_state_from_array arr) = false.
Proof.
  intros H. unfold wrapped_state_from_array. destruct (existsb (fun x => qlt MERIDIAN_180TH x) arr) eqn:E.
  - apply existsb_exists in E. destruct E as [x [Hx E]]. rewrite Forall_forall in H. specialize (H x Hx). unfold MERIDIAN_180TH in E.
    destruct (qlt_spec 180 x); [lra | discriminate].
  - destruct (existsb (fun x => qlt x 0) arr); reflexivity.
Qed.
Lemma global_nonneg ranks : Forall (Forall (fun x => 0 <= x)) ranks -> state_is_action (wrapped_state_global ranks) WRAP = false.
Proof.
  intros H. unfold wrapped_state_global.
  assert (existsb is_wrapped (map wrapped_state_from_array ranks) = false) as ->.
  { induction H; [reflexivity|]. cbn. rewrite state_nonneg by assumption. exact IHForall. }
  destruct (existsb _ _); reflexivity.
Qed.
Lemma global_le180 ranks : Forall (Forall (fun x => x <= 180)) ranks -> state_is_action (wrapped_state_global ranks) UNWRAP = false.
Proof.
  intros H. unfold wrapped_state_global.
  assert (existsb is_unwrapped (map wrapped_state_from_array ranks) = false) as ->.
  { induction H; [reflexivity|]. cbn. rewrite state_le180 by assumption. exact IHForall. }
  destruct (existsb _ _); reflexivity.
Qed.
Lemma grid_wrap_nonneg f ranks : Forall (Forall (fun x => 0 <= x)) ranks -> grid_wrap_or_unwrap WRAP f ranks = map (wrap_array wrap_axis_default) ranks.
Proof. intros H. unfold grid_wrap_or_unwrap. rewrite global_nonneg by exact H. reflexivity. Qed.
Lemma grid_unwrap_le180 f ranks : Forall (Forall (fun x => x <= 180)) ranks -> grid_wrap_or_unwrap UNWRAP f ranks = map (unwrap_array center_axis_default) ranks.
Proof. intros H. unfold grid_wrap_or_unwrap. rewrite global_le180 by exact H. reflexivity. Qed.
Lemma grid_wrap_fixed f ranks : Forall (Forall (fun x => x <= 180)) ranks -> grid_wrap_or_unwrap WRAP f ranks = ranks.
Proof.
  intros H. unfold grid_wrap_or_unwrap. destruct (_ || _); [|reflexivity]. rewrite <- (map_id ranks) at 2. apply map_ext_in. intros a Ha.
  rewrite Forall_forall in H. apply wrap_fixed. auto.
Qed.
Lemma grid_unwrap_fixed f ranks : Forall (Forall (fun x => 0 <= x)) ranks -> grid_wrap_or_unwrap UNWRAP f ranks = ranks.
Proof.
  intros H. unfold grid_wrap_or_unwrap. destruct (_ || _); [|reflexivity]. rewrite <- (map_id ranks) at 2. apply map_ext_in. intros a Ha.
  rewrite Forall_forall in H. apply unwrap_fixed. auto.
Qed.
Lemma forall_deep {A} (P R : A -> Prop) : (forall x, P x -> R x) -> forall l, Forall (Forall P) l -> Forall (Forall R) l.
Proof. intros H l. apply Forall_impl. intros a. apply Forall_impl. exact H. Qed.

Lemma grid_wrap_spec f f' ranks : Forall (Forall (fun x => 0 <= x < 360)) ranks ->
  let w := grid_wrap_or_unwrap WRAP f ranks in
  Forall (Forall (fun x => -(180) < x <= 180)) w /\ Forall2 SameCoords (grid_wrap_or_unwrap UNWRAP f' w) ranks /\
  grid_wrap_or_unwrap WRAP f' w = w.
Proof.
  intros H w.
  assert (H0 : Forall (Forall (Within 0 360)) ranks) by (revert H; apply forall_deep; unfold Within; intros; lra).
  assert (Hw : w = map (wrap_array wrap_axis_default) ranks) by (apply grid_wrap_nonneg; revert H; apply forall_deep; intros; lra).
  assert (B : Forall (Forall (fun x => -(180) < x <= 180)) w).
  { rewrite Hw, Forall_map. eapply Forall_impl; [|exact H0]. apply wrap_bound. }
  split; [exact B|]. split.
  - rewrite grid_unwrap_le180 by (revert B; apply forall_deep; intros; lra). rewrite Hw, map_map. apply forall2_map_l.
    eapply Forall_impl; [|exact H]. intros a Ha. unfold SameCoords, unwrap_array, wrap_array. rewrite map_map. apply forall2_map_l.
    eapply Forall_impl; [|exact Ha]. unfold wrap_axis_default, center_axis_default. cbn beta. intros x Hx. qcases; lra.
  - apply grid_wrap_fixed. revert B; apply forall_deep; intros; lra.
Qed.
Lemma grid_unwrap_spec f f' ranks : Forall (Forall (fun x => -(180) < x <= 180)) ranks ->
  let u := grid_wrap_or_unwrap UNWRAP f ranks in
  Forall (Forall (fun x => 0 <= x < 360)) u /\ Forall2 SameCoords (grid_wrap_or_unwrap WRAP f' u) ranks /\
  grid_wrap_or_unwrap UNWRAP f' u = u.
Proof.
  intros H u.
  assert (H0 : Forall (Forall (Within (-(180)) 180)) ranks) by (revert H; apply forall_deep; unfold Within; intros; lra).
  assert (Hu : u = map (unwrap_array center_axis_default) ranks) by (apply grid_unwrap_le180; revert H; apply forall_deep; intros; lra).
  assert (B : Forall (Forall (fun x => 0 <= x < 360)) u).
  { rewrite Hu, Forall_map. eapply Forall_impl; [|exact H0]. apply unwrap_bound. }
  split; [exact B|]. split.
  - rewrite grid_wrap_nonneg by (revert B; apply forall_deep; intros; lra). rewrite Hu, map_map. apply forall2_map_l.
    eapply Forall_impl; [|exact H]. intros a Ha. unfold SameCoords, unwrap_array, wrap_array. rewrite map_map. apply forall2_map_l.
    eapply Forall_impl; [|exact Ha]. unfold wrap_axis_default, center_axis_default. cbn beta. intros x Hx. qcases; lra.
  - apply grid_unwrap_fixed. revert B; apply forall_deep; intros; lra.
Qed.

(** ** Minima and maxima *)
Lemma qmin_spec a b : qmin a b <= a /\ qmin a b <= b /\ (qmin a b = a \/ qmin a b = b).
Proof. unfold qmin. qcases; repeat split; auto; lra. Qed.
Lemma qmax_spec a b : a <= qmax a b /\ b <= qmax a b /\ (qmax a b = a \/ qmax a b = b).
Proof. unfold qmax. qcases; repeat split; auto; lra. Qed.
Lemma fold_min_spec : forall l x, let m := fold_left qmin l x in m <= x /\ Forall (fun y => m <= y) l /\ (m = x \/ In m l).
Proof.
  induction l as [|y l IH]; intros x; cbn; [repeat split; auto; lra|]. destruct (IH (qmin x y)) as [A [B C]]. destruct (qmin_spec x y) as [D [E F]].
  split; [lra|]. split.
  - constructor; [lra | exact B].
  - destruct C as [C|C]; [|auto]. rewrite C. destruct F as [F|F]; rewrite F; auto.
Qed.
Lemma fold_max_spec : forall l x, let m := fold_left qmax l x in x <= m /\ Forall (fun y => y <= m) l /\ (m = x \/ In m l).
Proof.
  induction l as [|y l IH]; intros x; cbn; [repeat split; auto; lra|]. destruct (IH (qmax x y)) as [A [B C]]. destruct (qmax_spec x y) as [D [E F]].
  split; [lra|]. split.
  - constructor; [lra | exact B].
  - destruct C as [C|C]; [|auto]. rewrite C. destruct F as [F|F]; rewrite F; auto.
Qed.
Lemma np_min_spec l m : np_min l = Ok m -> In m l /\ forall x, In x l -> m <= x.
Proof.
  destruct l as [|x l]; [discriminate|]. cbn [np_min]. intros E. assert (E' : fold_left qmin l x = m) by congruence. subst m.
  destruct (fold_min_spec l x) as [A [B C]]. split.
  - destruct C as [C|C]; [left; symmetry; exact C | right; exact C].
  - intros y [<-|Hy]; [exact A|]. rewrite Forall_forall in B. apply B, Hy.
Qed.
Lemma np_max_spec l m : np_max l = Ok m -> In m l /\ forall x, In x l -> x <= m.
Proof.
  destruct l as [|x l]; [discriminate|]. cbn [np_max]. intros E. assert (E' : fold_left qmax l x = m) by congruence. subst m.
  destruct (fold_max_spec l x) as [A [B C]]. split.
  - destruct C as [C|C]; [left; symmetry; exact C | right; exact C].
  - intros y [<-|Hy]; [exact A|]. rewrite Forall_forall in B. apply B, Hy.
Qed.
Lemma np_min_ok l : l <> [] -> exists m, np_min l = Ok m.
Proof. destruct l; [congruence | eexists; reflexivity]. Qed.
Lemma np_max_ok l : l <> [] -> exists m, np_max l = Ok m.
Proof. destruct l; [congruence | eexists; reflexivity]. Qed.

(** Geometries without a cut. *)
Lemma wrap_geom_points g g' : (forall p, In p (points_of g) -> Within 0 360 (fst p)) ->
  match g with GPolygon _ holes => holes = [] | _ => True end -> wrap_geom wrap_axis_default g = Ok g' ->
  Forall2 (fun p q => snd q = snd p /\ -(180) < fst q <= 180 /\ (fst q == fst p \/ fst q == fst p - 360)) (points_of g) (points_of g').
Proof.
  unfold Within. intros H Hh E. destruct g as [x y|pts|ext holes]; cbn [wrap_geom] in E.
  - specialize (H (x, y) (or_introl eq_refl)). cbn in H. destruct (qlt_spec 180 x).
    + assert (X : g' = GPoint (x - 360) y) by congruence. subst g'. cbn. constructor; [|constructor]. cbn. repeat split; try lra.
    + assert (X : g' = GPoint x y) by congruence. subst g'. cbn. constructor; [|constructor]. cbn. repeat split; try lra.
  - match type of E with Ok ?r = _ => assert (X : g' = r) by congruence end. subst g'. cbn. apply forall2_map_r. rewrite Forall_forall. intros [x y] Hp.
    specialize (H _ Hp). cbn in *. destruct (qlt_spec 180 x); cbn; repeat split; try lra.
  - subst holes. cbn in H. rewrite app_nil_r in H. unfold bind in E. destruct (np_min (map fst ext)) as [mn|] eqn:En; [|discriminate].
    destruct (np_max (map fst ext)) as [mx|] eqn:Ex; [|discriminate]. apply np_min_spec in En. apply np_max_spec in Ex. unfold wrap_axis_default in E.
    destruct (qlt_spec 180 mn) as [L|L]; destruct (qlt_spec 180 mx) as [L'|L']; cbn [andb] in E.
    + match type of E with Ok ?r = _ => assert (X : g' = r) by congruence end. subst g'. cbn. rewrite !app_nil_r. apply forall2_map_r.
      rewrite Forall_forall. intros [x y] Hp. specialize (H _ Hp). cbn in *. destruct En as [_ En]. specialize (En x (in_map fst _ _ Hp)). repeat split; try lra.
    + exfalso. destruct En as [I _], Ex as [_ Ex]. specialize (Ex _ I). lra.
    + destruct (qle_spec mn 180); [discriminate | lra].
    + rewrite andb_false_r in E. match type of E with Ok ?r = _ => assert (X : g' = r) by congruence end. subst g'. cbn. rewrite !app_nil_r.
      clear E. assert (F : Forall (fun p => (0 <= fst p <= 180)) ext).
      { rewrite Forall_forall. intros p Hp. specialize (H _ Hp). destruct Ex as [_ Ex]. specialize (Ex _ (in_map fst _ _ Hp)). lra. }
      clear - F. induction F; constructor; [|assumption]. repeat split; try lra.
Qed.
Lemma unwrap_geom_points g g' : (forall p, In p (points_of g) -> Within (-(180)) 180 (fst p)) ->
  match g with GPolygon _ holes => holes = [] | _ => True end -> unwrap_geom center_axis_default g = Ok g' ->
  Forall2 (fun p q => snd q = snd p /\ 0 <= fst q < 360 /\ (fst q == fst p \/ fst q == fst p + 360)) (points_of g) (points_of g').
Proof.
  unfold Within, center_axis_default. intros H Hh E. destruct g as [x y|pts|ext holes]; cbn [unwrap_geom] in E.
  - specialize (H (x, y) (or_introl eq_refl)). cbn in H. destruct (qlt_spec x 0).
    + assert (X : g' = GPoint (x + 360) y) by congruence. subst g'. cbn. constructor; [|constructor]. cbn. repeat split; try lra.
    + assert (X : g' = GPoint x y) by congruence. subst g'. cbn. constructor; [|constructor]. cbn. repeat split; try lra.
  - match type of E with Ok ?r = _ => assert (X : g' = r) by congruence end. subst g'. cbn. apply forall2_map_r. rewrite Forall_forall. intros [x y] Hp.
    specialize (H _ Hp). cbn in *. destruct (qlt_spec x 0); cbn; repeat split; try lra.
  - subst holes. cbn in H. rewrite app_nil_r in H. destruct (existsb _ ext) eqn:Ex; [discriminate|].
    match type of E with Ok ?r = _ => assert (X : g' = r) by congruence end. subst g'. cbn. rewrite !app_nil_r.
    assert (F : Forall (fun p => 0 <= fst p <= 180) ext).
    { rewrite Forall_forall. intros p Hp. specialize (H _ Hp). destruct (qlt_spec (fst p) 0) as [L|L]; [|lra]. exfalso.
      assert (X : existsb (fun p => qlt (fst p) 0) ext = true) by (apply existsb_exists; exists p; split; [exact Hp | destruct (qlt_spec (fst p) 0); congruence]).
      congruence. }
    clear - F. induction F; constructor; [|assumption]. repeat split; try lra.
Qed.

(** ** Extents (C53) *)
Definition ranks_x (ranks : list (list Q * list Q)) := concat (map fst ranks).
Definition ranks_y (ranks : list (list Q * list Q)) := concat (map snd ranks).
Lemma extent_of_spec xs ys e : extent_of xs ys = Ok e ->
  np_min xs = Ok (fst (fst (fst e))) /\ np_min ys = Ok (snd (fst (fst e))) /\ np_max xs = Ok (snd (fst e)) /\ np_max ys = Ok (snd e).
Proof.
  unfold extent_of, bind. destruct (np_min xs), (np_min ys), (np_max xs), (np_max ys); try discriminate. intros E.
  match type of E with Ok ?r = _ => assert (X : e = r) by congruence end. subst e. cbn. auto.
Qed.
Lemma side_min ranks (sel : list Q * list Q -> list Q) (f : Q * Q * Q * Q -> Q) es m :
  Forall2 (fun r e => np_min (sel r) = Ok (f e)) ranks es -> np_min (map f es) = Ok m ->
  In m (concat (map sel ranks)) /\ forall x, In x (concat (map sel ranks)) -> m <= x.
Proof.
  intros F E. apply np_min_spec in E. destruct E as [I B]. split.
  - clear B. induction F as [|r e ranks es Hre F IH]; [destruct I|]. cbn in *. apply in_or_app. destruct I as [I|I]; [left|right; auto].
    apply np_min_spec in Hre. rewrite <- I. apply Hre.
  - clear I. intros x Hx. induction F as [|r e ranks es Hre F IH]; [destruct Hx|]. cbn in *. apply in_app_or in Hx. destruct Hx as [Hx|Hx].
    + apply np_min_spec in Hre. destruct Hre as [_ Hre]. specialize (Hre x Hx). specialize (B (f e) (or_introl eq_refl)). lra.
    + apply IH; [|exact Hx]. intros y Hy. apply B. right. exact Hy.
Qed.
Lemma side_max ranks (sel : list Q * list Q -> list Q) (f : Q * Q * Q * Q -> Q) es m :
  Forall2 (fun r e => np_max (sel r) = Ok (f e)) ranks es -> np_max (map f es) = Ok m ->
  In m (concat (map sel ranks)) /\ forall x, In x (concat (map sel ranks)) -> x <= m.
Proof.
  intros F E. apply np_max_spec in E. destruct E as [I B]. split.
  - clear B. induction F as [|r e ranks es Hre F IH]; [destruct I|]. cbn in *. apply in_or_app. destruct I as [I|I]; [left|right; auto].
    apply np_max_spec in Hre. rewrite <- I. apply Hre.
  - clear I. intros x Hx. induction F as [|r e ranks es Hre F IH]; [destruct Hx|]. cbn in *. apply in_app_or in Hx. destruct Hx as [Hx|Hx].
    + apply np_max_spec in Hre. destruct Hre as [_ Hre]. specialize (Hre x Hx). specialize (B (f e) (or_introl eq_refl)). lra.
    + apply IH; [|exact Hx]. intros y Hy. apply B. right. exact Hy.
Qed.

Lemma extent_global_spec ranks : ranks <> [] -> Forall (fun r => fst r <> [] /\ snd r <> []) ranks ->
  exists minx miny maxx maxy, get_extent_global ranks = Ok (minx, miny, maxx, maxy) /\
  (forall r x, In r ranks -> In x (fst r) -> minx <= x <= maxx) /\ (forall r y, In r ranks -> In y (snd r) -> miny <= y <= maxy) /\
  (exists r, In r ranks /\ In minx (fst r)) /\ (exists r, In r ranks /\ In maxx (fst r)) /\
  (exists r, In r ranks /\ In miny (snd r)) /\ (exists r, In r ranks /\ In maxy (snd r)).
Proof.
  intros Hne H. unfold get_extent_global.
  match goal with |- context [map_res ?f ranks] => destruct (map_res_exists f ranks) as [es E] end.
  { intros [xs ys] Hr. rewrite Forall_forall in H. destruct (H _ Hr) as [Hx Hy]. cbn in *. destruct xs as [|x xs]; [congruence|]. destruct ys as [|y ys]; [congruence|].
    eexists. reflexivity. }
  rewrite E. cbn [bind].
  assert (F : Forall2 (fun r e => extent_of (fst r) (snd r) = Ok e) ranks es).
  { apply map_res_ok in E. revert E. apply Forall2_imp. intros [[|x xs] [|y ys]] e; cbn [fst snd]; intros X; try discriminate; exact X. }
  assert (Nes : es <> []) by (intros ->; inversion F; subst; congruence).
  assert (Nm : forall f : Q * Q * Q * Q -> Q, map f es <> []) by (intros f; destruct es; [congruence | discriminate]).
  destruct (np_min_ok _ (Nm (fun e => fst (fst (fst e))))) as [a Ea]. rewrite Ea. cbn [bind].
  destruct (np_min_ok _ (Nm (fun e => snd (fst (fst e))))) as [b Eb]. rewrite Eb. cbn [bind].
  destruct (np_max_ok _ (Nm (fun e => snd (fst e)))) as [c Ec]. rewrite Ec. cbn [bind].
  destruct (np_max_ok _ (Nm snd)) as [d Ed]. rewrite Ed. cbn [bind].
  exists a, b, c, d. split; [reflexivity|].
  assert (Sa := side_min ranks fst (fun e => fst (fst (fst e))) es a ltac:(revert F; apply Forall2_imp; intros r e X; apply extent_of_spec in X; tauto) Ea).
  assert (Sb := side_min ranks snd (fun e => snd (fst (fst e))) es b ltac:(revert F; apply Forall2_imp; intros r e X; apply extent_of_spec in X; tauto) Eb).
  assert (Sc := side_max ranks fst (fun e => snd (fst e)) es c ltac:(revert F; apply Forall2_imp; intros r e X; apply extent_of_spec in X; tauto) Ec).
  assert (Sd := side_max ranks snd snd es d ltac:(revert F; apply Forall2_imp; intros r e X; apply extent_of_spec in X; tauto) Ed).
  assert (In1 : forall (sel : list Q * list Q -> list Q) m, In m (concat (map sel ranks)) <-> exists r, In r ranks /\ In m (sel r)).
  { intros sel m. rewrite in_concat. split; [intros [l [Hl Hm]]; apply in_map_iff in Hl; destruct Hl as [r [<- Hr]]; eauto | intros [r [Hr Hm]]; exists (sel r); split; [apply in_map, Hr | exact Hm]]. }
  destruct Sa as [Ia Ba], Sb as [Ib Bb], Sc as [Ic Bc], Sd as [Id Bd].
  split; [intros r x Hr Hx; split; [apply Ba | apply Bc]; apply In1; eauto|].
  split; [intros r x Hr Hx; split; [apply Bb | apply Bd]; apply In1; eauto|].
  rewrite In1 in Ia, Ib, Ic, Id. auto.
Qed.
Lemma extent_global_empty ranks : Exists (fun r => fst r = [] \/ snd r = []) ranks -> exists e, get_extent_global ranks = Err e.
Proof.
  intros H. unfold get_extent_global. apply Exists_exists in H. destruct H as [[xs ys] [Hr He]].
  match goal with |- context [map_res ?f ranks] => destruct (map_res f ranks) as [es|e] eqn:E end; [|eexists; reflexivity].
  exfalso. apply map_res_ok in E. destruct (In_nth_error _ _ Hr) as [k Hk]. destruct (nth_error_forall2 _ _ _ E k) as [_ X]. destruct (X _ Hk) as [y [_ Y]].
  cbn in *. destruct He as [-> | ->]; [destruct ys; discriminate | destruct xs; discriminate].
Qed.
