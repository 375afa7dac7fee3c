(** Proofs about operations whose attributes change. *)
From Verif Require Import Py Lib ValidModel ValidSpec.
From Coq Require Import String Lia.
Local Open Scope nat_scope.
Local Notation length := List.length.
Local Notation concat := List.concat.

(** ** Operations up to what is read *)

Definition normal (o : ops) : ops :=
  let g := o_geom o in
  mkops (o_data o) (o_op o) (o_aggregate o) (o_sample o) (o_calc o) (o_grouping o) (o_raw o)
        (o_snippet o) (o_format o) (o_agg_selection o) (o_where o) (o_select o)
        (mkgeom (g_select g) (g_union g) (g_where g) (geom_get g))
        (o_slice o) (o_file_only o) (o_crs o) (o_regrid o) (o_options o).

Lemma geom_get_normal : forall o, geom_get (o_geom (normal o)) = geom_get (o_geom o).
Proof. intros o. unfold normal, geom_get; cbn. destruct (g_value (o_geom o)); reflexivity. Qed.

Lemma normal_same : forall o p, normal o = normal p -> Same o p.
Proof.
  intros o p E. pose proof (f_equal o_data E). pose proof (f_equal o_op E). pose proof (f_equal o_aggregate E).
  pose proof (f_equal o_sample E). pose proof (f_equal o_calc E). pose proof (f_equal o_grouping E).
  pose proof (f_equal o_raw E). pose proof (f_equal o_snippet E). pose proof (f_equal o_format E).
  pose proof (f_equal o_agg_selection E). pose proof (f_equal o_where E). pose proof (f_equal o_select E).
  pose proof (f_equal (fun o => g_value (o_geom o)) E). pose proof (f_equal o_slice E).
  pose proof (f_equal o_file_only E). pose proof (f_equal o_crs E). pose proof (f_equal o_regrid E).
  pose proof (f_equal o_options E). cbn in *. constructor; congruence.
Qed.

Lemma rules_before_normal : forall size o, rules_before size (normal o) = rules_before size o.
Proof.
  intros size o. unfold rules_before, converter_rule, nc_rule, esmpy_rule. rewrite geom_get_normal. reflexivity.
Qed.

Lemma rules_after_normal : forall o, rules_after (normal o) = rules_after o.
Proof. intros o. unfold rules_after, slice_rule. rewrite geom_get_normal. reflexivity. Qed.

Lemma replace_crs_normal : forall o, replace_crs (normal o) = normal (replace_crs o).
Proof.
  intros o. unfold replace_crs. change (projections (normal o)) with (projections o).
  change (o_aggregate (normal o)) with (o_aggregate o). change (is_clip (normal o)) with (is_clip o).
  destruct (_ && _); reflexivity.
Qed.

Lemma validate_normal : forall size o, validate size (normal o) = (normal (fst (validate size o)), snd (validate size o)).
Proof.
  intros size o. unfold validate. rewrite rules_before_normal. destruct (rules_before size o); [|reflexivity].
  cbn. rewrite replace_crs_normal, rules_after_normal. reflexivity.
Qed.

(** ** Coordinate systems *)

Lemma system_eqb_eq : forall a b, system_eqb a b = true <-> a = b.
Proof. intros [] []; cbn; split; intros E; try discriminate; try reflexivity; try (apply Z.eqb_eq in E; subst; reflexivity); inversion E; apply Z.eqb_refl. Qed.

Lemma osystem_eqb_eq : forall a b, osystem_eqb a b = true <-> a = b.
Proof.
  intros [a|] [b|]; cbn; split; intros E; try discriminate; try reflexivity.
  - apply system_eqb_eq in E. subst. reflexivity.
  - inversion E. apply system_eqb_eq. reflexivity.
Qed.

Definition add_crs (acc : list (option system)) (d : dataset) : list (option system) :=
  if existsb (fun p => osystem_eqb p (ds_crs d)) acc then acc else acc ++ [ds_crs d].

Lemma projections_fold : forall o, projections o = fold_left add_crs (o_data o) [].
Proof. reflexivity. Qed.

Lemma add_crs_in : forall l acc p, In p (fold_left add_crs l acc) <-> In p acc \/ exists d, In d l /\ ds_crs d = p.
Proof.
  induction l as [|d l IH]; intros acc p; cbn [fold_left In].
  - split; [tauto|]. intros [H|[d [[] _]]]. exact H.
  - rewrite IH. unfold add_crs. destruct (existsb _ acc) eqn:E.
    + apply existsb_exists in E. destruct E as [q [Q1 Q2]]. apply osystem_eqb_eq in Q2. subst q.
      split; [intros [H|[x [X1 X2]]]; [tauto|right; eauto]|]. intros [H|[x [[<-|X1] X2]]]; [tauto| |right; eauto].
      left. rewrite <- X2. exact Q1.
    + rewrite in_app_iff. cbn [In]. split.
      * intros [[H|[<-|[]]]|[x [X1 X2]]]; [tauto|right; exists d; auto|right; eauto].
      * intros [H|[x [[<-|X1] X2]]]; [tauto|left; right; left; exact X2|right; eauto].
Qed.

Lemma projections_in : forall o p, In p (projections o) <-> exists d, In d (o_data o) /\ ds_crs d = p.
Proof. intros o p. rewrite projections_fold, add_crs_in. cbn. split; [intros [[]|H]; exact H|tauto]. Qed.

Lemma add_crs_nodup : forall l acc, NoDup acc -> NoDup (fold_left add_crs l acc).
Proof.
  induction l as [|d l IH]; intros acc N; cbn [fold_left]; [exact N|]. apply IH. unfold add_crs.
  destruct (existsb _ acc) eqn:E; [exact N|]. apply NoDup_rev in N. rewrite <- (rev_involutive (acc ++ _)). apply NoDup_rev.
  rewrite rev_app_distr. cbn. constructor; [|exact N]. rewrite <- in_rev. intros H.
  rewrite <- not_true_iff_false in E. apply E. apply existsb_exists. exists (ds_crs d). split; [exact H|]. apply osystem_eqb_eq. reflexivity.
Qed.

Lemma projections_many : forall o, 1 < length (projections o) <-> exists d e, In d (o_data o) /\ In e (o_data o) /\ ds_crs d <> ds_crs e.
Proof.
  intros o. assert (N : NoDup (projections o)) by (rewrite projections_fold; apply add_crs_nodup; constructor).
  pose proof (projections_in o) as P. split.
  - destruct (projections o) as [|p [|q l]]; cbn [length]; try lia. intros _.
    destruct (proj1 (P p) (or_introl eq_refl)) as [d [D1 D2]]. destruct (proj1 (P q) (or_intror (or_introl eq_refl))) as [e [E1 E2]].
    exists d, e. repeat split; try assumption. rewrite D2, E2. intros ->. inversion N as [|x l' M _]. apply M. left. reflexivity.
  - intros [d [e [D [E NE]]]].
    assert (Pd : In (ds_crs d) (projections o)) by (apply P; eauto). assert (Pe : In (ds_crs e) (projections o)) by (apply P; eauto).
    destruct (projections o) as [|p [|q l]]; cbn [length In] in *; try lia; try tauto.
    destruct Pd as [Pd|[]], Pe as [Pe|[]]. congruence.
Qed.

Lemma not_rotated : forall o, NotRotated (o_data o) -> existsb is_rotated (projections o) = false.
Proof.
  intros o N. apply not_true_iff_false. intros E. apply existsb_exists in E. destruct E as [p [P1 P2]].
  apply projections_in in P1. destruct P1 as [d [D1 D2]]. subst p. destruct (ds_crs d) as [[]|] eqn:C; try discriminate. exact (N _ _ D1 C).
Qed.

Lemma validate_keeps : forall size o, NotRotated (o_data o) -> fst (validate size o) = o.
Proof.
  intros size o N. unfold validate. destruct (rules_before size o); [|reflexivity]. unfold replace_crs. rewrite (not_rotated o N). reflexivity.
Qed.

(** ** Assigning and constructing *)

Lemma parse_destination_sources : forall data v, Sources data -> parse_destination data v = Ok v.
Proof.
  intros data v [D [d [S1 S2]]]. unfold parse_destination.
  assert (F : filter ds_dest data = []).
  { destruct (filter ds_dest data) as [|x t] eqn:E; [reflexivity|]. assert (I' : In x (filter ds_dest data)) by (rewrite E; left; reflexivity).
    apply filter_In in I'. destruct I' as [I1 I2]. rewrite (D x I1) in I2. discriminate. }
  assert (G : find ds_dest data = None).
  { destruct (find ds_dest data) as [x|] eqn:E; [|reflexivity]. apply find_some in E. destruct E as [I1 I2]. rewrite (D x I1) in I2. discriminate. }
  assert (X : existsb ds_source data = true) by (apply existsb_exists; eauto).
  destruct v as [g|]; cbn; [rewrite X; reflexivity|]. rewrite F, G. reflexivity.
Qed.

Lemma mem_str_in : forall x l, mem_str x l = true <-> In x l.
Proof.
  intros x l. unfold mem_str. rewrite existsb_exists. split.
  - intros [y [Y1 Y2]]. apply String.eqb_eq in Y2. subst. exact Y1.
  - intros H. exists x. split; [exact H|apply String.eqb_refl].
Qed.

Lemma parse_options_good : forall v, GoodOptions v -> exists keys,
  parse_options v = Ok (DictOptions keys true).
Proof.
  intros v [keys [-> K]]. unfold parse_options. replace (existsb _ keys) with false.
  - cbn. eexists. reflexivity.
  - symmetry. apply not_true_iff_false. intros E. apply existsb_exists in E. destruct E as [k [K1 K2]].
    apply K in K1. apply mem_str_in in K1. unfold option_keys in K2. rewrite K1 in K2. discriminate.
Qed.

(** The operations that stand for the arguments, before validation. *)
Definition Stands (a : args) (o : ops) : Prop := exists p, create a = Ok p /\ normal o = normal (update_dependents p).

Definition Fine (a : args) : Prop :=
  NotRotated (a_data a) /\ Sources (a_data a) /\ (exists f, format_created (a_format a) = Ok f) /\ (a_options a = NoOptions \/ GoodOptions (a_options a)).

Lemma create_fine : forall a, Fine a -> exists f keys, format_created (a_format a) = Ok f /\
  match a_options a with NoOptions => parse_options default_options | v => parse_options v end = Ok (DictOptions keys true) /\
  create a = Ok (mkops (a_data a) (a_op a) (a_aggregate a) (a_sample a) (a_calc a) (a_grouping a) (a_raw a)
            (a_snippet a) f (a_agg_selection a) (a_where a) (a_select a)
            (mkgeom (a_select a) (a_agg_selection a) (a_where a)
                    (parse_geom (a_agg_selection a) (a_where a) (a_select a) (a_geom a)))
            (a_slice a) (a_file_only a) (a_crs a) (a_regrid a) (Parm (DictOptions keys true))).
Proof.
  intros a [N [S' [[f F] G]]].
  assert (X : exists keys, match a_options a with NoOptions => parse_options default_options | v => parse_options v end = Ok (DictOptions keys true)).
  { destruct G as [->|G]; [eexists; vm_compute; reflexivity|]. destruct (parse_options_good _ G) as [keys K].
    destruct G as [ks [E _]]. rewrite E in *. eauto. }
  destruct X as [keys K]. exists f, keys. repeat split; try assumption.
  unfold create. rewrite F, (parse_destination_sources _ _ S'), K. reflexivity.
Qed.

Lemma update_fine : forall s a, Fine a -> Direct s -> Fine (update s a).
Proof.
  intros s a F D. destruct a, F as [N [S' [[f F] G]]], s; cbn in *; unfold Fine; cbn; try contradiction;
    try (repeat split; try assumption; try (exists f; assumption); try tauto; destruct S'; assumption).
  - destruct D as [D1 D2]. repeat split; try assumption; try (exists f; assumption); destruct D2; assumption.
  - destruct D as [g ->]. repeat split; try assumption; try (exists g; reflexivity); destruct S'; assumption.
Qed.

Lemma store_stands : forall s a o, Fine a -> Direct s -> Stands a o -> exists o', store s o = Ok o' /\ Stands (update s a) (update_dependents o').
Proof.
  intros s a o F D [p [C E]].
  destruct (create_fine a F) as [f [keys [Hf [Hk Hc]]]]. rewrite Hc in C. injection C as <-.
  destruct (create_fine (update s a) (update_fine s a F D)) as [f' [keys' [Hf' [Hk' Hc']]]].
  unfold Stands. rewrite Hc'. destruct o as [data op aggregate sample calc grouping raw snippet fmt sel where_ select geom slc fonly crs regrid options].
  destruct a as [adata aop aaggregate asample acalc agrouping araw asnippet afmt asel awhere aselect ageom aslc afonly acrs aregrid aoptions].
  unfold normal in E; cbn in E. injection E as -> -> -> -> -> -> -> -> -> -> -> -> E1 E2 E3 E4 -> -> -> -> ->.
  destruct geom as [gs gu gw gv]; cbn in *; subst gs gu gw.
  assert (V : forall b sl, geom_get (mkgeom sl b awhere gv) = geom_get (mkgeom sl b awhere (parse_geom asel awhere aselect ageom))).
  { intros b sl. unfold geom_get in *; cbn in *. destruct gv, (parse_geom asel awhere aselect ageom); try discriminate; try congruence. }
  destruct s; cbn in *; try contradiction;
    try (eexists; split; [reflexivity|]; eexists; split; [reflexivity|]; unfold normal, update_dependents; cbn; rewrite ?V;
         rewrite Hf in Hf'; injection Hf' as <-; rewrite Hk in Hk'; injection Hk' as <-; reflexivity).
  - destruct D as [g ->]. cbn in *. injection Hf' as <-. eexists; split; [reflexivity|]. eexists; split; [reflexivity|].
    unfold normal, update_dependents; cbn. rewrite V. rewrite Hk in Hk'; injection Hk' as <-. reflexivity.
  - eexists; split; [reflexivity|]. eexists; split; [reflexivity|]. unfold normal, update_dependents; cbn.
    rewrite Hf in Hf'; injection Hf' as <-; rewrite Hk in Hk'; injection Hk' as <-.
    replace (geom_get (mkgeom v asel awhere gv)) with (geom_get (mkgeom v asel awhere (parse_geom asel awhere v ageom))); [reflexivity|].
    rewrite V. destruct ageom; reflexivity.
  - destruct F as [_ [S' _]]; cbn in S'. rewrite (parse_destination_sources _ _ S'). cbn. eexists; split; [reflexivity|]. eexists; split; [reflexivity|].
    unfold normal, update_dependents; cbn. rewrite V. rewrite Hf in Hf'; injection Hf' as <-; rewrite Hk in Hk'; injection Hk' as <-. reflexivity.
  - destruct D as [ks [-> K]]. cbn in Hk'. cbn. rewrite Hk'. cbn. eexists; split; [reflexivity|]. eexists; split; [reflexivity|].
    unfold normal, update_dependents; cbn. rewrite V. rewrite Hf in Hf'; injection Hf' as <-. reflexivity.
Qed.

Lemma stands_data : forall a o, Fine a -> Stands a o -> o_data o = a_data a.
Proof.
  intros a o F [p [C E]]. destruct (create_fine a F) as [f [keys [_ [_ Hc]]]]. rewrite Hc in C. injection C as <-.
  apply (f_equal o_data) in E. exact E.
Qed.

Lemma assign_stands : forall size s a o, Fine a -> Direct s -> Stands a o ->
  Stands (update s a) (fst (assign size s o)) /\
  match construct size (update s a) with
  | Ok o' => snd (assign size s o) = Ok tt /\ Same (fst (assign size s o)) o'
  | Err e => snd (assign size s o) = Err e
  end.
Proof.
  intros size s a o F D S'. destruct (store_stands s a o F D S') as [o1 [E1 S1]].
  pose proof (update_fine s a F D) as F1. unfold assign. rewrite E1.
  pose proof (stands_data _ _ F1 S1) as D1. rewrite validate_keeps by (rewrite D1; apply F1). split; [exact S1|].
  destruct S1 as [p [C N]]. unfold construct. rewrite C. cbn [bind].
  pose proof (validate_normal size (update_dependents o1)) as V1. pose proof (validate_normal size (update_dependents p)) as V2.
  rewrite N in V1. rewrite V1 in V2. pose proof (f_equal fst V2) as V3. pose proof (f_equal snd V2) as V4. clear V2.
  destruct (validate size (update_dependents p)) as [q r] eqn:E; cbn [fst snd] in *. rewrite V4. destruct r as [[]|e]; [|reflexivity].
  split; [reflexivity|]. apply normal_same. rewrite validate_keeps in V3 by (rewrite D1; apply F1). exact V3.
Qed.

Lemma assign_all_stands : forall size l a o, Fine a -> Forall Direct l -> Stands a o ->
  Fine (fold_left (fun a s => update s a) l a) /\ Stands (fold_left (fun a s => update s a) l a) (assign_all size l o).
Proof.
  intros size l. induction l as [|s l IH]; intros a o F D S'; cbn; [auto|]. inversion D; subst.
  apply IH; [apply update_fine; assumption|assumption|]. apply assign_stands; assumption.
Qed.

Lemma construct_stands : forall size a o, Fine a -> construct size a = Ok o -> Stands a o.
Proof.
  intros size a o F H. unfold construct in H. destruct (create_fine a F) as [f [keys [_ [_ Hc]]]]. unfold Stands. rewrite Hc in *. cbn [bind] in H.
  eexists. split; [reflexivity|]. destruct (validate size _) as [q [[]|e]] eqn:E; [|discriminate]. injection H as <-.
  apply (f_equal fst) in E. rewrite validate_keeps in E by (cbn; apply F). cbn in E. subst q. reflexivity.
Qed.

Lemma construct_fine : forall size a o, NotRotated (a_data a) -> Sources (a_data a) -> construct size a = Ok o -> (a_options a = NoOptions \/ GoodOptions (a_options a)) -> Fine a.
Proof.
  intros size a o N S' H G. repeat split; try assumption; try (destruct S'; assumption).
  unfold construct, create in H. destruct (format_created (a_format a)); [eauto|discriminate].
Qed.

Lemma history : forall size a o l s, NotRotated (a_data a) -> Sources (a_data a) -> (a_options a = NoOptions \/ GoodOptions (a_options a)) ->
  construct size a = Ok o -> Forall Direct l -> Direct s ->
  match construct size (update s (fold_left (fun a s => update s a) l a)) with
  | Ok o' => snd (assign size s (assign_all size l o)) = Ok tt /\ Same (fst (assign size s (assign_all size l o))) o'
  | Err e => snd (assign size s (assign_all size l o)) = Err e
  end.
Proof.
  intros size a o l s N S' G H L D. pose proof (construct_fine size a o N S' H G) as F.
  destruct (assign_all_stands size l a o F L (construct_stands size a o F H)) as [F1 S1].
  apply assign_stands; assumption.
Qed.

Lemma update_back : forall s a, update (back s a) (update s a) = a.
Proof. intros s a. destruct a, s; reflexivity. Qed.

Lemma restored : forall size a o s, NotRotated (a_data a) -> Sources (a_data a) -> GoodOptions (a_options a) ->
  (exists f, a_format a = Key f) -> construct size a = Ok o -> Direct s ->
  snd (assign size (back s a) (fst (assign size s o))) = Ok tt /\
  Same (fst (assign size (back s a) (fst (assign size s o)))) o.
Proof.
  intros size a o s N S' G K H D.
  assert (B : Direct (back s a)) by (destruct s; cbn in *; auto).
  pose proof (history size a o [s] (back s a) N S' (or_intror G) H (Forall_cons _ D (Forall_nil _)) B) as X.
  cbn [fold_left] in X. rewrite update_back, H in X. exact X.
Qed.
