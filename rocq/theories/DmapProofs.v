From Verif Require Import Py Lib DmapModel DmapSpec.
Local Open Scope string_scope.
Local Open Scope Z_scope.

Notation dg := (dget String.eqb).
Notation ds := (dset String.eqb).

(** ** Dictionaries *)
Lemma dset_dset {V} (d : list (string * V)) k v w : ds (ds d k v) k w = ds d k w.
Proof.
  induction d as [|[k' v'] t IH]; cbn [dset].
  - now rewrite String.eqb_refl.
  - destruct (String.eqb k k') eqn:E; cbn [dset]; rewrite E; [reflexivity|]. now rewrite IH.
Qed.

Lemma dset_new {V} (d : list (string * V)) k v : dg d k = None -> ds d k v = (d ++ [(k, v)])%list.
Proof.
  induction d as [|[k' v'] t IH]; cbn [dset dget app]; intros H; [reflexivity|].
  destruct (String.eqb k k'); [discriminate|]. now rewrite IH.
Qed.

Lemma dset_id {V} (d : list (string * V)) k v : dg d k = Some v -> ds d k v = d.
Proof.
  induction d as [|[k' v'] t IH]; cbn [dset dget]; intros H; [discriminate|].
  destruct (String.eqb k k') eqn:E; [congruence|]. now rewrite IH.
Qed.

Lemma dget_same {V} (d : list (string * V)) k v : dg (ds d k v) k = Some v.
Proof. apply (dget_dset_same _ String.eqb_spec). Qed.
Lemma dget_other {V} (d : list (string * V)) k k2 v : k2 <> k -> dg (ds d k v) k2 = dg d k2.
Proof. apply (dget_dset_other _ String.eqb_spec). Qed.

Lemma dget_app {V} (a b : list (string * V)) k :
  dg (a ++ b)%list k = match dg a k with Some x => Some x | None => dg b k end.
Proof.
  induction a as [|[k' v'] t IH]; cbn [app dget]; [reflexivity|].
  destruct (String.eqb k k'); [reflexivity|exact IH].
Qed.

(** ** Updating attributes *)
Lemma dict_update_get d e k :
  NoDup (map fst e) -> dg (dict_update d e) k = match dg e k with Some x => Some x | None => dg d k end.
Proof.
  unfold dict_update; revert d; induction e as [|[k' v'] t IH]; cbn [fold_left map fst snd dget]; intros d H; [reflexivity|].
  inversion H; subst. rewrite (IH _ H3).
  destruct (String.eqb_spec k k') as [->|Hne].
  - assert (dg t k' = None) as -> by (apply (dget_none _ String.eqb_spec); assumption).
    apply dget_same.
  - destruct (dg t k); [reflexivity|]. now apply dget_other.
Qed.

Lemma dict_update_wf d e : NoDup (map fst d) -> NoDup (map fst (dict_update d e)).
Proof.
  unfold dict_update; revert d; induction e as [|[k' v'] t IH]; cbn [fold_left]; intros d H; [exact H|].
  apply IH, (dset_nodup _ String.eqb_spec), H.
Qed.

Lemma template_wf key : NoDup (map fst (template_attrs key)).
Proof.
  unfold template_attrs.
  repeat match goal with |- context [if ?b then _ else _] => destruct b end;
    cbn; repeat constructor; cbn; intuition discriminate.
Qed.

(** ** The parts of an operation *)
Lemma existsb_in k l : existsb (String.eqb k) l = true <-> In k l.
Proof.
  rewrite existsb_exists; split.
  - intros [x [Hi Hx]]; apply String.eqb_eq in Hx; now subst.
  - intros H; exists k; split; [exact H|apply String.eqb_refl].
Qed.
Lemma existsb_not_in k l : existsb (String.eqb k) l = false <-> ~ In k l.
Proof.
  split.
  - intros H Hi; apply existsb_in in Hi; congruence.
  - intros H; destruct (existsb (String.eqb k) l) eqn:E; [|reflexivity]. apply existsb_in in E; tauto.
Qed.

Lemma get_entry_other st key k : k <> key -> dg (fst (get_entry st key)) k = dg st k.
Proof.
  intros Hne; unfold get_entry, put_entry.
  destruct (negb _); [reflexivity|].
  destruct (dg st key) as [[]|]; try reflexivity. cbn [fst]. now apply dget_other.
Qed.

(** What [get_entry] does when it succeeds. *)
Lemma get_entry_ok st key st1 e :
  get_entry st key = (st1, Ok e) ->
  In key entry_keys /\ (dg st key = Some (IEntry e) /\ st1 = st \/ dg st key = None /\ e = empty_entry /\ st1 = put_entry st key e).
Proof.
  unfold get_entry. destruct (existsb _ _) eqn:E; cbn [negb]; [|discriminate].
  apply existsb_in in E. intros H; split; [exact E|].
  destruct (dg st key) as [[]|]; try discriminate; injection H as <- <-; auto.
Qed.

Lemma get_entry_ex st key :
  In key entry_keys -> (exists e, dg st key = Some (IEntry e)) \/ dg st key = None -> exists e st1, get_entry st key = (st1, Ok e).
Proof.
  intros Hin H; unfold get_entry. apply existsb_in in Hin; rewrite Hin; cbn [negb].
  destruct H as [[e He]|He]; rewrite He; eauto.
Qed.

Lemma put_after_entry st key st1 e e' : get_entry st key = (st1, Ok e) -> put_entry st1 key e' = put_entry st key e'.
Proof.
  intros H; apply get_entry_ok in H; destruct H as [_ [[_ ->]|[_ [_ ->]]]]; [reflexivity|]. apply dset_dset.
Qed.

Definition entry_of (st : storage) (key : string) : entry :=
  match dg st key with Some (IEntry e) => e | _ => empty_entry end.
Lemma get_entry_of st key st1 e : get_entry st key = (st1, Ok e) -> e = entry_of st key.
Proof.
  intros H; apply get_entry_ok in H; unfold entry_of; destruct H as [_ [[-> _]|[-> [-> _]]]]; reflexivity.
Qed.

Lemma fill_spec v dimension bounds pos dimensionless b d :
  fill_from_variable v dimension bounds pos dimensionless = Ok (b, d) ->
  b = wanted_bounds v bounds /\ WantedDimension v dimension pos dimensionless (match d with Some d => d | None => [] end).
Proof.
  unfold fill_from_variable, wanted_bounds; destruct v as [|s|n vb dims a].
  - intros H; injection H as <- <-. split; [destruct bounds; reflexivity|].
    destruct dimension; [now constructor|apply WDName; congruence].
  - intros H; injection H as <- <-. split; [destruct bounds; reflexivity|].
    destruct dimension; [now constructor|apply WDName; congruence].
  - cbv zeta. destruct dimension as [dd|].
    { intros H; injection H as <- <-. split; [destruct bounds; reflexivity|now constructor]. }
    destruct (Z.ltb_spec 1 (zlen dims)).
    + destruct pos as [p|]; cbn [bind].
      * destruct dimensionless; [intros E; injection E as <- <-; split; [destruct bounds; reflexivity|eapply WDLess; eauto]|].
        destruct (py_index dims p) eqn:Ep; cbn [bind]; [|discriminate].
        intros E; injection E as <- <-; split; [destruct bounds; reflexivity|]. eapply WDPos; eauto.
      * destruct dimensionless; cbn [bind]; [|discriminate].
        intros E; injection E as <- <-; split; [destruct bounds; reflexivity|]. eapply WDLess; eauto.
    + destruct (Z.eqb_spec (zlen dims) 1); cbn [bind].
      * destruct dims as [|x [|y dims]]; [cbn in *; lia| |rewrite !zlen_cons in e; pose proof (zlen_nonneg dims); lia].
        destruct dimensionless; cbn [bind].
        { intros E; injection E as <- <-; split; [destruct bounds; reflexivity|]. eapply WDLess; eauto. }
        cbn. intros E; injection E as <- <-; split; [destruct bounds; reflexivity|]. eapply WDOne; eauto.
      * destruct dims as [|x dims]; [|exfalso; rewrite zlen_cons in *; pose proof (zlen_nonneg dims); lia].
        intros E; injection E as <- <-; split; [destruct bounds; reflexivity|]. eapply WDScalar; eauto.
Qed.

(** [set_variable] when it succeeds. *)
Lemma set_variable_ok st key v dimension bounds att pos dimensionless section st' :
  set_variable st key v dimension bounds att pos dimensionless section = (st', None) ->
  In key entry_keys /\ ~ In key special_keys
  /\ ((exists e, dg st key = Some (IEntry e)) \/ dg st key = None)
  /\ (v = DNone /\ st' = dremove String.eqb (fst (get_entry st key)) key
      \/ exists name b d,
           dvar_name v = Some name
           /\ fill_from_variable v dimension bounds pos dimensionless = Ok (b, d)
           /\ st' = put_entry st key
                (mkentry (Some (Some name)) (Some b) (Some (match d with Some d => d | None => [] end))
                   (Some (dict_update (dict_update (match att with Some a => a | None => template_attrs key end) (dvar_attrs v))
                            (match et_attrs (entry_of st key) with Some c => c | None => [] end)))
                   (match section with Some s => Some s | None => et_section (entry_of st key) end))).
Proof.
  unfold set_variable.
  destruct (existsb _ special_keys) eqn:Es; [discriminate|].
  apply existsb_not_in in Es.
  match goal with |- context [if ?b then _ else _] => destruct b; [discriminate|] end.
  destruct (get_entry st key) as [st1 [e|x]] eqn:Eg; [|discriminate].
  pose proof (get_entry_ok _ _ _ _ Eg) as [Hin Hg].
  destruct (dvar_name v) as [name|] eqn:En.
  - destruct (fill_from_variable v dimension bounds pos dimensionless) as [[b d]|x] eqn:Ef; [|discriminate].
    intros H; injection H as <-.
    split; [exact Hin|split; [exact Es|split; [|right]]].
    + destruct Hg as [[? _]|[? _]]; eauto.
    + exists name, b, d. repeat split; try assumption.
      rewrite (put_after_entry _ _ _ _ _ Eg). rewrite <- (get_entry_of _ _ _ _ Eg). reflexivity.
  - intros H; injection H as <-.
    split; [exact Hin|split; [exact Es|split; [|left]]].
    + destruct Hg as [[? _]|[? _]]; eauto.
    + split; [|reflexivity]. now destruct v.
Qed.

Lemma get_element_full {A} st key (elt : entry -> option A) put default e x :
  In key entry_keys -> key <> "crs" -> dg st key = Some (IEntry e) -> elt e = Some x ->
  get_element st key elt put default = (st, Ok x).
Proof.
  intros Hin Hc Hg He; unfold get_element, get_entry.
  destruct (String.eqb_spec key "crs"); [contradiction|].
  apply existsb_in in Hin; rewrite Hin; cbn [negb]. rewrite Hg, He. reflexivity.
Qed.

Lemma special_crs key : ~ In key special_keys -> key <> "crs".
Proof. intros H ->; apply H; cbn; auto 10. Qed.

(** ** Frame: the entry of a key under operations that do not set it *)
Definition full (e : entry) : Prop :=
  et_variable e <> None /\ et_bounds e <> None /\ et_dimension e <> None /\ et_attrs e <> None.

Lemma get_element_frame {A} st key0 (elt : entry -> option A) put default key e :
  dg st key = Some (IEntry e) -> elt e <> None -> dg (fst (get_element st key0 elt put default)) key = Some (IEntry e).
Proof.
  intros Hg Hf; unfold get_element.
  destruct (String.eqb key0 "crs"); [exact Hg|].
  destruct (string_dec key key0) as [->|Hne].
  - unfold get_entry. destruct (negb _); [exact Hg|]. rewrite Hg.
    destruct (elt e); [exact Hg|contradiction].
  - pose proof (get_entry_other st key0 key Hne) as Ho.
    destruct (get_entry st key0) as [st1 [e1|x]]; cbn [fst] in Ho; [|now rewrite <- Ho in Hg].
    destruct (elt e1); cbn [fst]; [congruence|].
    unfold put_entry; rewrite dget_other by exact Hne. congruence.
Qed.

Lemma get_name_frame st key0 key e :
  dg st key = Some (IEntry e) -> et_variable e <> None -> dg (fst (get_name st key0)) key = Some (IEntry e).
Proof.
  intros Hg Hf; unfold get_name.
  destruct (string_dec key key0) as [->|Hne].
  - unfold get_entry. destruct (negb _); [exact Hg|]. rewrite Hg.
    destruct (et_variable e); [exact Hg|contradiction].
  - pose proof (get_entry_other st key0 key Hne) as Ho.
    destruct (get_entry st key0) as [st1 [e1|x]]; cbn [fst] in Ho; [|now rewrite <- Ho in Hg].
    destruct (et_variable e1); cbn [fst]; [congruence|].
    unfold put_entry; rewrite dget_other by exact Hne. congruence.
Qed.

Lemma outcome_fst {A} (x : storage * res A) : fst (outcome x) = fst x.
Proof. now destruct x as [? []]. Qed.

Lemma set_variable_other st key0 v dimension bounds att pos dimensionless section key :
  key <> key0 -> dg (fst (set_variable st key0 v dimension bounds att pos dimensionless section)) key = dg st key.
Proof.
  intros Hne; unfold set_variable.
  destruct (existsb _ _); [reflexivity|].
  match goal with |- context [if ?b then _ else _] => destruct b; [reflexivity|] end.
  pose proof (get_entry_other st key0 key Hne) as Ho.
  destruct (get_entry st key0) as [st1 [e1|x]]; cbn [fst] in *; [|exact Ho].
  destruct (dvar_name v); cbn [fst].
  - destruct (fill_from_variable _ _ _ _ _) as [[b d]|]; cbn [fst]; [|exact Ho].
    unfold put_entry; rewrite dget_other by exact Hne; exact Ho.
  - rewrite (dget_dremove_other _ String.eqb_spec) by exact Hne. exact Ho.
Qed.

Lemma set_bounds_other st key0 b key : key <> key0 -> dg (fst (set_bounds st key0 b)) key = dg st key.
Proof.
  intros Hne; unfold set_bounds.
  pose proof (get_entry_other st key0 key Hne) as Ho.
  destruct (get_entry st key0) as [st1 [e1|x]]; cbn [fst] in *; [|exact Ho].
  destruct (et_variable e1) as [[|]|]; cbn [fst]; try exact Ho.
  unfold put_entry; rewrite dget_other by exact Hne; exact Ho.
Qed.

Definition is_coordinate (key : string) : Prop := In key entry_keys /\ ~ In key special_keys.
Lemma coordinate_iff key : In key coordinate_keys <-> is_coordinate key.
Proof.
  unfold is_coordinate. split.
  - intros H; repeat destruct H as [<-|H]; try destruct H; split; cbn; intuition discriminate.
  - intros [H Hs]. repeat destruct H as [<-|H]; try destruct H; try (exfalso; apply Hs; cbn; tauto); cbn; tauto.
Qed.

Lemma coordinate_ne key : is_coordinate key ->
  key <> "crs" /\ key <> "spatial_mask" /\ key <> "driver" /\ key <> "groups" /\ key <> "topology" /\ key <> "grid_abstraction".
Proof.
  intros [H Hs]. repeat split; intros ->;
    first [apply Hs; cbn; tauto | repeat destruct H as [H|H]; try discriminate H; try destruct H].
Qed.

Lemma step_frame st o key e :
  is_coordinate key -> ~ Sets key o -> dg st key = Some (IEntry e) -> full e -> dg (fst (step st o)) key = Some (IEntry e).
Proof.
  intros Hc Hs Hg [F1 [F2 [F3 F4]]]. pose proof (coordinate_ne _ Hc) as [N1 [N2 [N3 [N4 [N5 N6]]]]].
  destruct o; cbn [step Sets] in *; try rewrite outcome_fst.
  - rewrite set_variable_other by congruence. exact Hg.
  - rewrite set_bounds_other by congruence. exact Hg.
  - unfold set_crs. pose proof (get_entry_other st "crs" key N1) as Ho.
    destruct (get_entry st "crs") as [st1 [e1|x]]; cbn [fst] in *; [|congruence].
    unfold put_entry; rewrite dget_other by exact N1. congruence.
  - unfold set_driver. destruct (existsb _ _); cbn [fst]; [rewrite dget_other by exact N3|]; exact Hg.
  - unfold set_grid_abstraction. cbn [fst]. rewrite dget_other by exact N6. exact Hg.
  - unfold set_spatial_mask. cbv zeta. pose proof (get_entry_other st "spatial_mask" key N2) as Ho.
    destruct (get_entry st "spatial_mask") as [st1 [e1|x]]; cbn [fst] in *; [|congruence].
    unfold put_entry; rewrite dget_other by exact N2. congruence.
  - unfold set_group. destruct (dg st "groups") as [[]|]; cbn [fst]; try exact Hg.
    + destruct (dmem _ _ _); cbn [fst]; [exact Hg|]. rewrite dget_other by exact N4. exact Hg.
    + rewrite dget_other by exact N4. exact Hg.
  - now apply get_element_frame.
  - now apply get_element_frame.
  - now apply get_element_frame.
  - now apply get_element_frame.
  - now apply get_name_frame.
  - now apply get_name_frame.
  - unfold get_group. cbv zeta.
    assert (Hx : dg (if dmem String.eqb st "groups" then st else ds st "groups" (IGroups [])) key = Some (IEntry e)).
    { destruct (dmem _ _ _); [exact Hg|]. rewrite dget_other by exact N4. exact Hg. }
    destruct (dg _ "groups") as [[]|]; cbn [fst]; try exact Hx.
    destruct (dg g name); exact Hx.
  - unfold get_topology. cbv zeta. destruct (dg st "topology") as [[]|]; cbn [fst]; try exact Hg.
    + rewrite dget_other by exact N5. exact Hg.
    + destruct create; cbn [fst]; [|exact Hg]. rewrite dget_other by exact N5. exact Hg.
Qed.

Lemma run_frame ops st key e :
  is_coordinate key -> Forall (fun o => ~ Sets key o) ops -> dg st key = Some (IEntry e) -> full e ->
  dg (run st ops) key = Some (IEntry e).
Proof.
  intros Hc Hs; revert st; induction Hs as [|o ops Ho Hs IH]; intros st Hg Hf; [exact Hg|].
  cbn [run fold_left]. apply IH; [|exact Hf]. now apply step_frame.
Qed.

(** ** Well-formed attributes *)
Definition wf_st (st : storage) : Prop :=
  NoDup (map fst st) /\ forall k e a, dg st k = Some (IEntry e) -> et_attrs e = Some a -> WfDict a.

Lemma wf_put st k e : wf_st st -> WfOpt (et_attrs e) -> wf_st (put_entry st k e).
Proof.
  intros [Hn H] He; unfold put_entry; split; [now apply (dset_nodup _ String.eqb_spec)|].
  intros k' e' a Hg Ha.
  destruct (string_dec k' k) as [->|Hne].
  - rewrite dget_same in Hg; injection Hg as <-. rewrite Ha in He; exact He.
  - rewrite dget_other in Hg by exact Hne. eauto.
Qed.
Lemma wf_set st k i : wf_st st -> (forall e, i <> IEntry e) -> wf_st (ds st k i).
Proof.
  intros [Hn H] He; split; [now apply (dset_nodup _ String.eqb_spec)|].
  intros k' e' a Hg Ha.
  destruct (string_dec k' k) as [->|Hne].
  - rewrite dget_same in Hg; injection Hg as ->. now destruct (He e').
  - rewrite dget_other in Hg by exact Hne. eauto.
Qed.
Lemma wf_remove st k : wf_st st -> wf_st (dremove String.eqb st k).
Proof.
  intros [Hn H]; split; [now apply dremove_nodup|].
  intros k' e' a Hg Ha.
  destruct (string_dec k' k) as [->|Hne].
  - rewrite (dget_dremove_same _ String.eqb_spec) in Hg by exact Hn. discriminate.
  - rewrite (dget_dremove_other _ String.eqb_spec) in Hg by exact Hne. eauto.
Qed.

Lemma wf_entry st key : wf_st st -> wf_st (fst (get_entry st key)) /\ forall e, snd (get_entry st key) = Ok e -> WfOpt (et_attrs e).
Proof.
  intros Hw. unfold get_entry. destruct (negb _); [split; [exact Hw|discriminate]|].
  destruct (dg st key) as [[]|] eqn:Eg; cbn [fst snd]; try (split; [exact Hw|discriminate]).
  - split; [exact Hw|]. intros e0 H; injection H as <-.
    destruct (et_attrs e) eqn:Ea; [|exact I]. exact (proj2 Hw _ _ _ Eg Ea).
  - split; [now apply wf_put|]. intros e H; injection H as <-. exact I.
Qed.

Lemma wf_element {A} st key (elt : entry -> option A) put default :
  wf_st st -> (forall e, WfOpt (et_attrs e) -> WfOpt (et_attrs (put e default))) -> wf_st (fst (get_element st key elt put default)).
Proof.
  intros Hw Hp; unfold get_element. destruct (String.eqb key "crs"); [exact Hw|].
  pose proof (wf_entry st key Hw) as [H1 H2].
  destruct (get_entry st key) as [st1 [e|x]]; cbn [fst snd] in *; [|exact H1].
  destruct (elt e); cbn [fst]; [exact H1|]. apply wf_put; [exact H1|]. exact (Hp _ (H2 _ eq_refl)).
Qed.
Lemma wf_name st key : wf_st st -> wf_st (fst (get_name st key)).
Proof.
  intros Hw; unfold get_name.
  pose proof (wf_entry st key Hw) as [H1 H2].
  destruct (get_entry st key) as [st1 [e|x]]; cbn [fst snd] in *; [|exact H1].
  destruct (et_variable e); cbn [fst]; [exact H1|]. apply wf_put; [exact H1|]. exact (H2 _ eq_refl).
Qed.

Lemma step_wf st o : wf_st st -> WfOp o -> wf_st (fst (step st o)).
Proof.
  intros Hw Ho; destruct o; cbn [step WfOp] in *; try rewrite outcome_fst.
  - unfold set_variable. destruct (existsb _ _); [exact Hw|].
    match goal with |- context [if ?b then _ else _] => destruct b; [exact Hw|] end.
    pose proof (wf_entry st key Hw) as [H1 H2].
    destruct (get_entry st key) as [st1 [e|x]]; cbn [fst snd] in *; [|exact H1].
    destruct (dvar_name v); cbn [fst]; [|now apply wf_remove].
    destruct (fill_from_variable _ _ _ _ _) as [[b d]|]; cbn [fst]; [|exact H1].
    apply wf_put; [exact H1|]. cbn [et_attrs WfOpt]. do 2 apply dict_update_wf.
    destruct att; [apply Ho|apply template_wf].
  - unfold set_bounds. pose proof (wf_entry st key Hw) as [H1 H2].
    destruct (get_entry st key) as [st1 [e|x]]; cbn [fst snd] in *; [|exact H1].
    destruct (et_variable e) as [[|]|]; cbn [fst]; try exact H1.
    apply wf_put; [exact H1|]. exact (H2 _ eq_refl).
  - unfold set_crs. pose proof (wf_entry st "crs" Hw) as [H1 H2].
    destruct (get_entry st "crs") as [st1 [e|x]]; cbn [fst snd] in *; [|exact H1].
    apply wf_put; [exact H1|]. exact (H2 _ eq_refl).
  - unfold set_driver. destruct (existsb _ _); cbn [fst]; [apply wf_set; [exact Hw|discriminate]|exact Hw].
  - apply wf_set; [exact Hw|discriminate].
  - unfold set_spatial_mask. cbv zeta. pose proof (wf_entry st "spatial_mask" Hw) as [H1 H2].
    destruct (get_entry st "spatial_mask") as [st1 [e|x]]; cbn [fst snd] in *; [|exact H1].
    apply wf_put; [exact H1|]. cbn [et_attrs WfOpt]. do 2 apply dict_update_wf.
    destruct default_attrs; [apply Ho|apply template_wf].
  - unfold set_group. destruct (dg st "groups") as [[]|]; cbn [fst]; try exact Hw.
    + destruct (dmem _ _ _); cbn [fst]; [exact Hw|apply wf_set; [exact Hw|discriminate]].
    + apply wf_set; [exact Hw|discriminate].
  - apply wf_element; auto.
  - apply wf_element; auto.
  - apply wf_element; auto.
  - apply wf_element; [exact Hw|]. intros; cbn; constructor.
  - now apply wf_name.
  - now apply wf_name.
  - unfold get_group. cbv zeta.
    assert (Hx : wf_st (if dmem String.eqb st "groups" then st else ds st "groups" (IGroups []))).
    { destruct (dmem _ _ _); [exact Hw|apply wf_set; [exact Hw|discriminate]]. }
    destruct (dg _ "groups") as [[]|]; cbn [fst]; try exact Hx.
    destruct (dg g name); exact Hx.
  - unfold get_topology. cbv zeta. destruct (dg st "topology") as [[]|]; cbn [fst]; try exact Hw.
    + apply wf_set; [exact Hw|discriminate].
    + destruct create; cbn [fst]; [apply wf_set; [exact Hw|discriminate]|exact Hw].
Qed.

Lemma run_wf ops st : wf_st st -> Forall WfOp ops -> wf_st (run st ops).
Proof.
  intros Hw Ho; revert st Hw; induction Ho as [|o ops Ho Hs IH]; intros st Hw; [exact Hw|].
  cbn [run fold_left]. apply IH. now apply step_wf.
Qed.
Lemma wf_nil : wf_st [].
Proof. split; [constructor|discriminate]. Qed.

(** ** C35 *)
Lemma set_then_get pre post key v dimension bounds att pos dimensionless section st' name :
  Forall WfOp pre -> WfOp (OSetVariable key v dimension bounds att pos dimensionless section) ->
  set_variable (run [] pre) key v dimension bounds att pos dimensionless section = (st', None) ->
  dvar_name v = Some name ->
  Forall (fun o => ~ Sets key o) post ->
  get_variable (run st' post) key = (run st' post, Ok (Some name))
  /\ get_bounds (run st' post) key = (run st' post, Ok (wanted_bounds v bounds))
  /\ (exists d, get_dimension (run st' post) key = (run st' post, Ok d) /\ WantedDimension v dimension pos dimensionless d)
  /\ (exists a, get_attrs (run st' post) key = (run st' post, Ok a)
        /\ forall k, dget String.eqb a k
             = first_of [attrs_before (run [] pre) key; dvar_attrs v;
                         match att with Some a => a | None => template_attrs key end] k).
Proof.
  intros Hpre [Hwv Hwa] Hset Hname Hpost.
  set (st := run [] pre) in *.
  pose proof (run_wf pre [] wf_nil Hpre) as Hw. fold st in Hw.
  apply set_variable_ok in Hset. destruct Hset as [Hin [Hns [Hex [[-> _]|[name' [b [d [Hn [Hf ->]]]]]]]]]; [discriminate|].
  rewrite Hname in Hn; injection Hn as <-.
  apply fill_spec in Hf; destruct Hf as [-> Hd].
  set (e := mkentry _ _ _ _ _).
  assert (Hg : dg (run (put_entry st key e) post) key = Some (IEntry e)).
  { apply run_frame; [split; assumption|exact Hpost|apply dget_same|].
    repeat split; discriminate. }
  pose proof (special_crs _ Hns) as Hc.
  split; [|split; [|split]].
  - eapply get_element_full; eauto.
  - eapply get_element_full; eauto.
  - eexists; split; [eapply get_element_full; eauto; reflexivity|exact Hd].
  - eexists; split; [eapply get_element_full; eauto; reflexivity|].
    intros k. cbn [first_of].
    assert (Hb : (match et_attrs (entry_of st key) with Some c => c | None => [] end) = attrs_before st key).
    { unfold entry_of, attrs_before. destruct Hex as [[e0 ->]| ->]; reflexivity. }
    rewrite Hb. rewrite dict_update_get.
    2:{ unfold attrs_before. destruct (dg st key) as [[]|] eqn:Eg; try constructor.
        destruct (et_attrs e0) eqn:Ea; [|constructor]. exact (proj2 Hw _ _ _ Eg Ea). }
    destruct (dg (attrs_before st key) k); [reflexivity|].
    rewrite dict_update_get by exact Hwv.
    destruct (dg (dvar_attrs v) k); [reflexivity|].
    destruct (dg _ k); reflexivity.
Qed.

Lemma set_frame st key v dimension bounds att pos dimensionless section k :
  k <> key -> dg (fst (set_variable st key v dimension bounds att pos dimensionless section)) k = dg st k.
Proof. apply set_variable_other. Qed.

Lemma set_bounds_ok st key b st' :
  set_bounds st key b = (st', None) ->
  In key entry_keys /\ exists e n, dg st key = Some (IEntry e) /\ et_variable e = Some (Some n)
    /\ st' = put_entry st key (mkentry (Some (Some n)) (Some b) (et_dimension e) (et_attrs e) (et_section e)).
Proof.
  unfold set_bounds. destruct (get_entry st key) as [st1 [e|x]] eqn:Eg; [|discriminate].
  destruct (et_variable e) as [[n|]|] eqn:Ev; try discriminate.
  intros H; injection H as <-. pose proof (put_after_entry _ _ _ _ (mkentry (Some (Some n)) (Some b) (et_dimension e) (et_attrs e) (et_section e)) Eg) as ->.
  apply get_entry_ok in Eg. destruct Eg as [Hin [[Hg ->]|[_ [-> _]]]]; [|discriminate].
  split; [exact Hin|]. exists e, n. auto.
Qed.

Lemma remove_gone st key dimension bounds att pos dimensionless section st' :
  NoDup (map fst st) -> set_variable st key DNone dimension bounds att pos dimensionless section = (st', None) -> dg st' key = None.
Proof.
  intros Hn H. apply set_variable_ok in H. destruct H as [_ [_ [_ [[_ ->]|[name [b [d [H _]]]]]]]]; [|discriminate].
  apply (dget_dremove_same _ String.eqb_spec).
  unfold get_entry. destruct (negb _); [exact Hn|].
  destruct (dg st key) as [[]|]; try exact Hn. cbn [fst]. now apply (dset_nodup _ String.eqb_spec).
Qed.

(** ** After a removal: the entry stays blank *)
Definition blank (i : option item) : Prop :=
  i = None \/ exists e, i = Some (IEntry e) /\ In (et_variable e) [None; Some None] /\ In (et_bounds e) [None; Some None]
                 /\ In (et_dimension e) [None; Some []] /\ In (et_attrs e) [None; Some []].

Lemma blank_empty : blank (Some (IEntry empty_entry)).
Proof. right; exists empty_entry; cbn; auto 10. Qed.

Lemma get_element_blank {A} st key0 (elt : entry -> option A) put default key :
  (forall e, blank (Some (IEntry e)) -> blank (Some (IEntry (put e default)))) ->
  blank (dg st key) -> blank (dg (fst (get_element st key0 elt put default)) key).
Proof.
  intros Hp Hg; unfold get_element.
  destruct (String.eqb key0 "crs"); [exact Hg|].
  destruct (string_dec key key0) as [->|Hne].
  - unfold get_entry. destruct (negb _); [exact Hg|].
    destruct (dg st key0) as [[]|] eqn:E; cbn [fst]; try (rewrite E; exact Hg).
    + destruct (elt e); cbn [fst]; [rewrite E; exact Hg|]. unfold put_entry; rewrite dget_same. now apply Hp.
    + destruct (elt empty_entry); cbn [fst]; unfold put_entry; rewrite dget_same; [apply blank_empty|]. apply Hp, blank_empty.
  - pose proof (get_entry_other st key0 key Hne) as Ho.
    destruct (get_entry st key0) as [st1 [e1|x]]; cbn [fst] in Ho; [|now rewrite <- Ho in Hg].
    destruct (elt e1); cbn [fst]; [now rewrite Ho|].
    unfold put_entry; rewrite dget_other by exact Hne. now rewrite Ho.
Qed.

Lemma get_name_other st key0 key : key <> key0 -> dg (fst (get_name st key0)) key = dg st key.
Proof.
  intros Hne; unfold get_name.
  pose proof (get_entry_other st key0 key Hne) as Ho.
  destruct (get_entry st key0) as [st1 [e1|x]]; cbn [fst] in Ho; [|exact Ho].
  destruct (et_variable e1); cbn [fst]; [exact Ho|].
  unfold put_entry; now rewrite dget_other by exact Hne.
Qed.
Lemma get_element_other {A} st key0 (elt : entry -> option A) put default key :
  key <> key0 -> dg (fst (get_element st key0 elt put default)) key = dg st key.
Proof.
  intros Hne; unfold get_element. destruct (String.eqb key0 "crs"); [reflexivity|].
  pose proof (get_entry_other st key0 key Hne) as Ho.
  destruct (get_entry st key0) as [st1 [e1|x]]; cbn [fst] in Ho; [|exact Ho].
  destruct (elt e1); cbn [fst]; [exact Ho|].
  unfold put_entry; now rewrite dget_other by exact Hne.
Qed.

(** Operations that name neither this key in a setter nor in a getter of entries. *)
Lemma step_other st o key :
  is_coordinate key -> ~ Sets key o -> (forall k, In o [OGetVariable k; OGetBounds k; OGetDimension k; OGetAttrs k] -> k <> key) ->
  dg (fst (step st o)) key = dg st key.
Proof.
  intros Hc Hs Hk. pose proof (coordinate_ne _ Hc) as [N1 [N2 [N3 [N4 [N5 N6]]]]].
  destruct o; cbn [step Sets] in *; try rewrite outcome_fst.
  - apply set_variable_other. congruence.
  - apply set_bounds_other. congruence.
  - unfold set_crs. pose proof (get_entry_other st "crs" key N1) as Ho.
    destruct (get_entry st "crs") as [st1 [e1|x]]; cbn [fst] in *; [|congruence].
    unfold put_entry; rewrite dget_other by exact N1. congruence.
  - unfold set_driver. destruct (existsb _ _); cbn [fst]; [now rewrite dget_other by exact N3|reflexivity].
  - unfold set_grid_abstraction. cbn [fst]. now rewrite dget_other by exact N6.
  - unfold set_spatial_mask. cbv zeta. pose proof (get_entry_other st "spatial_mask" key N2) as Ho.
    destruct (get_entry st "spatial_mask") as [st1 [e1|x]]; cbn [fst] in *; [|congruence].
    unfold put_entry; rewrite dget_other by exact N2. congruence.
  - unfold set_group. destruct (dg st "groups") as [[]|]; cbn [fst]; try reflexivity.
    + destruct (dmem _ _ _); cbn [fst]; [reflexivity|]. now rewrite dget_other by exact N4.
    + now rewrite dget_other by exact N4.
  - apply get_element_other. intros ->. eapply Hk; [left; reflexivity|reflexivity].
  - apply get_element_other. intros ->. eapply Hk; [right; left; reflexivity|reflexivity].
  - apply get_element_other. intros ->. eapply Hk; [right; right; left; reflexivity|reflexivity].
  - apply get_element_other. intros ->. eapply Hk; [right; right; right; left; reflexivity|reflexivity].
  - now apply get_name_other.
  - now apply get_name_other.
  - unfold get_group. cbv zeta.
    assert (Hx : dg (if dmem String.eqb st "groups" then st else ds st "groups" (IGroups [])) key = dg st key).
    { destruct (dmem _ _ _); [reflexivity|]. now rewrite dget_other by exact N4. }
    destruct (dg _ "groups") as [[]|]; cbn [fst]; try exact Hx.
    destruct (dg g name); exact Hx.
  - unfold get_topology. cbv zeta. destruct (dg st "topology") as [[]|]; cbn [fst]; try reflexivity.
    + now rewrite dget_other by exact N5.
    + destruct create; cbn [fst]; [|reflexivity]. now rewrite dget_other by exact N5.
Qed.

Lemma step_blank st o key : is_coordinate key -> ~ Sets key o -> blank (dg st key) -> blank (dg (fst (step st o)) key).
Proof.
  intros Hc Hs Hb.
  destruct o; try (rewrite step_other; [exact Hb|exact Hc|exact Hs|cbn; intros k [H|[H|[H|[H|[]]]]]; discriminate]);
    cbn [step]; rewrite outcome_fst; apply get_element_blank; try exact Hb;
    intros e [H|[e0 [H [H1 [H2 [H3 H4]]]]]]; try discriminate; injection H as <-;
    right; eexists; (split; [reflexivity|]); cbn [et_variable et_bounds et_dimension et_attrs]; repeat split; auto; cbn; auto.
Qed.

Lemma run_blank ops st key :
  is_coordinate key -> Forall (fun o => ~ Sets key o) ops -> blank (dg st key) -> blank (dg (run st ops) key).
Proof.
  intros Hc Hs; revert st; induction Hs as [|o ops Ho Hs IH]; intros st Hg; [exact Hg|].
  cbn [run fold_left]. apply IH. now apply step_blank.
Qed.

Lemma get_blank {A} st key (elt : entry -> option A) put default :
  is_coordinate key -> blank (dg st key) ->
  (forall e, blank (Some (IEntry e)) -> In (elt e) [None; Some default]) ->
  snd (get_element st key elt put default) = Ok default.
Proof.
  intros [Hin Hns] Hb Hp. unfold get_element. pose proof (special_crs _ Hns).
  destruct (String.eqb_spec key "crs"); [contradiction|].
  unfold get_entry. apply existsb_in in Hin; rewrite Hin; cbn [negb].
  destruct Hb as [Hb|[e [Hb He]]]; rewrite Hb.
  - destruct (Hp empty_entry blank_empty) as [E|[E|[]]]; rewrite <- E; reflexivity.
  - destruct (Hp e (or_intror (ex_intro _ e (conj eq_refl He)))) as [E|[E|[]]]; rewrite <- E; reflexivity.
Qed.

Lemma removed_stays pre post key dimension bounds att pos dimensionless section st' :
  Forall WfOp pre ->
  set_variable (run [] pre) key DNone dimension bounds att pos dimensionless section = (st', None) ->
  Forall (fun o => ~ Sets key o) post ->
  dg st' key = None
  /\ snd (get_variable (run st' post) key) = Ok None /\ snd (get_bounds (run st' post) key) = Ok None
  /\ snd (get_dimension (run st' post) key) = Ok [] /\ snd (get_attrs (run st' post) key) = Ok [].
Proof.
  intros Hpre Hset Hpost.
  pose proof (run_wf pre [] wf_nil Hpre) as [Hn _].
  pose proof (remove_gone _ _ _ _ _ _ _ _ _ Hn Hset) as Hg.
  apply set_variable_ok in Hset. destruct Hset as [Hin [Hns _]].
  assert (Hc : is_coordinate key) by (split; assumption).
  assert (Hb : blank (dg (run st' post) key)) by (apply run_blank; auto; left; exact Hg).
  split; [exact Hg|].
  repeat split; apply get_blank; auto;
    intros e [H|[e0 [H [H1 [H2 [H3 H4]]]]]]; try discriminate; injection H as <-; assumption.
Qed.

(** ** Bounds *)
Definition named_full (st : storage) : Prop :=
  forall key e n, is_coordinate key -> dg st key = Some (IEntry e) -> et_variable e = Some (Some n) -> full e.

Lemma step_named_full st o : NoDup (map fst st) -> named_full st -> named_full (fst (step st o)).
Proof.
  intros Hnd Hf key e n Hc Hg Hv.
  assert (Hel : forall A (elt : entry -> option A) put default key0,
    (forall e0, full e0 -> elt e0 <> None) ->
    (forall e0, et_variable (put e0 default) = Some (Some n) -> et_variable e0 = Some (Some n)) ->
    dg (fst (get_element st key0 elt put default)) key = Some (IEntry e) -> full e).
  { intros A elt put default key0 H1 H2 Hx.
    destruct (string_dec key key0) as [->|Hne].
    2:{ rewrite get_element_other in Hx by exact Hne. eauto. }
    unfold get_element in Hx. destruct (String.eqb key0 "crs"); [cbn [fst] in Hx; eauto|].
    unfold get_entry in Hx. destruct (negb _); [cbn [fst] in Hx; eauto|].
    destruct (dg st key0) as [[]|] eqn:E; cbn [fst] in Hx; try congruence.
    - destruct (elt e0) eqn:El; cbn [fst] in Hx; [rewrite E in Hx; injection Hx as <-; eapply Hf; eauto|].
      unfold put_entry in Hx; rewrite dget_same in Hx; injection Hx as <-.
      apply H2 in Hv. destruct (H1 e0); [eapply Hf; eauto|exact El].
    - destruct (elt empty_entry); cbn [fst] in Hx; unfold put_entry in Hx; rewrite dget_same in Hx; injection Hx as <-.
      + discriminate.
      + apply H2 in Hv. discriminate. }
  destruct o; try (rewrite step_other in Hg; [eauto|exact Hc|exact (fun x => x)|cbn; intros k [H|[H|[H|[H|[]]]]]; discriminate]);
    cbn [step] in Hg; try rewrite outcome_fst in Hg.
  - destruct (string_dec key key0) as [->|Hne]; [|rewrite set_variable_other in Hg by exact Hne; eauto].
    unfold set_variable in Hg.
    destruct (existsb _ _) in Hg; [cbn [fst] in Hg; eauto|].
    match type of Hg with context [if ?b then _ else _] => destruct b; [cbn [fst] in Hg; eauto|] end.
    assert (Hent : dg (fst (get_entry st key0)) key0 = Some (IEntry e) -> full e).
    { unfold get_entry. destruct (negb _); [cbn [fst]; intros; eauto|].
      destruct (dg st key0) as [[]|] eqn:E; cbn [fst]; try (rewrite E; discriminate).
      - rewrite E. intros H; injection H as <-. eauto.
      - unfold put_entry; rewrite dget_same. intros H; injection H as <-. discriminate. }
    destruct (get_entry st key0) as [st1 [e1|x]] eqn:Eg; cbn [fst] in *; [|auto].
    destruct (dvar_name v); cbn [fst] in Hg.
    + destruct (fill_from_variable _ _ _ _ _) as [[b d]|]; cbn [fst] in Hg; [|auto].
      unfold put_entry in Hg; rewrite dget_same in Hg; injection Hg as <-. repeat split; discriminate.
    + exfalso. rewrite (dget_dremove_same _ String.eqb_spec) in Hg; [discriminate|].
      unfold get_entry in Eg. destruct (negb _); [discriminate|].
      destruct (dg st key0) as [[]|]; try discriminate; injection Eg as <- <-; [exact Hnd|].
      now apply (dset_nodup _ String.eqb_spec).
  - destruct (string_dec key key0) as [->|Hne]; [|rewrite set_bounds_other in Hg by exact Hne; eauto].
    destruct (set_bounds st key0 b) as [st' [x|]] eqn:E; cbn [fst] in Hg.
    + assert (Hst : dg st' key0 = dg st key0 \/ dg st' key0 = Some (IEntry empty_entry)).
      { unfold set_bounds in E. unfold get_entry in E. destruct (negb _); [injection E as <- <-; now left|].
        destruct (dg st key0) as [[]|] eqn:Ek; try (injection E as <- <-; now left).
        - destruct (et_variable e0) as [[|]|]; inversion E; subst; now left.
        - cbn in E. injection E as <- <-. right. apply dget_same. }
      destruct Hst as [Hst|Hst]; rewrite Hst in Hg; [eauto|]. injection Hg as <-; discriminate.
    + apply set_bounds_ok in E. destruct E as [Hin [e0 [n0 [Hg0 [Hv0 ->]]]]].
      unfold put_entry in Hg; rewrite dget_same in Hg; injection Hg as <-.
      destruct (Hf _ _ _ Hc Hg0 Hv0) as [F1 [F2 [F3 F4]]]. repeat split; try discriminate; assumption.
  - eapply Hel; [| |exact Hg]; cbn; [intros e0 [? _]; assumption|discriminate].
  - eapply Hel; [| |exact Hg]; cbn; [intros e0 [? [? _]]; assumption|auto].
  - eapply Hel; [| |exact Hg]; cbn; [intros e0 [? [? [? _]]]; assumption|auto].
  - eapply Hel; [| |exact Hg]; cbn; [intros e0 [? [? [? ?]]]; assumption|auto].
Qed.

Lemma run_named_full ops st : wf_st st -> Forall WfOp ops -> named_full st -> named_full (run st ops).
Proof.
  intros Hw Ho; revert st Hw; induction Ho as [|o ops Ho Hs IH]; intros st Hw Hf; [exact Hf|].
  cbn [run fold_left]. apply IH; [now apply step_wf|]. apply step_named_full; [apply Hw|exact Hf].
Qed.

(** Bounds set later are returned, and the rest of the entry stays. *)
Lemma bounds_then_get pre post key b st' :
  Forall WfOp pre -> In key coordinate_keys ->
  set_bounds (run [] pre) key b = (st', None) -> Forall (fun o => ~ Sets key o) post ->
  snd (get_bounds (run st' post) key) = Ok b
  /\ snd (get_variable (run st' post) key) = snd (get_variable (run [] pre) key)
  /\ snd (get_dimension (run st' post) key) = snd (get_dimension (run [] pre) key)
  /\ snd (get_attrs (run st' post) key) = snd (get_attrs (run [] pre) key)
  /\ exists n, snd (get_variable (run st' post) key) = Ok (Some n).
Proof.
  intros Hpre Hk Hset Hpost. apply coordinate_iff in Hk.
  apply set_bounds_ok in Hset. destruct Hset as [Hin [e [n [Hg [Hv ->]]]]].
  assert (Hfull : full e).
  { eapply (run_named_full pre []); eauto; [apply wf_nil|]. intros ? ? ? _ H; discriminate. }
  destruct Hfull as [F1 [F2 [F3 F4]]].
  set (e' := mkentry _ _ _ _ _).
  assert (Hg' : dg (run (put_entry (run [] pre) key e') post) key = Some (IEntry e')).
  { apply run_frame; [exact Hk|exact Hpost|apply dget_same|]. repeat split; cbn; try discriminate; assumption. }
  pose proof (special_crs _ (proj2 Hk)) as Hc.
  destruct (et_dimension e) as [dd|] eqn:Ed; [|contradiction].
  destruct (et_attrs e) as [aa|] eqn:Ea; [|contradiction].
  unfold get_bounds, get_variable, get_dimension, get_attrs.
  repeat match goal with
  | |- context [get_element (run (put_entry _ _ _) _) _ et_bounds _ _] =>
      rewrite (get_element_full _ _ et_bounds _ _ e' b Hin Hc Hg' eq_refl)
  | |- context [get_element (run (put_entry _ _ _) _) _ et_variable _ _] =>
      rewrite (get_element_full _ _ et_variable _ _ e' (Some n) Hin Hc Hg' eq_refl)
  | |- context [get_element (run (put_entry _ _ _) _) _ et_dimension _ _] =>
      rewrite (get_element_full _ _ et_dimension _ _ e' dd Hin Hc Hg' eq_refl)
  | |- context [get_element (run (put_entry _ _ _) _) _ et_attrs _ _] =>
      rewrite (get_element_full _ _ et_attrs _ _ e' aa Hin Hc Hg' eq_refl)
  | |- context [get_element (run [] pre) _ et_variable _ _] =>
      rewrite (get_element_full _ _ et_variable _ _ e (Some n) Hin Hc Hg Hv)
  | |- context [get_element (run [] pre) _ et_dimension _ _] =>
      rewrite (get_element_full _ _ et_dimension _ _ e dd Hin Hc Hg Ed)
  | |- context [get_element (run [] pre) _ et_attrs _ _] =>
      rewrite (get_element_full _ _ et_attrs _ _ e aa Hin Hc Hg Ea)
  end.
  cbn [snd]. repeat split. exists n; reflexivity.
Qed.

(** ** Refusals *)
Lemma disallowed st key :
  ~ In key entry_keys ->
  (forall v dimension bounds att pos dimensionless section,
      step st (OSetVariable key v dimension bounds att pos dimensionless section) = (st, Some DimensionMapError))
  /\ (forall b, step st (OSetBounds key b) = (st, Some DimensionMapError))
  /\ (forall o, In o [OGetVariable key; OGetBounds key; OGetDimension key; OGetAttrs key] -> step st o = (st, Some DimensionMapError)).
Proof.
  intros H. pose proof H as H'. apply existsb_not_in in H.
  assert (Hg : get_entry st key = (st, Err DimensionMapError)) by (unfold get_entry; now rewrite H).
  assert (Hc : String.eqb key "crs" = false).
  { destruct (String.eqb_spec key "crs") as [->|]; [|reflexivity]. exfalso; apply H'; cbn; tauto. }
  split; [|split].
  - intros. cbn [step]. unfold set_variable. destruct (existsb _ special_keys); [reflexivity|].
    match goal with |- context [if ?b then _ else _] => destruct b; [reflexivity|] end.
    now rewrite Hg.
  - intros. cbn [step]. unfold set_bounds. now rewrite Hg.
  - intros o Ho. repeat destruct Ho as [<-|Ho]; try destruct Ho; cbn [step];
      unfold get_variable, get_bounds, get_dimension, get_attrs, get_element; now rewrite Hc, Hg.
Qed.

Lemma special_refused st key v dimension bounds att pos dimensionless section :
  In key special_keys -> set_variable st key v dimension bounds att pos dimensionless section = (st, Some DimensionMapError).
Proof. intros H. unfold set_variable. apply existsb_in in H. now rewrite H. Qed.

Lemma section_refused st key v bounds att dimensionless s :
  set_variable st key v None bounds att None dimensionless (Some s) = (st, Some DimensionMapError).
Proof. unfold set_variable. now destruct (existsb _ _). Qed.

Lemma pos_needed st key n b dims a bounds att section :
  In key coordinate_keys -> 1 < zlen dims -> section = None ->
  snd (set_variable st key (DVar n b dims a) None bounds att None false section) <> None.
Proof.
  intros Hk Hd ->. unfold set_variable. destruct (existsb _ _); [discriminate|].
  destruct (get_entry st key) as [st1 [e|x]]; [|discriminate].
  cbn [dvar_name fill_from_variable]. cbv zeta.
  destruct (Z.ltb_spec 1 (zlen dims)); [|lia]. discriminate.
Qed.
