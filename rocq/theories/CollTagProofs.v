(** Tags and effects. *)
From Verif Require Import Py Lib CollModel CollSpec DmapProofs CollProofs CollInvProofs CollExtractProofs CollReachProofs.
Local Open Scope string_scope.
Local Open Scope Z_scope.

(** ** Tags hold no name twice *)
Definition good (t : list (string * list string)) : Prop := NoDup (map fst t) /\ forall tag names, In (tag, names) t -> NoDup names.
Definition tagp (h : heap) : Prop := forall c, good (c_tags (h_coll h c)).
Definition tp {A} : res A -> heap -> Prop := fun _ h => tagp h.

Lemma t_bind {A B} (m : M A) (f : A -> M B) : tr tagp m tp -> (forall x, tr tagp (f x) tp) -> tr tagp (mbind m f) tp.
Proof. intros Hm Hf. eapply tr_bind; [exact Hm|exact Hf|auto]. Qed.
Lemma t_ret {A} (x : A) : tr tagp (mret x) tp.
Proof. apply tr_ret; auto. Qed.
Lemma t_raise {A} e : tr tagp (@mraise A e) tp.
Proof. apply tr_raise; auto. Qed.
Lemma t_get_coll {B} c (f : coll -> M B) : (forall cc, good (c_tags cc) -> tr tagp (f cc) tp) -> tr tagp (mbind (get_coll c) f) tp.
Proof. intros H h Ht. exact (H (h_coll h c) (Ht c) h Ht). Qed.
Lemma t_get_coll' c : tr tagp (get_coll c) tp.
Proof. intros h Ht; exact Ht. Qed.
Lemma t_get_var v : tr tagp (get_var v) tp.
Proof. intros h Ht; exact Ht. Qed.
Lemma t_get_dim v : tr tagp (get_dim v) tp.
Proof. intros h Ht; exact Ht. Qed.
Lemma t_put_var v x : tr tagp (put_var v x) tp.
Proof. intros h Ht; exact Ht. Qed.
Lemma t_put_dim v x : tr tagp (put_dim v x) tp.
Proof. intros h Ht; exact Ht. Qed.
Lemma t_new_var x : tr tagp (new_var x) tp.
Proof. intros h Ht; exact Ht. Qed.
Lemma t_new_dim x : tr tagp (new_dim x) tp.
Proof. intros h Ht; exact Ht. Qed.
Lemma upd_tagp h c cc : tagp h -> good (c_tags cc) -> forall i, good (c_tags (upd (h_coll h) c cc i)).
Proof. intros Ht Hg i. unfold upd. destruct (i =? c); [exact Hg|apply Ht]. Qed.
Lemma t_new_coll cc : good (c_tags cc) -> tr tagp (new_coll cc) tp.
Proof. intros Hg h Ht i. now apply upd_tagp. Qed.
Lemma t_put_coll c cc : good (c_tags cc) -> tr tagp (put_coll c cc) tp.
Proof. intros Hg h Ht i. now apply upd_tagp. Qed.
Lemma t_for {A} (l : list A) f : (forall x, tr tagp (f x) tp) -> tr tagp (mfor l f) tp.
Proof. intros H. apply tr_for. intros; apply H. Qed.
Lemma t_lookup {V} (d : list (string * V)) k : tr tagp (lookup d k) tp.
Proof. unfold lookup. destruct (dget _ _ _); [apply t_ret|apply t_raise]. Qed.
Lemma t_lift {A} (r : res A) : tr tagp (lift_res r) tp.
Proof. destruct r; [apply t_ret|apply t_raise]. Qed.
Lemma good_nil : good [].
Proof. split; [constructor|intros ? ? []]. Qed.

Ltac t_step := first
  [ apply t_get_coll; intros ?cc ?Hg
  | apply t_bind; [|intros ?x]
  | apply t_ret | apply t_raise | apply t_get_coll' | apply t_get_var | apply t_get_dim | apply t_put_var | apply t_put_dim
  | apply t_new_var | apply t_new_dim | apply t_lookup | apply t_lift | (apply t_new_coll; first [assumption|apply good_nil])
  | (apply t_put_coll; assumption) | (apply t_for; intros ?x) | assumption
  | match goal with |- tr _ (if ?b then _ else _) _ => destruct b end
  | match goal with |- tr _ (match ?b with _ => _ end) _ => destruct b end ].
Ltac t_go := repeat t_step.

Lemma t_pop_var c k : tr tagp (pop_var c k) tp.
Proof. unfold pop_var. t_go. Qed.
Lemma t_pop_dim c k : tr tagp (pop_dim c k) tp.
Proof. unfold pop_dim. t_go. Qed.
Lemma t_parent_of v : tr tagp (parent_of v) tp.
Proof. unfold parent_of. t_go. Qed.
Lemma t_add_dimension c d force check : tr tagp (add_dimension c d force check) tp.
Proof. unfold add_dimension. t_go. Qed.
Lemma t_dimensions_of v : tr tagp (dimensions_of v) tp.
Proof. unfold dimensions_of. pose proof (t_parent_of v). t_go. Qed.
Lemma t_names_of l : tr tagp (names_of l) tp.
Proof. induction l; cbn [names_of]; t_go. Qed.
Lemma t_dimension_names_of v : tr tagp (dimension_names_of v) tp.
Proof. unfold dimension_names_of. pose proof (t_dimensions_of v). apply t_bind; [assumption|]. intros; apply t_names_of. Qed.
Lemma t_dims_of l : tr tagp (dims_of l) tp.
Proof. induction l; cbn [dims_of]; t_go. Qed.
Lemma t_update_current shape : forall l, tr tagp (update_current shape l) tp.
Proof. induction shape as [|s shape IH]; intros [|d l]; cbn [update_current]; t_go; apply IH. Qed.
Lemma t_update_unlimited value l : tr tagp (update_unlimited value l) tp.
Proof.
  unfold update_unlimited. pose proof (t_dims_of l). destruct value; [|apply t_ret]. apply t_bind; [assumption|]. intros dd.
  destruct (shape_fits _ _); [apply t_update_current|apply t_raise].
Qed.
Lemma t_place_dim c value idx a : tr tagp (place_dim c value idx a) tp.
Proof.
  unfold place_dim. destruct a as [d|n].
  - pose proof (t_add_dimension c d false true). t_go.
  - apply t_get_coll; intros cc _. destruct (dmem _ _ _); [apply t_ret|]. apply t_bind; [apply t_lift|]. intros s.
    apply t_bind; [apply t_new_dim|]. intros d. apply t_bind; [apply t_add_dimension|]. intros _. apply t_ret.
Qed.
Lemma t_place_dims c value l : forall idx, tr tagp (place_dims c value idx l) tp.
Proof.
  induction l as [|a l IH]; intros idx; cbn [place_dims]; [apply t_ret|]. apply t_bind; [apply t_place_dim|]. intros n.
  apply t_bind; [apply IH|]. intros r. apply t_ret.
Qed.
Lemma t_new_variable name value dims parent : tr tagp (new_variable name value dims parent) tp.
Proof.
  unfold new_variable.
  assert (H : tr tagp (c <-- (match parent with Some c => mret c | None => new_coll no_coll end) ;;
      v <-- new_var (mkvar name None value None (Some c)) ;;
      cc <-- get_coll c ;; put_coll c (set_vars cc (dset String.eqb (c_vars cc) name v)) ;;;
      match dims with
      | None => mret v
      | Some l =>
          names <-- place_dims c value 0 l ;;
          if nodupb names then
            x <-- get_var v ;; put_var v (with_dims x (Some names)) ;;;
            ds <-- dimensions_of v ;; update_unlimited value ds ;;; mret v
          else mraise ValueError
      end) tp).
  { apply t_bind; [destruct parent; [apply t_ret|apply t_new_coll, good_nil]|]. intros c. apply t_bind; [apply t_new_var|]. intros v.
    apply t_get_coll; intros cc Hg. apply t_bind; [now apply t_put_coll|]. intros _. destruct dims as [l|]; [|apply t_ret].
    apply t_bind; [apply t_place_dims|]. intros names. destruct (nodupb names); [|apply t_raise].
    apply t_bind; [apply t_get_var|]. intros x. apply t_bind; [apply t_put_var|]. intros _. apply t_bind; [apply t_dimensions_of|]. intros ds.
    apply t_bind; [apply t_update_unlimited|]. intros _. apply t_ret. }
  destruct value, dims; try exact H; apply t_raise.
Qed.
Lemma t_add_orphan c v force : tr tagp (add_orphan c v force) tp.
Proof. unfold add_orphan. t_go. Qed.
Lemma t_add_variable c v force : tr tagp (add_variable c v force) tp.
Proof.
  unfold add_variable. apply t_bind; [apply t_get_var|]. intros x. destruct (v_parent x) as [s|]; [|apply t_add_orphan].
  cbv zeta. apply t_get_coll; intros sc _. apply t_bind; [apply t_for; intros; apply t_add_dimension|]. intros _.
  apply t_get_coll; intros sc' _. apply t_for. intros w. apply t_bind; [apply t_get_var|]. intros y. apply t_bind; [apply t_put_var|]. intros _. apply t_add_orphan.
Qed.
Lemma t_copy_coll c : tr tagp (copy_coll c) tp.
Proof. unfold copy_coll. t_go. Qed.
Lemma t_copy_var v : tr tagp (copy_var v) tp.
Proof.
  unfold copy_var. apply t_bind; [apply t_get_var|]. intros x. destruct (v_parent x) as [c|]; [|apply t_new_var].
  apply t_bind; [apply t_copy_coll|]. intros c'. apply t_get_coll; intros; apply t_lookup.
Qed.
Lemma t_bounds_of v : tr tagp (bounds_of v) tp.
Proof. unfold bounds_of. apply t_bind; [apply t_get_var|]. intros x. destruct (v_parent x), (v_bounds x); t_go. Qed.
Lemma t_keep_names v kb : tr tagp (keep_names v kb) tp.
Proof. unfold keep_names. apply t_bind; [apply t_get_var|]. intros x. destruct kb; [|apply t_ret]. apply t_bind; [apply t_bounds_of|]. intros b. t_go. Qed.
Lemma t_drop_dims o r kb : tr tagp (drop_dims o r kb) tp.
Proof.
  unfold drop_dims. apply t_bind; [apply t_dimension_names_of|]. intros keep.
  apply t_bind; [destruct kb; [apply t_bounds_of|apply t_ret]|]. intros b.
  apply t_bind; [destruct b; [apply t_dimension_names_of|apply t_ret]|]. intros more.
  apply t_bind; [apply t_parent_of|]. intros p. apply t_get_coll; intros pc _. apply t_bind; [apply t_parent_of|]. intros rp.
  apply t_for. intros; apply t_pop_dim.
Qed.
Lemma t_extract_keep v kb : tr tagp (extract_keep v kb) tp.
Proof.
  unfold extract_keep. apply t_bind; [apply t_copy_var|]. intros r. apply t_bind; [apply t_get_var|]. intros x.
  apply t_bind.
  - destruct (v_parent x); [|apply t_ret]. apply t_bind; [apply t_keep_names|]. intros keep. apply t_bind; [apply t_parent_of|]. intros rp.
    apply t_get_coll; intros rc _. apply t_for. intros w. apply t_bind; [apply t_get_var|]. intros y. destruct (existsb _ _); [apply t_ret|apply t_pop_var].
  - intros _. apply t_bind; [apply t_get_var|]. intros x'. apply t_bind; [apply t_parent_of|]. intros rp. apply t_get_coll; intros rc _.
    apply t_bind; [apply t_lookup|]. intros r'. apply t_bind; [apply t_drop_dims|]. intros _. apply t_ret.
Qed.

Lemma remove_first_filter n l : NoDup l -> remove_first l n = filter (fun x => negb (String.eqb n x)) l.
Proof.
  induction l as [|a l IH]; cbn [remove_first filter]; intros Hn; [reflexivity|]. inversion Hn as [|? ? Ha Hn']; subst.
  destruct (String.eqb_spec n a) as [->|Hne]; cbn [negb]; [|now rewrite IH].
  symmetry. clear IH Hn. induction l as [|b l IH]; [reflexivity|]. cbn [filter]. inversion Hn'; subst.
  destruct (String.eqb_spec a b) as [->|Hne]; [exfalso; apply Ha; now left|]. cbn [negb]. rewrite IH; auto. intros H; apply Ha; now right.
Qed.
Lemma good_remove t rn : good t -> good (map (fun t => (fst t, remove_first (snd t) rn)) t).
Proof.
  intros [H1 H2]. split; [rewrite map_map; exact H1|]. intros tag names Hin. apply in_map_iff in Hin as [[tag' names'] [E Hin]].
  cbn [fst snd] in E. injection E as <- <-. rewrite remove_first_filter by eauto. apply NoDup_filter. eauto.
Qed.
Lemma t_orphaned c dims : tr tagp (remove_orphaned_dimensions c dims) tp.
Proof.
  intros h Ht. unfold remove_orphaned_dimensions. apply (t_for _ _ (fun d => t_pop_dim c d)). exact Ht.
Qed.
Lemma t_remove_variable c name kb : tr tagp (remove_variable c name kb) tp.
Proof.
  unfold remove_variable. apply t_get_coll; intros cc _. apply t_bind; [apply t_lookup|]. intros v.
  apply t_bind; [apply t_dimension_names_of|]. intros check. apply t_bind; [apply t_get_var|]. intros x.
  apply t_bind; [destruct kb; [apply t_bounds_of|apply t_ret]|]. intros b.
  apply t_bind.
  - destruct b as [w|]; [|apply t_ret]. apply t_bind; [apply t_get_var|]. intros y. apply t_bind; [apply t_dimension_names_of|]. intros; apply t_ret.
  - intros nc. apply t_bind; [apply t_extract_keep|]. intros ret. apply t_bind.
    + apply t_for. intros rn. apply t_get_coll; intros cc' Hg. apply t_bind; [apply t_put_coll, good_remove, Hg|]. intros _. apply t_pop_var.
    + intros _. apply t_bind; [apply t_orphaned|]. intros _. apply t_ret.
Qed.
Lemma t_extract v kb cl : tr tagp (extract v kb cl) tp.
Proof.
  unfold extract. destruct cl; [|apply t_extract_keep]. unfold extract_clean.
  apply t_bind; [apply t_copy_var|]. intros r. apply t_bind; [apply t_get_var|]. intros x.
  apply t_bind.
  - destruct (v_parent x) as [c|]; [|apply t_ret]. apply t_bind; [apply t_keep_names|]. intros keep. apply t_bind; [apply t_parent_of|]. intros rp.
    apply t_get_coll; intros rc _. cbv zeta. apply t_bind; [|intros _; apply t_for; intros; apply t_pop_var].
    apply t_for. intros k. apply t_bind; [apply t_remove_variable|]. intros _. apply t_ret.
  - intros _. apply t_bind; [apply t_get_var|]. intros x'. apply t_bind; [apply t_parent_of|]. intros rp. apply t_get_coll; intros rc _.
    apply t_bind; [apply t_lookup|]. intros r'. apply t_bind; [apply t_drop_dims|]. intros _. apply t_ret.
Qed.
Lemma t_set_name v name : tr tagp (set_name v name) tp.
Proof. unfold set_name. t_go. Qed.
Lemma t_rename_dimension c old new : tr tagp (rename_dimension c old new) tp.
Proof. unfold rename_dimension. t_go. Qed.
Lemma t_set_bounds v b force : tr tagp (set_bounds v b force) tp.
Proof.
  unfold set_bounds. apply t_bind; [apply t_parent_of|]. intros p. apply t_bind; [apply t_get_var|]. intros x. destruct b as [w|].
  - apply t_bind; [apply t_get_var|]. intros y. apply t_bind; [apply t_put_var|]. intros _. apply t_add_variable.
  - apply t_bind; [destruct (v_bounds x); [apply t_pop_var|apply t_ret]|]. intros _. apply t_put_var.
Qed.
Lemma good_dset t tag names : good t -> NoDup names -> good (dset String.eqb t tag names).
Proof.
  intros [H1 H2] Hn. assert (Hnd : NoDup (map fst (dset String.eqb t tag names))) by now apply (dset_nodup _ String.eqb_spec).
  split; [exact Hnd|]. intros tag' names' Hin. apply (in_dget _ String.eqb_spec) in Hin; [|exact Hnd].
  destruct (string_dec tag' tag) as [->|Hne].
  - rewrite (dget_dset_same _ String.eqb_spec) in Hin. now injection Hin as <-.
  - rewrite (dget_dset_other _ String.eqb_spec) in Hin by auto. apply (dget_in _ String.eqb_spec) in Hin. eauto.
Qed.
Lemma t_create_tag c tag : tr tagp (create_tag c tag) tp.
Proof.
  unfold create_tag. apply t_get_coll; intros cc Hg. destruct (dmem _ _ _); [apply t_raise|]. apply t_put_coll. cbn [set_tags c_tags].
  apply good_dset; [exact Hg|constructor].
Qed.
Lemma t_tag_names c tag create : tr tagp (tag_names c tag create) tp.
Proof.
  unfold tag_names. apply t_get_coll; intros cc Hg. apply t_bind; [destruct (_ && _); [apply t_create_tag|apply t_ret]|]. intros _.
  apply t_get_coll; intros cc' _. apply t_lookup.
Qed.
Lemma t_get_by_tag c tag create strict : tr tagp (get_by_tag c tag create strict) tp.
Proof. unfold get_by_tag. apply t_bind; [apply t_tag_names|]. intros names. apply t_get_coll; intros cc _. apply t_lift. Qed.
Lemma append_names_nodup l : forall names r, NoDup names -> append_names names l = Ok r -> NoDup r.
Proof.
  induction l as [|a l IH]; intros names r Hn; cbn [append_names]; [intros H; now injection H as <-|].
  destruct (existsb (String.eqb a) names) eqn:E; [discriminate|]. apply IH.
  apply NoDup_Add with (a := a) (l := names).
  - rewrite <- (app_nil_r names) at 1. apply Add_app.
  - split; [exact Hn|]. intros H. apply existsb_eqb_in in H. congruence.
Qed.
Lemma tag_names_good c tag create : tr tagp (tag_names c tag create) (fun r h => tagp h /\ forall names, r = Ok names -> NoDup names).
Proof.
  intros h Ht. unfold tag_names. rewrite (bind_ok (get_coll c) _ h h _ eq_refl).
  set (m := if negb _ && create then create_tag c tag else mret tt).
  assert (Hm : tr tagp m tp) by (unfold m; destruct (_ && _); [apply t_create_tag|apply t_ret]).
  specialize (Hm h Ht). destruct (m h) as [h1 [[]|e]] eqn:E; cbn [fst snd] in Hm.
  - rewrite (bind_ok _ _ _ _ _ E), (bind_ok (get_coll c) _ h1 h1 _ eq_refl). unfold lookup.
    destruct (dget String.eqb (c_tags (h_coll h1 c)) tag) as [names|] eqn:Eg; cbn; split; auto; try discriminate.
    intros ns H; injection H as <-. apply (dget_in _ String.eqb_spec) in Eg. eapply (proj2 (Hm c)), Eg.
  - rewrite (bind_err _ _ _ _ _ E). cbn. split; [exact Hm|discriminate].
Qed.
Lemma t_append_to_tags c tag names create : tr tagp (append_to_tags c tag names create) tp.
Proof.
  unfold append_to_tags. eapply tr_bind; [apply tag_names_good| |intros e h [H _]; exact H]. intros ns h [Ht Hn]. specialize (Hn ns eq_refl).
  destruct (append_names ns names) as [r|e] eqn:E.
  - rewrite (bind_ok _ _ h h r) by reflexivity. rewrite (bind_ok (get_coll c) _ h h _ eq_refl).
    apply (t_put_coll c); [|exact Ht]. cbn [set_tags c_tags]. apply good_dset; [apply Ht|]. eapply append_names_nodup; eauto.
  - rewrite (bind_err _ _ h h e) by reflexivity. exact Ht.
Qed.

Lemma cstep_tagp h o : tagp h -> tagp (cstep h o).
Proof.
  intros Ht. destruct o; cbn [cstep].
  - exact (t_new_dim _ h Ht).
  - exact (t_new_coll no_coll good_nil h Ht).
  - exact (t_new_variable _ _ _ _ h Ht).
  - exact (t_add_dimension _ _ _ _ h Ht).
  - exact (t_add_variable _ _ _ h Ht).
  - exact (t_copy_coll _ h Ht).
  - exact (t_extract _ _ _ h Ht).
  - exact (t_remove_variable _ _ _ h Ht).
  - exact (t_set_name _ _ h Ht).
  - exact (t_rename_dimension _ _ _ h Ht).
  - exact (t_set_bounds _ _ _ h Ht).
  - exact (t_create_tag _ _ h Ht).
  - exact (t_append_to_tags _ _ _ _ h Ht).
  - exact (t_get_by_tag _ _ _ _ h Ht).
Qed.
Lemma empty_tagp : tagp empty_heap.
Proof. intros c. apply good_nil. Qed.
Lemma crun_tagp ops : tagp (crun ops).
Proof.
  unfold crun. assert (H : forall h, tagp h -> tagp (fold_left cstep ops h)).
  { induction ops as [|o ops IH]; intros h Ht; [exact Ht|]. cbn [fold_left]. apply IH. now apply cstep_tagp. }
  apply H, empty_tagp.
Qed.
Lemma tags_once ops c tag names : Tagged (crun ops) c tag names -> NoDup names /\ forall names', Tagged (crun ops) c tag names' -> names' = names.
Proof.
  intros H. destruct (crun_tagp ops c) as [H1 H2]. split; [eauto|]. intros names' H'. unfold Tagged in *.
  apply (in_dget _ String.eqb_spec) in H, H'; auto. congruence.
Qed.

Lemma reach_tagp h L : Reach h L -> tagp h.
Proof.
  assert (Hx : forall A (m : M A) h h' r, tr tagp m tp -> m h = (h', r) -> tagp h -> tagp h').
  { intros A m h0 h' r Hm E Ht. specialize (Hm h0 Ht). now rewrite E in Hm. }
  induction 1.
  - apply empty_tagp.
  - eapply Hx; [apply (t_new_coll no_coll), good_nil|eauto|auto].
  - eapply Hx; [apply t_new_dim|eauto|auto].
  - eapply Hx; [apply t_add_dimension|eauto|auto].
  - eapply Hx; [apply t_new_variable|eauto|auto].
  - eapply Hx; [apply t_new_variable|eauto|auto].
  - eapply Hx; [apply t_add_variable|eauto|auto].
  - eapply Hx; [apply t_add_variable|eauto|auto].
  - eapply Hx; [apply t_copy_coll|eauto|auto].
  - eapply Hx; [apply t_extract|eauto|auto].
  - eapply Hx; [apply t_extract|eauto|auto].
  - eapply Hx; [apply t_remove_variable|eauto|auto].
  - eapply Hx; [apply t_remove_variable|eauto|auto].
  - eapply Hx; [apply t_set_name|eauto|auto].
  - eapply Hx; [apply t_rename_dimension|eauto|auto].
  - eapply Hx; [apply t_set_bounds|eauto|auto].
  - eapply Hx; [apply t_set_bounds|eauto|auto].
  - eapply Hx; [apply t_set_bounds|eauto|auto].
  - eapply Hx; [apply t_create_tag|eauto|auto].
  - eapply Hx; [apply t_append_to_tags|eauto|auto].
  - eapply Hx; [apply t_get_by_tag|eauto|auto].
Qed.

(** ** Reading a tag *)
Lemma tagged_present vars names : forall vs, tagged vars names false = Ok vs -> Present vars names vs.
Proof.
  induction names as [|n names IH]; intros vs; cbn [tagged]; [intros H; injection H as <-; constructor|].
  destruct (dget String.eqb vars n) as [v|] eqn:E.
  - destruct (tagged vars names false) as [r|e]; cbn [bind]; [|discriminate]. intros H; injection H as <-.
    apply PresentHere; [now apply (dget_in _ String.eqb_spec)|auto].
  - intros H. apply PresentGone; [|auto]. intros v Hin. apply (dget_none _ String.eqb_spec) in E. apply E. now apply in_map with (f := fst) in Hin.
Qed.
Lemma tagged_lenient vars names : exists vs, tagged vars names false = Ok vs.
Proof.
  induction names as [|n names [vs IH]]; cbn [tagged]; [eauto|]. destruct (dget _ _ _); [|eauto]. rewrite IH. cbn. eauto.
Qed.
Lemma tagged_strict vars names : forall vs, tagged vars names true = Ok vs -> Forall2 (fun n v => In (n, v) vars) names vs.
Proof.
  induction names as [|n names IH]; intros vs; cbn [tagged]; [intros H; injection H as <-; constructor|].
  destruct (dget String.eqb vars n) as [v|] eqn:E; [|discriminate].
  destruct (tagged vars names true) as [r|e]; cbn [bind]; [|discriminate]. intros H; injection H as <-.
  constructor; [now apply (dget_in _ String.eqb_spec)|auto].
Qed.
Lemma tagged_strict_gone vars names n : In n names -> (forall v, ~ In (n, v) vars) -> tagged vars names true = Err KeyError.
Proof.
  induction names as [|m names IH]; [intros []|]. intros Hin Hgone. cbn [tagged].
  destruct (dget String.eqb vars m) as [v|] eqn:E; [|reflexivity].
  destruct Hin as [->|Hin]; [exfalso; eapply Hgone, (dget_in _ String.eqb_spec), E|]. now rewrite (IH Hin Hgone).
Qed.

(** Reading a tag changes nothing but may create it. *)
Lemma tag_names_run c tag create h : exists h',
  tag_names c tag create h = (h', match dget String.eqb (c_tags (h_coll h' c)) tag with Some n => Ok n | None => Err KeyError end)
  /\ hm c h h' /\ c_vars (h_coll h' c) = c_vars (h_coll h c) /\ c_dims (h_coll h' c) = c_dims (h_coll h c)
  /\ c_tags (h_coll h' c) = (if create && negb (dmem String.eqb (c_tags (h_coll h c)) tag) then dset String.eqb (c_tags (h_coll h c)) tag [] else c_tags (h_coll h c)).
Proof.
  unfold tag_names. rewrite (bind_ok (get_coll c) _ h h _ eq_refl).
  destruct (dmem String.eqb (c_tags (h_coll h c)) tag) eqn:Em; cbn [negb andb]; [|destruct create; cbn [andb]].
  - rewrite (bind_ok (mret tt) _ h h tt eq_refl), (bind_ok (get_coll c) _ h h _ eq_refl). exists h.
    split; [unfold lookup; now destruct (dget _ _ _)|]. split; [apply hm_refl|]. split; [reflexivity|]. split; [reflexivity|].
    now rewrite andb_false_r.
  - set (h1 := hput h c (set_tags (h_coll h c) (dset String.eqb (c_tags (h_coll h c)) tag []))).
    rewrite (bind_ok _ _ h h1 tt) by (unfold create_tag, mbind, get_coll; rewrite Em; reflexivity).
    rewrite (bind_ok (get_coll c) _ h1 h1 _ eq_refl). exists h1.
    split; [unfold lookup; now destruct (dget _ _ _)|]. split; [apply hm_hput|]. unfold h1, hput; cbn [h_coll]; rewrite upd_same. auto.
  - rewrite (bind_ok (mret tt) _ h h tt eq_refl), (bind_ok (get_coll c) _ h h _ eq_refl). exists h.
    split; [unfold lookup; now destruct (dget _ _ _)|]. split; [apply hm_refl|]. auto.
Qed.

Lemma get_by_tag_lenient h c tag create names : dget String.eqb (c_tags (h_coll h c)) tag = Some names ->
  exists vs, get_by_tag c tag create false h = (h, Ok vs) /\ Present (c_vars (h_coll h c)) names vs.
Proof.
  intros Hg. unfold get_by_tag, tag_names. rewrite bind_assoc, (bind_ok (get_coll c) _ h h _ eq_refl).
  assert (Hm : dmem String.eqb (c_tags (h_coll h c)) tag = true) by (unfold dmem; now rewrite Hg).
  rewrite Hm. cbn [negb andb]. rewrite bind_assoc, (bind_ok (mret tt) _ h h tt eq_refl).
  rewrite bind_assoc, (bind_ok (get_coll c) _ h h _ eq_refl). rewrite (bind_ok _ _ h h names) by now apply lookup_some.
  rewrite (bind_ok (get_coll c) _ h h _ eq_refl). destruct (tagged_lenient (c_vars (h_coll h c)) names) as [vs E].
  exists vs. rewrite E. split; [reflexivity|now apply tagged_present].
Qed.
Lemma get_by_tag_strict h c tag create names : dget String.eqb (c_tags (h_coll h c)) tag = Some names ->
  (exists vs, get_by_tag c tag create true h = (h, Ok vs) /\ Forall2 (fun n v => In (n, v) (c_vars (h_coll h c))) names vs)
  \/ (get_by_tag c tag create true h = (h, Err KeyError) /\ exists n, In n names /\ forall v, ~ In (n, v) (c_vars (h_coll h c))).
Proof.
  intros Hg. unfold get_by_tag, tag_names. rewrite bind_assoc, (bind_ok (get_coll c) _ h h _ eq_refl).
  assert (Hm : dmem String.eqb (c_tags (h_coll h c)) tag = true) by (unfold dmem; now rewrite Hg).
  rewrite Hm. cbn [negb andb]. rewrite bind_assoc, (bind_ok (mret tt) _ h h tt eq_refl).
  rewrite bind_assoc, (bind_ok (get_coll c) _ h h _ eq_refl). rewrite (bind_ok _ _ h h names) by now apply lookup_some.
  rewrite (bind_ok (get_coll c) _ h h _ eq_refl).
  destruct (tagged (c_vars (h_coll h c)) names true) as [vs|e] eqn:E.
  - left. exists vs. split; [reflexivity|now apply tagged_strict].
  - right. clear Hg Hm.
    assert (Hn : e = KeyError /\ exists n, In n names /\ forall v, ~ In (n, v) (c_vars (h_coll h c))).
    { revert e E. induction names as [|n names IH]; cbn [tagged]; [discriminate|]. intros e.
      destruct (dget String.eqb (c_vars (h_coll h c)) n) as [v|] eqn:Ed.
      - destruct (tagged (c_vars (h_coll h c)) names true) as [r|e'] eqn:E'; cbn [bind]; [discriminate|]. intros H; injection H as <-.
        destruct (IH e' eq_refl) as [-> [m [Hm Hg]]]. split; [reflexivity|]. exists m. split; [now right|exact Hg].
      - intros H; injection H as <-. split; [reflexivity|]. exists n. split; [now left|]. intros v Hin.
        apply (dget_none _ String.eqb_spec) in Ed. apply Ed. now apply in_map with (f := fst) in Hin. }
    destruct Hn as [-> Hn]. split; [reflexivity|exact Hn].
Qed.

(** Appending. *)
Lemma append_names_ok l : forall names, NoDup l -> (forall n, In n l -> ~ In n names) -> append_names names l = Ok (names ++ l)%list.
Proof.
  induction l as [|a l IH]; intros names Hn Hd; cbn [append_names]; [now rewrite app_nil_r|]. inversion Hn as [|? ? Ha Hn']; subst.
  destruct (existsb (String.eqb a) names) eqn:E; [apply existsb_eqb_in in E; exfalso; eapply Hd; [now left|exact E]|].
  rewrite IH; auto.
  - now rewrite <- app_assoc.
  - intros n Hin. rewrite in_app_iff. cbn [In]. intros [H|[<-|[]]]; [exact (Hd n (or_intror Hin) H)|contradiction].
Qed.
Lemma append_names_err l : forall names, (~ NoDup l \/ exists n, In n l /\ In n names) -> append_names names l = Err ValueError.
Proof.
  induction l as [|a l IH]; intros names Hd; cbn [append_names].
  - exfalso. destruct Hd as [H|[n [[] _]]]. apply H; constructor.
  - destruct (existsb (String.eqb a) names) eqn:E; [reflexivity|]. apply IH.
    assert (Ha : ~ In a names) by (intros H; apply existsb_eqb_in in H; congruence).
    destruct (in_dec string_dec a l) as [Hin|Hin]; [right; exists a; split; [exact Hin|apply in_or_app; right; now left]|].
    destruct Hd as [H|[n [[<-|Hn] Hx]]].
    + left. intros Hl. apply H. now constructor.
    + contradiction.
    + right. exists n. split; [exact Hn|]. apply in_or_app; now left.
Qed.
Lemma append_effect h c tag names create old :
  tagp h -> dget String.eqb (c_tags (h_coll h c)) tag = Some old ->
  let '(h', r) := append_to_tags c tag names create h in
  (NoDup (old ++ names)%list -> r = Ok tt /\ dget String.eqb (c_tags (h_coll h' c)) tag = Some (old ++ names)%list
     /\ forall t, t <> tag -> dget String.eqb (c_tags (h_coll h' c)) t = dget String.eqb (c_tags (h_coll h c)) t)
  /\ (~ NoDup (old ++ names)%list -> r = Err ValueError /\ h' = h).
Proof.
  intros Ht Hg. unfold append_to_tags, tag_names. rewrite bind_assoc, (bind_ok (get_coll c) _ h h _ eq_refl).
  assert (Hm : dmem String.eqb (c_tags (h_coll h c)) tag = true) by (unfold dmem; now rewrite Hg).
  rewrite Hm. cbn [negb andb]. rewrite bind_assoc, (bind_ok (mret tt) _ h h tt eq_refl).
  rewrite bind_assoc, (bind_ok (get_coll c) _ h h _ eq_refl). rewrite (bind_ok _ _ h h old) by now apply lookup_some.
  assert (Hold : NoDup old) by (eapply (proj2 (Ht c)), (dget_in _ String.eqb_spec), Hg).
  assert (Hiff : NoDup (old ++ names)%list <-> (NoDup names /\ forall n, In n names -> ~ In n old)).
  { clear -Hold. induction old as [|a old IH]; cbn [app].
    - split; [intros H; split; [exact H|auto]|tauto].
    - inversion Hold as [|? ? Ha Ho]; subst. split.
      + intros H. inversion H as [|? ? Hx Hy]; subst. apply IH in Hy as [Hy1 Hy2]; auto. split; [exact Hy1|]. intros n Hn [<-|Hno]; [|eapply Hy2; eauto].
        apply Hx, in_or_app; now right.
      + intros [H1 H2]. constructor; [|apply IH; auto; split; [exact H1|]; intros n Hn Hno; eapply H2; eauto; now right].
        intros H. apply in_app_or in H as [H|H]; [contradiction|]. eapply H2; [exact H|now left]. }
  destruct (append_names old names) as [r|e] eqn:E.
  - rewrite (bind_ok _ _ h h r) by reflexivity. rewrite (bind_ok (get_coll c) _ h h _ eq_refl).
    set (h1 := hput h c (set_tags (h_coll h c) (dset String.eqb (c_tags (h_coll h c)) tag r))).
    change (put_coll c (set_tags (h_coll h c) (dset String.eqb (c_tags (h_coll h c)) tag r)) h) with (h1, Ok tt).
    cbv beta iota. assert (Hc : c_tags (h_coll h1 c) = dset String.eqb (c_tags (h_coll h c)) tag r) by (unfold h1, hput; cbn; now rewrite upd_same).
    split.
    + intros Hnd. apply Hiff in Hnd as [H1 H2]. rewrite append_names_ok in E by assumption. injection E as <-.
      split; [reflexivity|]. rewrite Hc. split; [apply (dget_dset_same _ String.eqb_spec)|]. intros t Hne. now rewrite (dget_dset_other _ String.eqb_spec).
    + intros Hnd. exfalso. assert (Hbad : ~ NoDup names \/ exists n, In n names /\ In n old).
      { destruct (ListDec.NoDup_dec string_dec names) as [H1|H1]; [|now left]. right.
        destruct (existsb (fun n => existsb (String.eqb n) old) names) eqn:Eb.
        - apply existsb_exists in Eb as [n [A B]]. exists n. split; [exact A|]. now apply existsb_eqb_in.
        - exfalso. apply Hnd, Hiff. split; [exact H1|]. intros n Hn Ho.
          assert (existsb (fun n => existsb (String.eqb n) old) names = true) by (apply existsb_exists; exists n; split; [exact Hn|now apply existsb_eqb_in]). congruence. }
      rewrite (append_names_err _ _ Hbad) in E. discriminate.
  - rewrite (bind_err _ _ h h e) by reflexivity. split.
    + intros Hnd. apply Hiff in Hnd as [H1 H2]. rewrite append_names_ok in E by assumption. discriminate.
    + intros _. split; [|reflexivity]. clear -E. f_equal. revert old E. induction names as [|a names IH]; intros old; cbn [append_names]; [discriminate|].
      destruct (existsb _ _); [intros H; now injection H|apply IH].
Qed.

(** ** Removal and tags *)
Lemma fold_remove_filter gone : forall l, NoDup l -> fold_left remove_first gone l = minus l gone.
Proof.
  induction gone as [|g gone IH]; intros l Hn; cbn [fold_left].
  - unfold minus. symmetry. rewrite (filter_ext _ (fun _ => true)); [|reflexivity]. clear. induction l; cbn; congruence.
  - rewrite remove_first_filter by exact Hn. rewrite IH by now apply NoDup_filter. unfold minus. clear.
    induction l as [|a l IHl]; cbn [filter existsb]; [reflexivity|]. rewrite (String.eqb_sym g a).
    destruct (String.eqb a g); cbn [negb orb filter]; [exact IHl|]. destruct (existsb (String.eqb a) gone); cbn [negb]; rewrite IHl; reflexivity.
Qed.
Lemma remove_tags h L c name flag h' r :
  Reach h L -> In c L -> remove_variable c name flag h = (h', Ok r) ->
  exists v, Listed h c name v /\
    (forall tag names, Tagged h c tag names -> Tagged h' c tag (minus names (with_bounds_name (h_var h v) flag)))
    /\ (forall tag names, Tagged h' c tag names -> exists names0, Tagged h c tag names0 /\ names = minus names0 (with_bounds_name (h_var h v) flag)).
Proof.
  intros Hr Hc E. pose proof (reach_inv _ _ Hr c Hc) as Ho. pose proof (reach_tagp _ _ Hr c) as [_ Hg].
  pose proof (remove_variable_run h c name flag Ho) as H. rewrite E in H. destruct H as [_ [_ [_ H]]].
  destruct (H r eq_refl) as [v [x [Hl Hrm]]]. exists v. split; [exact Hl|]. pose proof (rm_tags _ _ _ _ _ _ _ Hrm) as Ht.
  change (kept h v flag) with (with_bounds_name (h_var h v) flag) in Ht. unfold Tagged. rewrite Ht. split.
  - intros tag names Hin. apply in_map_iff. exists (tag, names). split; [|exact Hin]. cbn [fst snd]. f_equal. apply fold_remove_filter. eauto.
  - intros tag names Hin. apply in_map_iff in Hin as [[tag0 names0] [Eq Hin]]. cbn [fst snd] in Eq. pose proof (f_equal fst Eq) as E1; pose proof (f_equal snd Eq) as E2. cbn [fst snd] in E1, E2. subst tag names.
    exists names0. split; [exact Hin|]. apply fold_remove_filter. eauto.
Qed.

(** The same over histories. *)
Lemma tagged_dget ops c tag names : Tagged (crun ops) c tag names -> dget String.eqb (c_tags (h_coll (crun ops) c)) tag = Some names.
Proof. intros H. apply (in_dget _ String.eqb_spec); [apply crun_tagp|exact H]. Qed.
Lemma history_lenient ops c tag create names : Tagged (crun ops) c tag names ->
  exists vs, get_by_tag c tag create false (crun ops) = (crun ops, Ok vs) /\ Present (c_vars (h_coll (crun ops) c)) names vs.
Proof. intros H. now apply get_by_tag_lenient, tagged_dget. Qed.
Lemma history_strict ops c tag create names : Tagged (crun ops) c tag names ->
  (exists vs, get_by_tag c tag create true (crun ops) = (crun ops, Ok vs) /\ Forall2 (fun n v => Listed (crun ops) c n v) names vs)
  \/ (get_by_tag c tag create true (crun ops) = (crun ops, Err KeyError) /\ exists n, In n names /\ forall v, ~ Listed (crun ops) c n v).
Proof. intros H. now apply get_by_tag_strict, tagged_dget. Qed.
Lemma history_append ops c tag names create old : Tagged (crun ops) c tag old ->
  (NoDup (old ++ names)%list -> exists h', append_to_tags c tag names create (crun ops) = (h', Ok tt) /\ Tagged h' c tag (old ++ names)%list)
  /\ (~ NoDup (old ++ names)%list -> append_to_tags c tag names create (crun ops) = (crun ops, Err ValueError)).
Proof.
  intros H. pose proof (append_effect (crun ops) c tag names create old (crun_tagp ops) (tagged_dget _ _ _ _ H)) as Ha.
  destruct (append_to_tags c tag names create (crun ops)) as [h' r]. destruct Ha as [A B]. split.
  - intros Hn. destruct (A Hn) as [-> [D _]]. exists h'. split; [reflexivity|]. now apply (dget_in _ String.eqb_spec).
  - intros Hn. destruct (B Hn) as [-> ->]. reflexivity.
Qed.
