(** Extraction and removal. *)
From Verif Require Import Py Lib CollModel CollSpec DmapProofs CollProofs CollInvProofs.
Local Open Scope string_scope.
Local Open Scope Z_scope.

(** The names that stay in the collection of an extracted variable. *)
Definition kept (h : heap) (v : Z) (kb : bool) : list string :=
  v_name (h_var h v) :: (if kb then match v_bounds (h_var h v) with Some b => [b] | None => [] end else []).
Definition bounds_there (h : heap) (c v : Z) : Prop :=
  forall b, v_bounds (h_var h v) = Some b -> exists w, Listed h c b w.

Lemma bounds_there_res h c v : ok h c -> bounds_there h c v -> exists b, bounds_res h c v = Ok b.
Proof.
  intros Ho H. unfold bounds_res, bounds_there in *. destruct (v_bounds (h_var h v)) as [b|]; [|eauto].
  destruct (H b eq_refl) as [w Hw]. apply (listed_get _ _ _ _ Ho) in Hw. rewrite Hw. eauto.
Qed.
Lemma bounds_gone_res h c v : ok h c -> ~ bounds_there h c v -> bounds_res h c v = Err KeyError.
Proof.
  intros Ho H. unfold bounds_res, bounds_there in *. destruct (v_bounds (h_var h v)) as [b|].
  - destruct (dget String.eqb (c_vars (h_coll h c)) b) as [w|] eqn:E; [|reflexivity].
    exfalso; apply H. intros b' Hb; injection Hb as <-. exists w. now apply listed_get.
  - exfalso; apply H; discriminate.
Qed.
Lemma bounds_dec h c v : ok h c -> bounds_there h c v \/ ~ bounds_there h c v.
Proof.
  intros Ho. unfold bounds_there. destruct (v_bounds (h_var h v)) as [b|]; [|left; discriminate].
  destruct (dget String.eqb (c_vars (h_coll h c)) b) as [w|] eqn:E.
  - left. intros b' Hb; injection Hb as <-. exists w. now apply listed_get.
  - right. intros H. destruct (H b eq_refl) as [w Hw]. apply (listed_get _ _ _ _ Ho) in Hw. congruence.
Qed.

Lemma keep_names_run h c k v kb :
  ok h c -> Listed h c k v -> (kb = true -> bounds_there h c v) -> keep_names v kb h = (h, Ok (kept h v kb)).
Proof.
  intros Ho Hl Hb. unfold keep_names, kept. rewrite (bind_ok (get_var v) _ h h (h_var h v) eq_refl).
  destruct kb; [|reflexivity]. specialize (Hb eq_refl).
  destruct (bounds_there_res _ _ _ Ho Hb) as [b Eb].
  rewrite (bind_ok _ _ h h b) by (rewrite (bounds_of_run _ _ _ _ Ho Hl), Eb; reflexivity).
  destruct b as [w|].
  - destruct (bounds_listed _ _ _ _ Ho Eb) as [bn [E Hw]]. rewrite E.
    unfold mbind, get_var, mret. now rewrite (cs_name _ _ (ok_cs _ _ Ho) _ _ Hw).
  - unfold bounds_res in Eb. destruct (v_bounds (h_var h v)); [|reflexivity].
    destruct (dget _ _ _) in Eb; discriminate.
Qed.
Lemma keep_names_gone h c k v :
  ok h c -> Listed h c k v -> ~ bounds_there h c v -> keep_names v true h = (h, Err KeyError).
Proof.
  intros Ho Hl Hb. unfold keep_names. rewrite (bind_ok (get_var v) _ h h (h_var h v) eq_refl).
  apply bind_err. rewrite (bounds_of_run _ _ _ _ Ho Hl). now rewrite (bounds_gone_res _ _ _ Ho Hb).
Qed.

(** [copy_var] of a listed variable. *)
Lemma copy_var_run h c k v :
  ok h c -> Listed h c k v ->
  exists h' c' r, copy_var v h = (h', Ok r) /\ copied h c h' c' /\ Listed h' c' k r
    /\ h_var h' r = with_parent (h_var h v) (Some c').
Proof.
  intros Ho Hl. destruct (copy_coll_spec _ _ Ho) as [h' [c' [E Hcp]]].
  pose proof (copied_ok _ _ _ _ Ho Hcp) as Ho'.
  destruct (forall2_in_l _ _ _ _ (cp_vars _ _ _ _ Hcp) Hl) as [[k2 r] [Hin [A [B C]]]]. cbn [fst snd] in *; subst k2.
  exists h', c', r. split; [|split; [exact Hcp|split; [exact Hin|exact C]]].
  unfold copy_var. rewrite (bind_ok (get_var v) _ h h (h_var h v) eq_refl).
  rewrite (cs_parent _ _ (ok_cs _ _ Ho) _ _ Hl), (bind_ok _ _ _ _ _ E).
  rewrite (bind_ok (get_coll c') _ h' h' _ eq_refl). apply lookup_some.
  rewrite (cs_name _ _ (ok_cs _ _ Ho) _ _ Hl). now apply listed_get.
Qed.

(** What extraction gives. *)
Record extracted (h : heap) (c : Z) (v : Z) (kb : bool) (h' : heap) (x r : Z) : Prop := {
  ex_ok : ok h' x;
  ex_fresh : h_next h <= x;
  ex_ret : Listed h' x (v_name (h_var h v)) r;
  ex_vars : forall k w', Listed h' x k w' ->
    In k (kept h v kb) /\ h_next h <= w' /\ exists w, Listed h c k w /\ h_var h' w' = with_parent (h_var h w) (Some x);
  ex_all : forall k, In k (kept h v kb) -> exists w', Listed h' x k w' }.
Definition exact_dims (h : heap) (c : Z) (h' : heap) (x : Z) : Prop :=
  forall n d, Registered h' x n d <-> Registered h c n d /\ exists k w, Listed h' x k w /\ In n (dim_names h' w).

(** Old heap, new heap, where collection [c] may have shrunk. *)
Record extc (c : Z) (h h' : heap) : Prop := {
  xc_next : h_next h <= h_next h';
  xc_var : forall i, i < h_next h -> h_var h' i = h_var h i;
  xc_dim : forall i, i < h_next h -> h_dim h' i = h_dim h i;
  xc_coll : forall i, i < h_next h -> i <> c -> h_coll h' i = h_coll h i }.
Lemma extc_refl c h : extc c h h.
Proof. constructor; auto; lia. Qed.
Lemma extc_trans c h1 h2 h3 : extc c h1 h2 -> extc c h2 h3 -> extc c h1 h3.
Proof.
  intros [A B C D] [E F G H]. constructor; [lia|..]; intros i Hi; [rewrite F, B|rewrite G, C|intros Hne; rewrite H, D]; auto; lia.
Qed.
Lemma ext_extc c h h' : ext h h' -> extc c h h'.
Proof. intros [A B]; constructor; [exact A|..]; intros i Hi; intros; apply (B i Hi). Qed.
Lemma hm_extc c h h' : hm c h h' -> extc c h h'.
Proof. intros [A B C D]; constructor; intros; rewrite ?B, ?C, ?A; auto; lia. Qed.
Lemma extc_ok c h h' x : extc c h h' -> x <> c -> ok h x -> ok h' x.
Proof.
  intros [A B C D] Hne Ho. apply (ok_same h); [exact Ho|]. pose proof Ho as [_ O1 O2 O3 _].
  split; [auto|split; [|split; [|exact A]]].
  - intros k v H. apply B. eauto.
  - intros n d H. rewrite C by eauto. auto.
Qed.
(** A change of a new collection only extends the heap. *)
Lemma hm_ext_new h h1 h2 x : ext h h1 -> h_next h <= x -> hm x h1 h2 -> ext h h2.
Proof.
  intros [A B] Hx [C D E F]. split; [lia|]. intros i Hi. destruct (B i Hi) as [G [H I]].
  rewrite D, E, F by lia. auto.
Qed.

(** From the copy on: names outside [kept] are popped, then the dimensions
    that are not used and not already gone from [c]. *)
Lemma finish h0 h1 h2 c x k v r kb :
  ok h0 c -> copied h0 c h1 x -> Listed h0 c k v -> (kb = true -> bounds_there h0 c v) ->
  (forall i, i < h_next h1 -> h_var h2 i = h_var h1 i) -> ok h2 c -> ok h2 x ->
  (forall n d, Registered h2 c n d -> Registered h0 c n d) ->
  c_dims (h_coll h2 x) = c_dims (h_coll h1 x) ->
  c_vars (h_coll h2 x) = rem (filter (fun k => negb (existsb (String.eqb k) (kept h0 v kb))) (map fst (c_vars (h_coll h0 c)))) (c_vars (h_coll h1 x)) ->
  Listed h1 x k r -> h_var h1 r = with_parent (h_var h0 v) (Some x) ->
  exists h3, (rc <-- get_coll x ;; r <-- lookup (c_vars rc) (v_name (h_var h0 v)) ;; drop_dims v r kb ;;; mret r) h2 = (h3, Ok r)
    /\ hm x h2 h3 /\ extracted h0 c v kb h3 x r /\ ok h3 c
    /\ ((forall n d, Registered h0 c n d -> Registered h2 c n d) -> exact_dims h0 c h3 x).
Proof.
  intros Ho Hcp Hl Hb Hx Hc2 Hx2 Hsub Hdims Hvars Hr Hrv.
  set (out := filter _ _) in Hvars.
  pose proof (cs_name _ _ (ok_cs _ _ Ho) _ _ Hl) as Hname.
  pose proof (copied_ok _ _ _ _ Ho Hcp) as Hx1.
  pose proof (cp_fresh _ _ _ _ Hcp) as Hfr.
  pose proof (ok_id _ _ Ho) as Hcid.
  assert (Hkeys : forall n w, In (n, w) (c_vars (h_coll h1 x)) -> In n (map fst (c_vars (h_coll h0 c)))).
  { intros n w Hin. destruct (copied_listed _ _ _ _ _ _ Hcp Hin) as [w0 [H _]]. now apply in_map with (f := fst) in H. }
  assert (HL2 : forall n w, Listed h2 x n w <-> Listed h1 x n w /\ In n (kept h0 v kb)).
  { intros n w. unfold Listed. rewrite Hvars, in_rem by apply (cs_once _ _ (ok_cs _ _ Hx1)).
    unfold out. rewrite in_filter_not. split.
    - intros [H1 H2]. split; [exact H1|]. destruct (in_dec string_dec n (kept h0 v kb)); [assumption|].
      exfalso. apply H2. split; [eapply Hkeys; eauto|assumption].
    - intros [H1 H2]. split; [exact H1|]. intros [_ H3]; contradiction. }
  assert (HR2 : forall n d, Registered h2 x n d <-> Registered h0 c n d).
  { intros n d. unfold Registered. now rewrite Hdims, (cp_dims _ _ _ _ Hcp). }
  assert (Hr2 : Listed h2 x k r) by (apply HL2; split; [exact Hr|left; exact Hname]).
  assert (Hvar12 : forall n w, Listed h1 x n w -> h_var h2 w = h_var h1 w).
  { intros n w H. apply Hx. apply (ok_vid _ _ Hx1 _ _ H). }
  assert (Hpar : v_parent (h_var h2 v) = Some c).
  { rewrite Hx by (pose proof (ok_vid _ _ Ho _ _ Hl); pose proof (proj1 (cp_ext _ _ _ _ Hcp)); lia).
    rewrite (proj1 (proj2 (cp_ext _ _ _ _ Hcp) v (ok_vid _ _ Ho _ _ Hl))). now apply (cs_parent _ _ (ok_cs _ _ Ho) k). }
  assert (Hbr : kb = true -> bounds_there h2 x r).
  { intros Hk b Eb. rewrite (Hvar12 _ _ Hr), Hrv in Eb. cbn in Eb.
    destruct (Hb Hk b Eb) as [w Hw].
    destruct (forall2_in_l _ _ _ _ (cp_vars _ _ _ _ Hcp) Hw) as [[b' w'] [Hin [A _]]]. cbn in A; subst b'.
    exists w'. apply HL2. split; [exact Hin|]. unfold kept. rewrite Hk, Eb. right; left; reflexivity. }
  destruct (drop_dims_run h2 c x v k r k kb Hc2 Hx2 (or_intror Hpar) Hr2) as [h3 [Ed [Hm Hcol]]].
  { intros Hk. apply bounds_there_res; auto. }
  { intros n Hn. apply in_map_iff in Hn as [[n' d] [<- Hin]]. apply in_map_iff. exists (n', d). split; [reflexivity|].
    apply HR2, Hsub, Hin. }
  set (gone := filter _ _) in Hcol.
  assert (HL3 : forall n w, Listed h3 x n w <-> Listed h2 x n w) by (intros; unfold Listed; now rewrite Hcol).
  assert (HR3 : forall n d, Registered h3 x n d <-> Registered h2 x n d /\ ~ In n gone).
  { intros; unfold Registered at 1; rewrite Hcol. cbn [set_dims c_dims]. apply in_rem, (cs_dims_once _ _ (ok_cs _ _ Hx2)). }
  assert (Hused : forall n w m, Listed h2 x n w -> In m (dim_names h2 w) -> In m (used_names h2 x r kb)).
  { intros n w m Hw Hm'. destruct (proj1 (HL2 _ _) Hw) as [Hw1 Hk]. unfold used_names. apply in_or_app.
    destruct Hk as [Hk|Hk].
    - left. assert (w = r) as ->; [|exact Hm'].
      apply (listed_get _ _ _ _ Hx2) in Hw. apply (listed_get _ _ _ _ Hx2) in Hr2. rewrite <- Hk, Hname in Hw. congruence.
    - right. destruct kb; [|destruct Hk]. destruct (v_bounds (h_var h0 v)) as [b|] eqn:Eb; [|destruct Hk].
      destruct Hk as [Hk|[]]. subst n. unfold bounds_res. rewrite (Hvar12 _ _ Hr), Hrv. cbn [with_parent v_bounds]. rewrite Eb.
      apply (listed_get _ _ _ _ Hx2) in Hw. rewrite Hw. exact Hm'. }
  assert (Hx3 : ok h3 x).
  { apply (ok_hm h2); auto.
    - rewrite Hcol; cbn. apply (cs_once _ _ (ok_cs _ _ Hx2)).
    - rewrite Hcol; cbn. apply rem_nodup, (cs_dims_once _ _ (ok_cs _ _ Hx2)).
    - intros; now apply HL3.
    - intros n d H; now apply HR3 in H.
    - intros n w names m d Hw Hn Hin Hreg. apply HR3. split; [exact Hreg|]. unfold gone. rewrite in_filter_not. intros [_ H]. apply H.
      eapply Hused; [apply HL3, Hw|]. unfold dim_names. now rewrite Hn. }
  exists h3. split; [|split; [exact Hm|split; [|split]]].
  - rewrite (bind_ok (get_coll x) _ h2 h2 _ eq_refl).
    rewrite (bind_ok _ _ h2 h2 r) by (apply lookup_some; rewrite Hname; now apply listed_get).
    rewrite (bind_ok _ _ _ _ _ Ed). reflexivity.
  - constructor.
    + exact Hx3.
    + lia.
    + rewrite Hname. now apply HL3.
    + intros n w Hw. apply HL3 in Hw. destruct (proj1 (HL2 _ _) Hw) as [Hw1 Hk]. split; [exact Hk|].
      destruct (copied_listed _ _ _ _ _ _ Hcp Hw1) as [w0 [A [B C]]]. split; [lia|]. exists w0. split; [exact A|].
      rewrite (hm_var _ _ _ Hm), (Hvar12 _ _ Hw1). exact C.
    + intros n Hn.
      assert (Hin0 : exists w0, Listed h0 c n w0).
      { destruct Hn as [<-|Hn]; [rewrite Hname; eauto|]. destruct kb; [|destruct Hn].
        destruct (v_bounds (h_var h0 v)) as [b|] eqn:Eb; [|destruct Hn]. destruct Hn as [<-|[]]. now apply Hb. }
      destruct Hin0 as [w0 Hw0].
      destruct (forall2_in_l _ _ _ _ (cp_vars _ _ _ _ Hcp) Hw0) as [[n' w'] [Hin [A _]]]. cbn in A; subst n'.
      exists w'. apply HL3, HL2. split; [exact Hin|exact Hn].
  - eapply hm_other; [exact Hm|lia|exact Hc2].
  - intros Hall n d. rewrite HR3, HR2. split.
    + intros [H1 H2]. split; [exact H1|].
      assert (Hin : In n (used_names h2 x r kb)).
      { destruct (in_dec string_dec n (used_names h2 x r kb)); [assumption|]. exfalso. apply H2. unfold gone. rewrite in_filter_not.
        split; [|assumption]. apply Hall in H1. now apply in_map with (f := fst) in H1. }
      unfold dim_names. rewrite (hm_var _ _ _ Hm). fold (dim_names h2).
      unfold used_names in Hin. apply in_app_or in Hin as [Hin|Hin].
      * exists k, r. split; [now apply HL3|exact Hin].
      * destruct kb; [|destruct Hin]. destruct (bounds_res h2 x r) as [[w|]|] eqn:Eb; try (destruct Hin; fail).
        destruct (bounds_listed _ _ _ _ Hx2 Eb) as [bn [_ Hw]]. exists bn, w. split; [now apply HL3|exact Hin].
    + intros [H1 [n' [w [Hw Hin]]]]. split; [exact H1|]. unfold gone. rewrite in_filter_not. intros [_ H]. apply H.
      eapply Hused; [apply HL3, Hw|]. unfold dim_names in *. now rewrite (hm_var _ _ _ Hm) in Hin.
Qed.

Lemma kept_ext h h' v kb : h_var h' v = h_var h v -> kept h' v kb = kept h v kb.
Proof. intros E; unfold kept; now rewrite E. Qed.

Lemma extract_keep_run h c k v kb :
  ok h c -> Listed h c k v -> (kb = true -> bounds_there h c v) ->
  exists h' x r, extract_keep v kb h = (h', Ok r) /\ ext h h' /\ extracted h c v kb h' x r /\ exact_dims h c h' x.
Proof.
  intros Ho Hl Hb. destruct (copy_var_run _ _ _ _ Ho Hl) as [h1 [x [r [E [Hcp [Hr Hrv]]]]]].
  pose proof (copied_ok _ _ _ _ Ho Hcp) as Hx1.
  pose proof (cp_ext _ _ _ _ Hcp) as Hext.
  pose proof (ok_ext _ _ _ Ho Hext) as Hc1.
  destruct (ext_same _ _ _ Ho Hext) as [Ecc [Evv _]].
  assert (Hl1 : Listed h1 c k v) by (unfold Listed; rewrite Ecc; exact Hl).
  assert (Hb1 : kb = true -> bounds_there h1 c v).
  { intros Hk b Hbv. rewrite (Evv _ _ Hl) in Hbv. destruct (Hb Hk b Hbv) as [w Hw]. exists w. unfold Listed; now rewrite Ecc. }
  pose proof (cs_parent _ _ (ok_cs _ _ Hx1) _ _ Hr) as Hrp.
  destruct (pop_vars_run x (filter (fun k => negb (existsb (String.eqb k) (kept h v kb))) (map fst (c_vars (h_coll h1 x)))) h1)
    as [h2 [E2 [Hm Hcol]]].
  { apply (cs_once _ _ (ok_cs _ _ Hx1)). }
  { apply NoDup_filter, (cs_once _ _ (ok_cs _ _ Hx1)). }
  { intros n Hn. now apply filter_In in Hn. }
  assert (Hne : c <> x) by (pose proof (cp_fresh _ _ _ _ Hcp); pose proof (ok_id _ _ Ho); lia).
  assert (Ho2 : ok h2 x).
  { apply (ok_hm h1); auto.
    - rewrite Hcol; cbn. apply rem_nodup, (cs_once _ _ (ok_cs _ _ Hx1)).
    - rewrite Hcol; cbn. apply (cs_dims_once _ _ (ok_cs _ _ Hx1)).
    - intros n w. unfold Listed. rewrite Hcol. cbn [set_vars c_vars]. rewrite in_rem by apply (cs_once _ _ (ok_cs _ _ Hx1)). tauto.
    - intros n d. unfold Registered. now rewrite Hcol.
    - intros n w names m d _ _ _. unfold Registered. now rewrite Hcol. }
  assert (Hkk : map fst (c_vars (h_coll h1 x)) = map fst (c_vars (h_coll h c)))
    by exact (forall2_fst _ _ _ (fun a b H => proj1 H) (cp_vars _ _ _ _ Hcp)).
  destruct (finish h h1 h2 c x k v r kb Ho Hcp Hl Hb) as [h3 [E3 [Hm3 [Hex [Hc3 Hdims]]]]]; auto.
  { intros i _. now rewrite (hm_var _ _ _ Hm). }
  { eapply hm_other; eauto. }
  { intros n d. unfold Registered. rewrite (hm_coll _ _ _ Hm) by exact Hne. now rewrite Ecc. }
  { now rewrite Hcol. }
  { rewrite Hcol, <- Hkk. reflexivity. }
  exists h3, x, r. split; [|split; [|split; [exact Hex|]]].
  - unfold extract_keep. rewrite (bind_ok _ _ _ _ _ E). rewrite (bind_ok (get_var v) _ h1 h1 _ eq_refl).
    rewrite (Evv _ _ Hl), (cs_parent _ _ (ok_cs _ _ Ho) _ _ Hl).
    rewrite (bind_ok _ _ h1 h2 tt).
    + rewrite (bind_ok (get_var v) _ h2 h2 _ eq_refl).
      rewrite (bind_ok _ _ h2 h2 x) by (apply parent_of_some; now rewrite (hm_var _ _ _ Hm)).
      rewrite (hm_var _ _ _ Hm), (Evv _ _ Hl). exact E3.
    + rewrite (bind_ok _ _ h1 h1 (kept h v kb)).
      2: { rewrite <- (kept_ext h h1) by now apply Evv with k. eapply keep_names_run; eauto. }
      rewrite (bind_ok _ _ h1 h1 x) by now apply parent_of_some.
      rewrite (bind_ok (get_coll x) _ h1 h1 _ eq_refl).
      rewrite pop_unkept_run; [exact E2|]. intros n w Hin. now apply (cs_name _ _ (ok_cs _ _ Hx1)).
  - pose proof (cp_fresh _ _ _ _ Hcp). eapply hm_ext_new; [|idtac|exact Hm3]; [|lia].
    eapply hm_ext_new; [exact Hext| |exact Hm]; lia.
  - apply Hdims. intros n d. unfold Registered. rewrite (hm_coll _ _ _ Hm) by exact Hne. now rewrite Ecc.
Qed.
Lemma extract_keep_gone h c k v :
  ok h c -> Listed h c k v -> ~ bounds_there h c v ->
  exists h', extract_keep v true h = (h', Err KeyError) /\ ext h h'.
Proof.
  intros Ho Hl Hb. destruct (copy_var_run _ _ _ _ Ho Hl) as [h1 [x [r [E [Hcp [Hr Hrv]]]]]].
  pose proof (cp_ext _ _ _ _ Hcp) as Hext.
  pose proof (ok_ext _ _ _ Ho Hext) as Hc1.
  destruct (ext_same _ _ _ Ho Hext) as [Ecc [Evv _]].
  exists h1. split; [|exact Hext].
  unfold extract_keep. rewrite (bind_ok _ _ _ _ _ E). rewrite (bind_ok (get_var v) _ h1 h1 _ eq_refl).
  rewrite (Evv _ _ Hl), (cs_parent _ _ (ok_cs _ _ Ho) _ _ Hl).
  apply bind_err, bind_err. eapply keep_names_gone; eauto.
  - unfold Listed; rewrite Ecc; exact Hl.
  - intros H. apply Hb. intros b Eb. unfold bounds_there in H. rewrite (Evv _ _ Hl) in H. destruct (H b Eb) as [w Hw].
    exists w. unfold Listed in Hw. now rewrite Ecc in Hw.
Qed.

(** ** Removal *)
(** The loop that pops the names from the tags and from the variables. *)
Lemma remove_loop c l : forall h, ok h c ->
  let '(h', res) := mfor l (fun rn =>
    cc <-- get_coll c ;; put_coll c (set_tags cc (map (fun t => (fst t, remove_first (snd t) rn)) (c_tags cc))) ;;; pop_var c rn) h in
  hm c h h' /\ ok h' c /\ c_dims (h_coll h' c) = c_dims (h_coll h c) /\ (res = Ok tt ->
    (forall n w, Listed h' c n w <-> Listed h c n w /\ ~ In n l)
    /\ c_tags (h_coll h' c) = map (fun t => (fst t, fold_left remove_first l (snd t))) (c_tags (h_coll h c))).
Proof.
  induction l as [|rn l IH]; intros h Ho; cbn [mfor].
  - unfold mret. split; [apply hm_refl|split; [exact Ho|split; [reflexivity|]]]. intros _. split; [intros; cbn; tauto|].
    cbn [fold_left]. rewrite <- (map_id (c_tags (h_coll h c))) at 1. apply map_ext. now intros [].
  - set (h1 := hput h c (set_tags (h_coll h c) (map (fun t => (fst t, remove_first (snd t) rn)) (c_tags (h_coll h c))))).
    assert (Ho1 : ok h1 c) by now apply ok_tags.
    assert (Hc1 : h_coll h1 c = set_tags (h_coll h c) (map (fun t => (fst t, remove_first (snd t) rn)) (c_tags (h_coll h c))))
      by (unfold h1, hput; cbn; now rewrite upd_same).
    assert (Em1 : dmem String.eqb (c_vars (h_coll h1 c)) rn = dmem String.eqb (c_vars (h_coll h c)) rn) by (rewrite Hc1; reflexivity).
    destruct (dmem String.eqb (c_vars (h_coll h c)) rn) eqn:Em.
    + set (h2 := hput h1 c (set_vars (h_coll h1 c) (dremove String.eqb (c_vars (h_coll h1 c)) rn))).
      assert (Ho2 : ok h2 c) by now apply ok_pop_var.
      assert (Hc2 : h_coll h2 c = set_vars (h_coll h1 c) (dremove String.eqb (c_vars (h_coll h1 c)) rn))
        by (unfold h2, hput; cbn; now rewrite upd_same).
      rewrite (bind_ok _ _ h h2 tt).
      2: { rewrite (bind_ok (get_coll c) _ h h _ eq_refl). rewrite (bind_ok (put_coll c _) _ h h1 tt) by reflexivity.
           unfold pop_var. rewrite (bind_ok (get_coll c) _ h1 h1 _ eq_refl). rewrite Em1. reflexivity. }
      specialize (IH h2 Ho2). destruct (mfor l _ h2) as [h' res]. destruct IH as [A [B [E C]]].
      split; [|split; [exact B|split]].
      * eapply hm_trans; [eapply hm_trans; [apply hm_hput|apply hm_hput]|exact A].
      * rewrite E, Hc2, Hc1. reflexivity.
      * intros Hr. destruct (C Hr) as [D F]. split.
        -- intros n w. rewrite D. unfold Listed at 1. rewrite Hc2, Hc1. cbn [set_vars set_tags c_vars].
           rewrite in_dremove_iff by apply (cs_once _ _ (ok_cs _ _ Ho)). cbn [In]. unfold Listed. intuition congruence.
        -- rewrite F, Hc2, Hc1. cbn [set_vars set_tags c_tags]. rewrite map_map. reflexivity.
    + rewrite (bind_err _ _ h h1 KeyError).
      * split; [apply hm_hput|split; [exact Ho1|split; [rewrite Hc1; reflexivity|discriminate]]].
      * rewrite (bind_ok (get_coll c) _ h h _ eq_refl). rewrite (bind_ok (put_coll c _) _ h h1 tt) by reflexivity.
        unfold pop_var. rewrite (bind_ok (get_coll c) _ h1 h1 _ eq_refl). rewrite Em1. reflexivity.
Qed.

Lemma used_by_false h c d : used_by (h_coll h c) h d = false ->
  forall k v names, Listed h c k v -> v_dims (h_var h v) = Some names -> ~ In d names.
Proof.
  unfold used_by. intros H k v names Hl Hn Hin.
  assert (Ht : existsb (fun kv => match v_dims (h_var h (snd kv)) with Some l => existsb (String.eqb d) l | None => false end) (c_vars (h_coll h c)) = true).
  { apply existsb_exists. exists (k, v). split; [exact Hl|]. cbn [snd]. rewrite Hn. now apply existsb_eqb_in. }
  congruence.
Qed.
Lemma used_by_true h c d : used_by (h_coll h c) h d = true -> exists k v, Listed h c k v /\ In d (dim_names h v).
Proof.
  unfold used_by. intros H. apply existsb_exists in H as [[k v] [Hin E]]. cbn [snd] in E. exists k, v. split; [exact Hin|].
  unfold dim_names. destruct (v_dims (h_var h v)); [now apply existsb_eqb_in|discriminate].
Qed.

Lemma orphan_loop c l : forall h, ok h c ->
  (forall d, In d l -> forall k v names, Listed h c k v -> v_dims (h_var h v) = Some names -> ~ In d names) ->
  let '(h', res) := mfor l (fun d => pop_dim c d) h in
  hm c h h' /\ ok h' c /\ c_vars (h_coll h' c) = c_vars (h_coll h c) /\ c_tags (h_coll h' c) = c_tags (h_coll h c)
  /\ (forall n d, Registered h' c n d -> Registered h c n d)
  /\ (res = Ok tt -> forall n d, Registered h' c n d <-> Registered h c n d /\ ~ In n l).
Proof.
  induction l as [|a l IH]; intros h Ho Hu; cbn [mfor].
  - unfold mret. split; [apply hm_refl|split; [exact Ho|]]. repeat split; auto; tauto.
  - destruct (dmem String.eqb (c_dims (h_coll h c)) a) eqn:Em.
    + set (h1 := hput h c (set_dims (h_coll h c) (dremove String.eqb (c_dims (h_coll h c)) a))).
      assert (Ho1 : ok h1 c) by (apply ok_pop_dim; [exact Ho|]; intros; eapply Hu; eauto; now left).
      assert (Hc1 : h_coll h1 c = set_dims (h_coll h c) (dremove String.eqb (c_dims (h_coll h c)) a)) by (unfold h1, hput; cbn; now rewrite upd_same).
      rewrite (bind_ok _ _ h h1 tt) by (unfold pop_dim, mbind, get_coll; rewrite Em; reflexivity).
      specialize (IH h1 Ho1).
      assert (Hl1 : forall k v, Listed h1 c k v <-> Listed h c k v) by (intros; unfold Listed; now rewrite Hc1).
      destruct (mfor l _ h1) as [h' res].
      destruct IH as [A [B [C [D [E F]]]]].
      { intros d Hd k v names Hl Hn. apply Hl1 in Hl. eapply Hu; [now right|exact Hl|exact Hn]. }
      assert (Hr1 : forall n d, Registered h1 c n d <-> Registered h c n d /\ n <> a).
      { intros. unfold Registered. rewrite Hc1. cbn [set_dims c_dims]. apply in_dremove_iff, (cs_dims_once _ _ (ok_cs _ _ Ho)). }
      split; [eapply hm_trans; [apply hm_hput|exact A]|]. split; [exact B|]. split; [rewrite C, Hc1; reflexivity|].
      split; [rewrite D, Hc1; reflexivity|]. split; [intros n d H; apply E, Hr1 in H; tauto|].
      intros Hres n d. rewrite (F Hres), Hr1. cbn [In]. intuition congruence.
    + rewrite (bind_err _ _ h h KeyError) by (unfold pop_dim, mbind, get_coll; rewrite Em; reflexivity).
      split; [apply hm_refl|split; [exact Ho|]]. repeat split; auto; discriminate.
Qed.

(** Removal: whatever happens, the collection and all others stay in order. *)
Record removed (h : heap) (c : Z) (v : Z) (kb : bool) (h' : heap) (x r : Z) : Prop := {
  rm_ext : extracted h c v kb h' x r;
  rm_dims : exact_dims h c h' x;
  rm_vars : forall n w, Listed h' c n w <-> Listed h c n w /\ ~ In n (kept h v kb);
  rm_tags : c_tags (h_coll h' c) = map (fun t => (fst t, fold_left remove_first (kept h v kb) (snd t))) (c_tags (h_coll h c));
  rm_left : forall n d, Registered h' c n d <-> Registered h c n d /\
     ~ ((exists k w, Listed h c k w /\ In k (kept h v kb) /\ In n (dim_names h w)) /\ forall k w, Listed h' c k w -> ~ In n (dim_names h' w)) }.

Lemma in_dedup l k : In k (dedup l) <-> In k l.
Proof.
  induction l as [|a l IH]; cbn [dedup]; [tauto|]. destruct (existsb (String.eqb a) l) eqn:E.
  - apply existsb_eqb_in in E. rewrite IH. cbn [In]. split; [tauto|]. intros [->|]; auto.
  - cbn [In]. rewrite IH. tauto.
Qed.

Lemma dims_of_kept h c name v kb : ok h c -> Listed h c name v -> (kb = true -> bounds_there h c v) ->
  forall n, (exists k w, Listed h c k w /\ In k (kept h v kb) /\ In n (dim_names h w)) <->
    In n (dim_names h v ++ (if kb then match bounds_res h c v with Ok (Some w) => dim_names h w | _ => [] end else []))%list.
Proof.
  intros Ho Hl Hb n. rewrite in_app_iff. split.
  - intros [k [w [Hw [Hk Hn]]]]. destruct Hk as [Hk|Hk].
    + left. rewrite (cs_name _ _ (ok_cs _ _ Ho) _ _ Hl) in Hk. subst k.
      apply (listed_get _ _ _ _ Ho) in Hw. apply (listed_get _ _ _ _ Ho) in Hl. congruence.
    + right. destruct kb; [|destruct Hk]. unfold bounds_res. destruct (v_bounds (h_var h v)) as [b|]; [|destruct Hk].
      destruct Hk as [->|[]]. apply (listed_get _ _ _ _ Ho) in Hw. now rewrite Hw.
  - intros [Hn|Hn].
    + exists name, v. split; [exact Hl|]. split; [left; now apply (cs_name _ _ (ok_cs _ _ Ho))|exact Hn].
    + destruct kb; [|destruct Hn]. destruct (bounds_res h c v) as [[w|]|] eqn:Eb; try (destruct Hn; fail).
      destruct (bounds_listed _ _ _ _ Ho Eb) as [b [Ev Hw]]. exists b, w. split; [exact Hw|]. split; [|exact Hn].
      unfold kept. rewrite Ev. right; left; reflexivity.
Qed.

Lemma remove_rest h c name v kb D : ok h c -> Listed h c name v -> (kb = true -> bounds_there h c v) ->
  (forall n, In n D <-> exists k w, Listed h c k w /\ In k (kept h v kb) /\ In n (dim_names h w)) ->
  let '(h', res) := (ret <-- extract_keep v kb ;;
    mfor (kept h v kb) (fun rn =>
      cc <-- get_coll c ;; put_coll c (set_tags cc (map (fun t => (fst t, remove_first (snd t) rn)) (c_tags cc))) ;;;
      pop_var c rn) ;;;
    remove_orphaned_dimensions c D ;;; mret ret) h in
  extc c h h' /\ ok h' c /\ (forall n d, Registered h' c n d -> Registered h c n d)
  /\ forall r, res = Ok r -> exists x, removed h c v kb h' x r.
Proof.
  intros Ho Hl Hb HD. destruct (extract_keep_run _ _ _ _ kb Ho Hl Hb) as [h1 [x [r [E [Hext [Hex Hdims]]]]]].
  rewrite (bind_ok _ _ _ _ _ E).
  pose proof (ok_ext _ _ _ Ho Hext) as Ho1.
  destruct (ext_same _ _ _ Ho Hext) as [Ecc [Evv [Edd _]]].
  assert (HL1 : forall n w, Listed h1 c n w <-> Listed h c n w) by (intros; unfold Listed; now rewrite Ecc).
  assert (HR1 : forall n w, Registered h1 c n w <-> Registered h c n w) by (intros; unfold Registered; now rewrite Ecc).
  pose proof (remove_loop c (kept h v kb) h1 Ho1) as Hloop.
  destruct (mfor (kept h v kb) _ h1) as [h2 res2] eqn:E2. destruct Hloop as [Hm2 [Ho2 [HD2 Hok2]]].
  assert (Hx2 : extc c h h2) by (eapply extc_trans; [apply ext_extc, Hext|apply hm_extc, Hm2]).
  assert (HR2 : forall n w, Registered h2 c n w <-> Registered h c n w) by (intros; unfold Registered at 1; rewrite HD2; apply HR1).
  destruct res2 as [[]|e].
  2: { rewrite (bind_err _ _ _ _ _ E2). split; [exact Hx2|split; [exact Ho2|split; [|discriminate]]]. intros n d; apply HR2. }
  destruct (Hok2 eq_refl) as [HL2 HT2].
  rewrite (bind_ok _ _ _ _ _ E2).
  pose proof (orphan_loop c (filter (fun d => negb (used_by (h_coll h2 c) h2 d)) D) h2 Ho2) as Hor.
  destruct (mfor (filter (fun d => negb (used_by (h_coll h2 c) h2 d)) D) (fun d => pop_dim c d) h2) as [h3 res3] eqn:E3.
  assert (E3' : remove_orphaned_dimensions c D h2 = (h3, res3)) by exact E3.
  destruct Hor as [Hm3 [Ho3 [HV3 [HT3 [HR3 HR3']]]]].
  { intros d Hd. apply filter_In in Hd as [_ Hd]. apply used_by_false. destruct (used_by (h_coll h2 c) h2 d); [discriminate|reflexivity]. }
  assert (Hx3 : extc c h h3) by (eapply extc_trans; [exact Hx2|apply hm_extc, Hm3]).
  assert (HR : forall n d, Registered h3 c n d -> Registered h c n d) by (intros; apply HR2; auto).
  destruct res3 as [[]|e].
  2: { rewrite (bind_err _ _ _ _ _ E3'). split; [exact Hx3|split; [exact Ho3|split; [exact HR|discriminate]]]. }
  rewrite (bind_ok _ _ _ _ _ E3'). unfold mret.
  split; [exact Hx3|split; [exact Ho3|split; [exact HR|]]].
  intros r0 Hr0; injection Hr0 as <-. exists x.
  assert (HL3 : forall n w, Listed h3 c n w <-> Listed h2 c n w) by (intros; unfold Listed; now rewrite HV3).
  assert (Hxc : x <> c) by (pose proof (ex_fresh _ _ _ _ _ _ _ Hex); pose proof (ok_id _ _ Ho); lia).
  pose proof (hm_trans _ _ _ _ Hm2 Hm3) as Hm13.
  assert (HLx : forall n w, Listed h3 x n w <-> Listed h1 x n w) by (intros; unfold Listed; now rewrite (hm_coll _ _ _ Hm13)).
  assert (HRx : forall n w, Registered h3 x n w <-> Registered h1 x n w) by (intros; unfold Registered; now rewrite (hm_coll _ _ _ Hm13)).
  constructor.
  - destruct Hex as [A B C F G]. constructor.
    + eapply hm_other; [exact Hm13|exact Hxc|exact A].
    + exact B.
    + now apply HLx.
    + intros k w H. apply HLx in H. rewrite (hm_var _ _ _ Hm13). auto.
    + intros k H. destruct (G k H) as [w' Hw']. exists w'. now apply HLx.
  - intros n d. rewrite HRx, (Hdims n d). unfold dim_names. rewrite (hm_var _ _ _ Hm13).
    split; intros [A [k [w [B C]]]]; (split; [exact A|exists k, w; split; [now apply HLx|exact C]]).
  - intros n w. now rewrite HL3, HL2, HL1.
  - rewrite HT3, HT2, Ecc. reflexivity.
  - intros n d. rewrite (HR3' eq_refl), HR2, filter_In.
    assert (Hu : negb (used_by (h_coll h2 c) h2 n) = true <-> forall k w, Listed h3 c k w -> ~ In n (dim_names h3 w)).
    { unfold dim_names. rewrite (hm_var _ _ _ Hm3). split.
      - intros Hneg k w Hw. apply HL3 in Hw. destruct (v_dims (h_var h2 w)) eqn:Ed; [|tauto].
        eapply used_by_false; [|exact Hw|exact Ed]. destruct (used_by _ _ _); [discriminate|reflexivity].
      - intros Hall. destruct (used_by (h_coll h2 c) h2 n) eqn:Eu; [|reflexivity].
        apply used_by_true in Eu as [k [w [Hw Hin]]]. exfalso. eapply Hall; [apply HL3, Hw|exact Hin]. }
    rewrite Hu, (HD n). tauto.
Qed.

Lemma remove_variable_run h c name kb : ok h c ->
  let '(h', res) := remove_variable c name kb h in
  extc c h h' /\ ok h' c /\ (forall n d, Registered h' c n d -> Registered h c n d)
  /\ forall r, res = Ok r -> exists v x, Listed h c name v /\ removed h c v kb h' x r.
Proof.
  intros Ho. unfold remove_variable. rewrite (bind_ok (get_coll c) _ h h _ eq_refl).
  destruct (dget String.eqb (c_vars (h_coll h c)) name) as [v|] eqn:Ev.
  2: { rewrite (bind_err _ _ h h KeyError) by now apply lookup_none.
       split; [apply extc_refl|split; [exact Ho|split; [auto|discriminate]]]. }
  rewrite (bind_ok _ _ h h v) by now apply lookup_some.
  assert (Hl : Listed h c name v) by now apply listed_get.
  rewrite (bind_ok _ _ h h (dim_names h v)) by (eapply dimension_names_run; eauto).
  rewrite (bind_ok (get_var v) _ h h _ eq_refl).
  assert (Hgo : (kb = true -> bounds_there h c v) \/ (kb = true /\ ~ bounds_there h c v)).
  { destruct kb; [|left; discriminate]. destruct (bounds_dec h c v Ho); auto. }
  destruct Hgo as [Hb|[-> Hb]].
  2: { rewrite (bind_err _ _ h h KeyError) by (rewrite (bounds_of_run _ _ _ _ Ho Hl), (bounds_gone_res _ _ _ Ho Hb); reflexivity).
       split; [apply extc_refl|split; [exact Ho|split; [auto|discriminate]]]. }
  assert (Hfin : forall D, (forall n, In n D <-> In n (dim_names h v ++ (if kb then match bounds_res h c v with Ok (Some w) => dim_names h w | _ => [] end else []))%list) ->
    let '(h', res) := (ret <-- extract_keep v kb ;;
    mfor (kept h v kb) (fun rn =>
      cc <-- get_coll c ;; put_coll c (set_tags cc (map (fun t => (fst t, remove_first (snd t) rn)) (c_tags cc))) ;;;
      pop_var c rn) ;;;
    remove_orphaned_dimensions c D ;;; mret ret) h in
    extc c h h' /\ ok h' c /\ (forall n d, Registered h' c n d -> Registered h c n d)
    /\ forall r, res = Ok r -> exists v x, Listed h c name v /\ removed h c v kb h' x r).
  { intros D HD. pose proof (remove_rest h c name v kb D Ho Hl Hb) as Hr.
    revert Hr. match goal with |- _ -> let '(_, _) := ?m in _ => destruct m as [h' res] end. intros Hr. destruct Hr as [A [B [C F]]].
    - intros n. rewrite HD, <- dims_of_kept; eauto. reflexivity.
    - split; [exact A|split; [exact B|split; [exact C|]]]. intros r E. destruct (F r E) as [x Hx]. exists v, x. auto. }
  destruct kb.
  - destruct (bounds_there_res _ _ _ Ho (Hb eq_refl)) as [b Eb].
    rewrite (bind_ok _ _ h h b) by (rewrite (bounds_of_run _ _ _ _ Ho Hl), Eb; reflexivity).
    destruct b as [w|].
    + destruct (bounds_listed _ _ _ _ Ho Eb) as [bn [E Hw]].
      rewrite (bind_ok _ _ h h ([v_name (h_var h v); v_name (h_var h w)], dedup (dim_names h v ++ dim_names h w)%list)).
      2: { rewrite (bind_ok (get_var w) _ h h _ eq_refl). rewrite (bind_ok _ _ h h (dim_names h w)) by (eapply dimension_names_run; eauto). reflexivity. }
      cbn [fst snd].
      assert (Ek : [v_name (h_var h v); v_name (h_var h w)] = kept h v true).
      { unfold kept. rewrite E. now rewrite (cs_name _ _ (ok_cs _ _ Ho) _ _ Hw). }
      rewrite Ek. apply Hfin. intros n. rewrite Eb. apply in_dedup.
    + rewrite (bind_ok _ _ h h ([v_name (h_var h v)], dim_names h v)) by reflexivity. cbn [fst snd].
      assert (Ek : [v_name (h_var h v)] = kept h v true).
      { unfold kept. unfold bounds_res in Eb. destruct (v_bounds (h_var h v)); [|reflexivity]. destruct (dget _ _ _) in Eb; discriminate. }
      rewrite Ek. apply Hfin. intros n. rewrite Eb, app_nil_r. reflexivity.
  - rewrite (bind_ok _ _ h h None) by reflexivity.
    rewrite (bind_ok _ _ h h ([v_name (h_var h v)], dim_names h v)) by reflexivity. cbn [fst snd].
    change [v_name (h_var h v)] with (kept h v false). apply Hfin. intros n. rewrite app_nil_r. reflexivity.
Qed.

Lemma bind_cong {A B} (m1 m2 : M A) (f : A -> M B) h : m1 h = m2 h -> mbind m1 f h = mbind m2 f h.
Proof. intros E; unfold mbind; now rewrite E. Qed.

Lemma remove_list c l : forall h, ok h c ->
  let '(h', res) := mfor l (fun k => _ <-- remove_variable c k true ;; mret tt) h in
  extc c h h' /\ ok h' c /\ (forall n d, Registered h' c n d -> Registered h c n d)
  /\ (res = Ok tt -> forall n w, Listed h' c n w -> Listed h c n w /\ ~ In n l).
Proof.
  induction l as [|k l IH]; intros h Ho; cbn [mfor].
  - unfold mret. split; [apply extc_refl|split; [exact Ho|]]. split; auto.
  - pose proof (remove_variable_run h c k true Ho) as Hr.
    destruct (remove_variable c k true h) as [h1 [r|e]] eqn:E; destruct Hr as [A [B [C D]]].
    + rewrite (bind_ok _ _ h h1 tt) by (now rewrite (bind_ok _ _ _ _ _ E)).
      specialize (IH h1 B). destruct (mfor l _ h1) as [h' res]. destruct IH as [A' [B' [C' D']]].
      split; [eapply extc_trans; eauto|split; [exact B'|split; [auto|]]].
      intros Hres n w Hw. destruct (D' Hres n w Hw) as [H1 H2]. destruct (D r eq_refl) as [v [x [Hv Hrm]]].
      apply (rm_vars _ _ _ _ _ _ _ Hrm) in H1 as [H1 H3]. split; [exact H1|]. cbn [In]. intros [<-|H4]; [|contradiction].
      apply H3. left. now apply (cs_name _ _ (ok_cs _ _ Ho)).
    + rewrite (bind_err _ _ h h1 e) by (now rewrite (bind_err _ _ _ _ _ E)).
      split; [exact A|split; [exact B|split; [exact C|discriminate]]].
Qed.

Lemma hm_extc_new c h h1 h2 x : extc c h h1 -> h_next h <= x -> hm x h1 h2 -> extc c h h2.
Proof.
  intros [A B C D] Hx [E F G H]. constructor; [lia|..]; intros i Hi; [rewrite F|rewrite G|intros Hne; rewrite H by lia]; auto.
Qed.

Lemma extract_clean_run h c k v kb : ok h c -> Listed h c k v ->
  let '(h', res) := extract_clean v kb h in
  extc c h h' /\ ok h' c /\ forall r, res = Ok r -> exists x, extracted h c v kb h' x r
    /\ (forall n w, Listed h' c n w -> Listed h c n w /\ ~ In n (kept h v kb)).
Proof.
  intros Ho Hl. destruct (copy_var_run _ _ _ _ Ho Hl) as [h1 [x [r [E [Hcp [Hr Hrv]]]]]].
  pose proof (copied_ok _ _ _ _ Ho Hcp) as Hx1.
  pose proof (cp_ext _ _ _ _ Hcp) as Hext.
  pose proof (ok_ext _ _ _ Ho Hext) as Hc1.
  pose proof (cp_fresh _ _ _ _ Hcp) as Hfr. pose proof (ok_id _ _ Ho) as Hcid.
  destruct (ext_same _ _ _ Ho Hext) as [Ecc [Evv _]].
  assert (Hl1 : Listed h1 c k v) by (unfold Listed; rewrite Ecc; exact Hl).
  pose proof (cs_parent _ _ (ok_cs _ _ Hx1) _ _ Hr) as Hrp.
  assert (Hkp : kept h1 v kb = kept h v kb) by (apply kept_ext, (Evv k), Hl).
  unfold extract_clean. rewrite (bind_ok _ _ _ _ _ E). rewrite (bind_ok (get_var v) _ h1 h1 _ eq_refl).
  rewrite (Evv _ _ Hl), (cs_parent _ _ (ok_cs _ _ Ho) _ _ Hl).
  assert (Hgo : (kb = true -> bounds_there h1 c v) \/ (kb = true /\ ~ bounds_there h1 c v)).
  { destruct kb; [|left; discriminate]. destruct (bounds_dec h1 c v Hc1); auto. }
  destruct Hgo as [Hb1|[-> Hb1]].
  2: { rewrite (bind_err _ _ h1 h1 KeyError) by (apply bind_err; eapply keep_names_gone; eauto).
       split; [apply ext_extc, Hext|split; [exact Hc1|discriminate]]. }
  assert (Hb : kb = true -> bounds_there h c v).
  { intros Hk b Eb. rewrite <- (Evv _ _ Hl) in Eb. destruct (Hb1 Hk b Eb) as [w Hw]. exists w. unfold Listed in *. now rewrite Ecc in Hw. }
  pose proof (remove_list c (kept h v kb) h1 Hc1) as Hrm.
  destruct (mfor (kept h v kb) (fun k => _ <-- remove_variable c k true ;; mret tt) h1) as [h2 res2] eqn:E2.
  destruct Hrm as [Hx12 [Hc2 [HR2 HL2]]].
  set (out := filter (fun k => negb (existsb (String.eqb k) (kept h v kb))) (map fst (c_vars (h_coll h1 c)))).
  assert (Hblock : forall (f : unit -> M Z), mbind (keep <-- keep_names v kb ;; rp <-- parent_of r ;; cc <-- get_coll c ;;
      let out := filter (fun k => negb (existsb (String.eqb k) keep)) (map fst (c_vars cc)) in
      mfor keep (fun k => _ <-- remove_variable c k true ;; mret tt) ;;; mfor out (fun k => pop_var rp k)) f h1
    = mbind (mfor (kept h v kb) (fun k => _ <-- remove_variable c k true ;; mret tt) ;;; mfor out (fun k => pop_var x k)) f h1).
  { intros f. apply bind_cong. rewrite (bind_ok _ _ h1 h1 (kept h v kb)) by (rewrite <- Hkp; eapply keep_names_run; eauto).
    rewrite (bind_ok _ _ h1 h1 x) by now apply parent_of_some. rewrite (bind_ok (get_coll c) _ h1 h1 _ eq_refl). reflexivity. }
  rewrite Hblock. clear Hblock.
  assert (Hx02 : extc c h h2) by (eapply extc_trans; [apply ext_extc, Hext|exact Hx12]).
  destruct res2 as [[]|e].
  2: { rewrite (bind_err _ _ h1 h2 e) by now apply bind_err. split; [exact Hx02|split; [exact Hc2|discriminate]]. }
  assert (Hne : x <> c) by lia.
  pose proof (extc_ok _ _ _ _ Hx12 Hne Hx1) as Hx2.
  pose proof (xc_coll _ _ _ Hx12 x ltac:(lia) Hne) as Ecx.
  assert (Hkk : map fst (c_vars (h_coll h1 x)) = map fst (c_vars (h_coll h c)))
    by exact (forall2_fst _ _ _ (fun a b H => proj1 H) (cp_vars _ _ _ _ Hcp)).
  destruct (pop_vars_run x out h2) as [h3 [E3 [Hm3 Hcol]]].
  { apply (cs_once _ _ (ok_cs _ _ Hx2)). }
  { apply NoDup_filter, (cs_once _ _ (ok_cs _ _ Hc1)). }
  { intros n Hn. apply filter_In in Hn as [Hn _]. rewrite Ecx, Hkk. now rewrite <- Ecc. }
  rewrite (bind_ok _ _ h1 h3 tt) by (now rewrite (bind_ok _ _ _ _ _ E2)).
  assert (Ho3 : ok h3 x).
  { apply (ok_hm h2); auto.
    - rewrite Hcol; cbn. apply rem_nodup, (cs_once _ _ (ok_cs _ _ Hx2)).
    - rewrite Hcol; cbn. apply (cs_dims_once _ _ (ok_cs _ _ Hx2)).
    - intros n w. unfold Listed. rewrite Hcol. cbn [set_vars c_vars]. rewrite in_rem by apply (cs_once _ _ (ok_cs _ _ Hx2)). tauto.
    - intros n d. unfold Registered. now rewrite Hcol.
    - intros n w names m d _ _ _. unfold Registered. now rewrite Hcol. }
  assert (Hvar : forall i, i < h_next h1 -> h_var h3 i = h_var h1 i).
  { intros i Hi. rewrite (hm_var _ _ _ Hm3). now apply (xc_var _ _ _ Hx12). }
  destruct (finish h h1 h3 c x k v r kb Ho Hcp Hl Hb) as [h4 [E4 [Hm4 [Hex [Hc4 _]]]]]; auto.
  { eapply hm_other; [exact Hm3|auto|exact Hc2]. }
  { intros n d. unfold Registered at 1. rewrite (hm_coll _ _ _ Hm3) by auto. intros H. apply HR2 in H. unfold Registered in *. now rewrite Ecc in H. }
  { rewrite Hcol, Ecx. reflexivity. }
  { rewrite Hcol, Ecx. unfold out. rewrite Ecc. reflexivity. }
  rewrite (bind_ok (get_var v) _ h3 h3 _ eq_refl).
  pose proof (ok_vid _ _ Hx1 _ _ Hr) as Hrid. pose proof (ok_vid _ _ Hc1 _ _ Hl1) as Hvid.
  rewrite (bind_ok _ _ h3 h3 x) by (apply parent_of_some; rewrite Hvar by exact Hrid; exact Hrp).
  rewrite (Hvar v Hvid), (Evv _ _ Hl), E4.
  split; [|split; [exact Hc4|]].
  - eapply hm_extc_new; [|idtac|exact Hm4]; [|lia]. eapply hm_extc_new; [exact Hx02| |exact Hm3]; lia.
  - intros r0 Hr0; injection Hr0 as <-. exists x. split; [exact Hex|]. intros n w. unfold Listed at 1.
    rewrite (hm_coll _ _ _ Hm4), (hm_coll _ _ _ Hm3) by auto. intros H. destruct (HL2 eq_refl n w H) as [H1 H2].
    split; [|exact H2]. unfold Listed in *. now rewrite Ecc in H1.
Qed.

Lemma extract_run h c k v kb cl : ok h c -> Listed h c k v ->
  let '(h', res) := extract v kb cl h in
  extc c h h' /\ ok h' c /\ forall r, res = Ok r -> exists x, extracted h c v kb h' x r.
Proof.
  intros Ho Hl. unfold extract. destruct cl.
  - pose proof (extract_clean_run h c k v kb Ho Hl) as H. destruct (extract_clean v kb h) as [h' res].
    destruct H as [A [B C]]. split; [exact A|split; [exact B|]]. intros r Hr. destruct (C r Hr) as [x [Hx _]]. eauto.
  - assert (Hgo : (kb = true -> bounds_there h c v) \/ (kb = true /\ ~ bounds_there h c v)).
    { destruct kb; [|left; discriminate]. destruct (bounds_dec h c v Ho); auto. }
    destruct Hgo as [Hb|[-> Hb]].
    + destruct (extract_keep_run _ _ _ _ kb Ho Hl Hb) as [h' [x [r [E [Hext [Hex _]]]]]]. rewrite E.
      split; [apply ext_extc, Hext|split; [eapply ok_ext; eauto|]]. intros r0 H; injection H as <-. eauto.
    + destruct (extract_keep_gone _ _ _ _ Ho Hl Hb) as [h' [E Hext]]. rewrite E.
      split; [apply ext_extc, Hext|split; [eapply ok_ext; eauto|discriminate]].
Qed.

Lemma inv_extc L c h h' : inv L h -> extc c h h' -> ok h' c -> inv L h'.
Proof.
  intros Hi Hx Hc y Hy. destruct (Z.eq_dec y c) as [->|Hne]; [exact Hc|]. eapply extc_ok; eauto.
Qed.
