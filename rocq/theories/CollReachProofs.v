(** Adding, constructing and renaming; the invariant of histories. *)
From Verif Require Import Py Lib CollModel CollSpec DmapProofs CollProofs CollInvProofs CollExtractProofs.
Local Open Scope string_scope.
Local Open Scope Z_scope.

Lemma Forall2_in_impl {A B} (P Q : A -> B -> Prop) la lb :
  (forall a b, In b lb -> P a b -> Q a b) -> Forall2 P la lb -> Forall2 Q la lb.
Proof.
  intros Himp HP; induction HP; constructor; [apply Himp; [now left|assumption]|].
  apply IHHP. intros; apply Himp; [now right|assumption].
Qed.
Lemma dset_absent {V} (d : list (string * V)) k v : ~ In k (map fst d) -> dset String.eqb d k v = (d ++ [(k, v)])%list.
Proof.
  induction d as [|[k' v'] d IH]; cbn [dset map fst app]; intros H; [reflexivity|].
  destruct (String.eqb_spec k k') as [->|]; [exfalso; apply H; now left|]. rewrite IH; [reflexivity|]. intros Hx; apply H; now right.
Qed.

(** The dimensions of a variable value fit the registered ones. *)
Definition fits (h : heap) (c : Z) (x : var) : Prop :=
  forall names, v_dims x = Some names ->
    NoDup names /\ (forall n, In n names -> exists d, Registered h c n d) /\
    (forall shape, v_value x = Some shape -> Forall2 (fun s n => forall d, Registered h c n d -> d_size (h_dim h d) = None \/ d_size (h_dim h d) = Some s) shape names).
Lemma ok_fits h c k v : ok h c -> Listed h c k v -> fits h c (h_var h v).
Proof. intros [[C1 C2 C3 C4 C5 C6 C7] O1 O2 O3 O4] Hl names Hn. repeat split; eauto. Qed.
Lemma ok_intro h c :
  NoDup (map fst (c_vars (h_coll h c))) -> NoDup (map fst (c_dims (h_coll h c))) -> c < h_next h ->
  (forall n d, Registered h c n d -> d_name (h_dim h d) = n /\ d < h_next h) ->
  (forall k v, Listed h c k v -> v_name (h_var h v) = k /\ v_parent (h_var h v) = Some c /\ v < h_next h /\ fits h c (h_var h v)) ->
  ok h c.
Proof.
  intros N1 N2 Hc HR HV. constructor; [constructor|..]; auto.
  - intros k v H; apply (HV k v H).
  - intros k v H; apply (HV k v H).
  - intros n d H; apply (HR n d H).
  - intros k v names H Hn. apply (HV k v H). exact Hn.
  - intros k v names shape H Hn. apply (HV k v H). exact Hn.
  - intros k v H; apply (HV k v H).
  - intros n d H; apply (HR n d H).
  - intros k v names H Hn. apply (HV k v H). exact Hn.
Qed.

(** ** Dimensions *)
Lemma add_dimension_run h c d check : ok h c -> d < h_next h ->
  let '(h', res) := add_dimension c d false check h in
  hm c h h' /\ ok h' c /\ c_vars (h_coll h' c) = c_vars (h_coll h c) /\ c_tags (h_coll h' c) = c_tags (h_coll h c)
  /\ (forall n e, Registered h c n e -> Registered h' c n e)
  /\ (res = Ok tt -> exists e, Registered h' c (d_name (h_dim h d)) e /\ d_size (h_dim h e) = d_size (h_dim h d))
  /\ (forall e, res = Err e -> e = DimensionMismatchError /\ h' = h).
Proof.
  intros Ho Hd. unfold add_dimension. rewrite (bind_ok (get_coll c) _ h h _ eq_refl), (bind_ok (get_dim d) _ h h _ eq_refl).
  destruct (dget String.eqb (c_dims (h_coll h c)) (d_name (h_dim h d))) as [e|] eqn:E.
  - rewrite (bind_ok (get_dim e) _ h h _ eq_refl). destruct (dim_eq (h_dim h e) (h_dim h d) check) eqn:Eq.
    + unfold mret. split; [apply hm_refl|split; [exact Ho|]]. repeat split; auto; try discriminate.
      intros _. exists e. split; [now apply reg_get|].
      unfold dim_eq in Eq. apply andb_prop in Eq as [Eq _]. apply andb_prop in Eq as [Eq _]. apply andb_prop in Eq as [_ Eq].
      unfold opt_eqb in Eq. destruct (d_size (h_dim h e)), (d_size (h_dim h d)); try discriminate; [|reflexivity].
      apply Z.eqb_eq in Eq. now subst.
    + unfold mraise. split; [apply hm_refl|split; [exact Ho|]]. repeat split; auto; try discriminate. congruence.
  - set (n := d_name (h_dim h d)) in *.
    assert (Hnew : ~ In n (map fst (c_dims (h_coll h c)))) by now apply (dget_none _ String.eqb_spec).
    rewrite dset_absent by exact Hnew.
    set (h' := hput h c (set_dims (h_coll h c) (c_dims (h_coll h c) ++ [(n, d)])%list)).
    change (put_coll c (set_dims (h_coll h c) (c_dims (h_coll h c) ++ [(n, d)])%list) h) with (h', Ok tt).
    assert (Hc' : h_coll h' c = set_dims (h_coll h c) (c_dims (h_coll h c) ++ [(n, d)])%list) by (unfold h', hput; cbn; now rewrite upd_same).
    assert (HR : forall m e, Registered h' c m e <-> Registered h c m e \/ (m = n /\ e = d)).
    { intros m e. unfold Registered. rewrite Hc'. cbn [set_dims c_dims]. rewrite in_app_iff. cbn [In].
      split; [intros [H|[H|[]]]; [auto|injection H as <- <-; auto]|intros [H|[-> ->]]; auto]. }
    cbv beta iota.
    split; [apply hm_hput|]. split.
    + pose proof Ho as [[C1 C2 C3 C4 C5 C6 C7] O1 O2 O3 O4]. apply ok_intro.
      * rewrite Hc'. exact C1.
      * rewrite Hc'. cbn [set_dims c_dims]. rewrite map_app. cbn [map fst].
        apply NoDup_Add with (a := n) (l := map fst (c_dims (h_coll h c))).
        -- rewrite <- (app_nil_r (map fst (c_dims (h_coll h c)))) at 1. apply Add_app.
        -- split; assumption.
      * exact O1.
      * intros m e H. apply HR in H as [H|[-> ->]]; [split; [apply C5, H|eapply O3, H]|split; [reflexivity|exact Hd]].
      * intros k v Hl. assert (Hl0 : Listed h c k v) by (unfold Listed in *; rewrite Hc' in Hl; exact Hl).
        split; [exact (C3 _ _ Hl0)|]. split; [exact (C4 _ _ Hl0)|]. split; [exact (O2 _ _ Hl0)|].
        intros names Hn. change (h_var h' v) with (h_var h v) in Hn. destruct (ok_fits _ _ _ _ Ho Hl0 names Hn) as [A [B F]].
        split; [exact A|split].
        -- intros m Hm. destruct (B m Hm) as [e He]. exists e. apply HR; auto.
        -- intros shape Hs. eapply Forall2_in_impl; [|exact (F shape Hs)]. cbn beta.
           intros s m Hm Hx e He. apply HR in He as [He|[-> ->]]; [exact (Hx e He)|].
           exfalso. apply Hnew. destruct (B n Hm) as [e He]. now apply in_map with (f := fst) in He.
    + split; [rewrite Hc'; reflexivity|]. split; [rewrite Hc'; reflexivity|]. split; [intros; apply HR; auto|].
      split; [|discriminate]. intros _. exists d. split; [apply HR; auto|reflexivity].
Qed.

Lemma add_dims_run c check l : forall h, ok h c -> (forall d, In d l -> d < h_next h) ->
  let '(h', res) := mfor l (fun d => add_dimension c d false check) h in
  hm c h h' /\ ok h' c /\ c_vars (h_coll h' c) = c_vars (h_coll h c) /\ c_tags (h_coll h' c) = c_tags (h_coll h c)
  /\ (forall n e, Registered h c n e -> Registered h' c n e)
  /\ (res = Ok tt -> forall d, In d l -> exists e, Registered h' c (d_name (h_dim h d)) e /\ d_size (h_dim h e) = d_size (h_dim h d))
  /\ (forall e, res = Err e -> e = DimensionMismatchError).
Proof.
  induction l as [|d l IH]; intros h Ho Hd; cbn [mfor].
  - unfold mret. split; [apply hm_refl|split; [exact Ho|]]. repeat split; auto; try discriminate. intros _ d [].
  - pose proof (add_dimension_run h c d check Ho (Hd d (or_introl eq_refl))) as H.
    destruct (add_dimension c d false check h) as [h1 [[]|e]] eqn:E; destruct H as [A [B [C [D [F [G I]]]]]].
    + rewrite (bind_ok _ _ _ _ _ E). specialize (IH h1 B). destruct (mfor l _ h1) as [h' res].
      destruct IH as [A' [B' [C' [D' [F' [G' I']]]]]]; [intros; rewrite (hm_next _ _ _ A); apply Hd; now right|].
      split; [eapply hm_trans; eauto|]. split; [exact B'|]. split; [congruence|]. split; [congruence|]. split; [auto|].
      split; [|exact I']. intros Hres d' [<-|Hin].
      * destruct (G eq_refl) as [e [He Hs]]. exists e. auto.
      * destruct (G' Hres d' Hin) as [e [He Hs]]. rewrite (hm_dim _ _ _ A) in He, Hs. exists e. auto.
    + rewrite (bind_err _ _ _ _ _ E). split; [exact A|split; [exact B|]]. repeat split; auto; try discriminate.
      intros e0 H; injection H as <-. now apply I.
Qed.

(** ** A variable enters a collection *)
Record va (w c : Z) (h h' : heap) : Prop := {
  va_next : h_next h' = h_next h;
  va_dim : h_dim h' = h_dim h;
  va_var : forall i, i <> w -> h_var h' i = h_var h i;
  va_coll : forall i, i <> c -> h_coll h' i = h_coll h i }.
Lemma ok_add_var h h' c k w :
  ok h c -> va w c h h' -> w < h_next h -> (forall k' v, Listed h c k' v -> v <> w) -> ~ In k (map fst (c_vars (h_coll h c))) ->
  h_coll h' c = set_vars (h_coll h c) (c_vars (h_coll h c) ++ [(k, w)])%list ->
  v_name (h_var h' w) = k -> v_parent (h_var h' w) = Some c -> fits h c (h_var h' w) -> ok h' c.
Proof.
  intros Ho Hva Hw Hnl Hnew Hc' Hname Hpar Hfit. pose proof Ho as [[C1 C2 C3 C4 C5 C6 C7] O1 O2 O3 O4].
  assert (HR : forall n d, Registered h' c n d <-> Registered h c n d) by (intros; unfold Registered; now rewrite Hc').
  assert (HF : forall x, fits h c x -> fits h' c x).
  { intros x Hx names Hn. destruct (Hx names Hn) as [A [B C]]. split; [exact A|split].
    - intros n H. destruct (B n H) as [d Hd]. exists d. now apply HR.
    - intros shape Hs. eapply Forall2_impl; [|exact (C shape Hs)]. cbn beta. intros s n H d Hd. rewrite (va_dim _ _ _ _ Hva). now apply H, HR. }
  apply ok_intro.
  - rewrite Hc'. cbn [set_vars c_vars]. rewrite map_app. cbn [map fst].
    apply NoDup_Add with (a := k) (l := map fst (c_vars (h_coll h c))); [|split; assumption].
    rewrite <- (app_nil_r (map fst (c_vars (h_coll h c)))) at 1. apply Add_app.
  - rewrite Hc'. exact C2.
  - rewrite (va_next _ _ _ _ Hva). exact O1.
  - intros n d H. apply HR in H. rewrite (va_dim _ _ _ _ Hva), (va_next _ _ _ _ Hva). split; eauto.
  - intros k' v H. unfold Listed in H. rewrite Hc' in H. cbn [set_vars c_vars] in H. apply in_app_or in H as [H|[H|[]]].
    + rewrite (va_var _ _ _ _ Hva) by eauto. rewrite (va_next _ _ _ _ Hva).
      split; [eauto|split; [eauto|split; [eauto|]]]. apply HF. eapply ok_fits; eauto.
    + injection H as <- <-. rewrite (va_next _ _ _ _ Hva). auto.
Qed.
Lemma va_other h h' w c t : va w c h h' -> t <> c -> ok h t -> (forall k v, Listed h t k v -> v <> w) -> ok h' t.
Proof.
  intros Hva Hne Ho Hnl. apply (ok_same h); [exact Ho|]. split; [now apply (va_coll _ _ _ _ Hva)|].
  split; [intros; apply (va_var _ _ _ _ Hva); eauto|]. rewrite (va_dim _ _ _ _ Hva), (va_next _ _ _ _ Hva). split; [auto|lia].
Qed.
Lemma not_listed h t w s : ok h t -> v_parent (h_var h w) = Some s -> s <> t -> forall k v, Listed h t k v -> v <> w.
Proof. intros Ho Hp Hne k v Hl ->. pose proof (cs_parent _ _ (ok_cs _ _ Ho) _ _ Hl). congruence. Qed.

(** Moving the variables of one collection to another. *)
Lemma move_run c s (l : list (string * Z)) : forall h, ok h c -> s <> c ->
  (forall k w, In (k, w) l -> v_name (h_var h w) = k /\ v_parent (h_var h w) = Some s /\ w < h_next h /\ fits h c (h_var h w)) ->
  NoDup (map fst l) -> (forall k, In k (map fst l) -> ~ In k (map fst (c_vars (h_coll h c)))) ->
  exists h', mfor (map snd l) (fun w => y <-- get_var w ;; put_var w (with_parent y None) ;;; add_orphan c w false) h = (h', Ok tt)
  /\ ok h' c /\ h_next h' = h_next h /\ h_dim h' = h_dim h /\ (forall i, i <> c -> h_coll h' i = h_coll h i)
  /\ h_coll h' c = set_vars (h_coll h c) (c_vars (h_coll h c) ++ l)%list
  /\ (forall i, ~ In i (map snd l) -> h_var h' i = h_var h i)
  /\ (forall i, In i (map snd l) -> h_var h' i = with_parent (h_var h i) (Some c)).
Proof.
  induction l as [|[k w] l IH]; intros h Ho Hsc Hl Hnd Hnew; cbn [map fst snd mfor].
  - exists h. split; [reflexivity|split; [exact Ho|]]. repeat split; auto; [|intros i []].
    rewrite app_nil_r. now destruct (h_coll h c).
  - destruct (Hl k w (or_introl eq_refl)) as [Hname [Hpar [Hid Hfit]]].
    cbn [map fst] in Hnd. inversion Hnd as [|? ? Hk Hnd']; subst.
    assert (Hkn : ~ In (v_name (h_var h w)) (map fst (c_vars (h_coll h c)))) by (apply Hnew; now left).
    set (h1 := mkheap (h_dim h) (upd (upd (h_var h) w (with_parent (h_var h w) None)) w (with_parent (h_var h w) (Some c)))
                 (upd (h_coll h) c (set_vars (h_coll h c) (c_vars (h_coll h c) ++ [(v_name (h_var h w), w)])%list)) (h_next h)).
    assert (E1 : (y <-- get_var w ;; put_var w (with_parent y None) ;;; add_orphan c w false) h = (h1, Ok tt)).
    { rewrite (bind_ok (get_var w) _ h h _ eq_refl). unfold mbind at 1, put_var at 1. unfold add_orphan, mbind, get_var, get_coll.
      cbn [h_var h_coll h_dim h_next]. rewrite !upd_same. cbn [with_parent v_name].
      destruct (dmem String.eqb (c_vars (h_coll h c)) (v_name (h_var h w))) eqn:Em; [exfalso; apply Hkn, dmem_in, Em|].
      cbn [negb andb]. unfold put_coll, put_var. cbn [h_var h_coll h_dim h_next]. rewrite dset_absent by exact Hkn. reflexivity. }
    assert (Hva : va w c h h1).
    { constructor; try reflexivity; intros i Hi; unfold h1; cbn; now rewrite !upd_other. }
    assert (Hc1 : h_coll h1 c = set_vars (h_coll h c) (c_vars (h_coll h c) ++ [(v_name (h_var h w), w)])%list) by (unfold h1; cbn; now rewrite upd_same).
    assert (Hw1 : h_var h1 w = with_parent (h_var h w) (Some c)) by (unfold h1; cbn; now rewrite upd_same).
    assert (Hwl : ~ In w (map snd l)).
    { intros H. apply in_map_iff in H as [[k' w'] [E Hin]]. cbn in E; subst w'.
      destruct (Hl k' w (or_intror Hin)) as [Hn' _]. apply Hk. rewrite Hn'. now apply in_map with (f := fst) in Hin. }
    assert (Ho1 : ok h1 c).
    { eapply (ok_add_var h h1 c _ w Ho Hva Hid); [eapply not_listed; eauto|exact Hkn|exact Hc1|now rewrite Hw1|now rewrite Hw1|].
      rewrite Hw1. exact Hfit. }
    destruct (IH h1 Ho1 Hsc) as [h' [E' [Ho' [Hn' [Hd' [Hcx [Hcc [Hvx Hvl]]]]]]]].
    + intros k' w' Hin. assert (Hne : w' <> w) by (intros ->; apply Hwl; now apply in_map with (f := snd) in Hin).
      rewrite (va_var _ _ _ _ Hva) by exact Hne. destruct (Hl k' w' (or_intror Hin)) as [A [B [C D]]].
      split; [exact A|split; [exact B|split; [exact C|]]]. intros names Hnm. destruct (D names Hnm) as [D1 [D2 D3]].
      split; [exact D1|split].
      * intros n Hn. destruct (D2 n Hn) as [d Hd]. exists d. unfold Registered in *. now rewrite Hc1.
      * intros shape Hs. eapply Forall2_impl; [|exact (D3 shape Hs)]. cbn beta. intros s0 n Hx d Hd. apply Hx.
        unfold Registered in *. now rewrite Hc1 in Hd.
    + exact Hnd'.
    + intros k' Hk'. rewrite Hc1. cbn [set_vars c_vars]. rewrite map_app, in_app_iff. cbn [map fst In].
      intros [H|[H|[]]]; [eapply Hnew; [right; exact Hk'|exact H]|]. subst k'. contradiction.
    + exists h'. split; [rewrite (bind_ok _ _ _ _ _ E1); exact E'|]. split; [exact Ho'|]. split; [exact Hn'|]. split; [exact Hd'|].
      split; [intros i Hi; rewrite Hcx by exact Hi; now apply (va_coll _ _ _ _ Hva)|].
      split; [rewrite Hcc, Hc1; cbn [set_vars c_vars]; rewrite <- app_assoc; reflexivity|].
      split.
      * intros i Hi. cbn [In] in Hi. rewrite Hvx by tauto. apply (va_var _ _ _ _ Hva). intros ->. tauto.
      * intros i Hi. destruct (in_dec Z.eq_dec i (map snd l)) as [Hil|Hil].
        -- rewrite (Hvl i Hil). f_equal. apply (va_var _ _ _ _ Hva). intros ->. contradiction.
        -- rewrite (Hvx i Hil). destruct Hi as [<-|Hi]; [exact Hw1|contradiction].
Qed.

(** [add_variable] from another collection in use. *)
Lemma add_variable_run h c s k v :
  ok h c -> ok h s -> s <> c -> Listed h s k v -> Apart h c s ->
  let '(h', res) := add_variable c v false h in
  h_next h' = h_next h /\ h_dim h' = h_dim h /\ (forall i, i <> c -> h_coll h' i = h_coll h i)
  /\ ok h' c
  /\ (forall n d, Registered h c n d -> Registered h' c n d)
  /\ (res = Ok tt ->
        c_vars (h_coll h' c) = (c_vars (h_coll h c) ++ c_vars (h_coll h s))%list
        /\ (forall i, (exists n, Listed h s n i) -> h_var h' i = with_parent (h_var h i) (Some c))
        /\ (forall i, (forall n, ~ Listed h s n i) -> h_var h' i = h_var h i))
  /\ (forall e, res = Err e -> e = DimensionMismatchError /\ h_var h' = h_var h /\ c_vars (h_coll h' c) = c_vars (h_coll h c)).
Proof.
  intros Hc Hs Hne Hl Hap. unfold add_variable. rewrite (bind_ok (get_var v) _ h h _ eq_refl).
  rewrite (cs_parent _ _ (ok_cs _ _ Hs) _ _ Hl). cbv zeta. rewrite (bind_ok (get_coll s) _ h h _ eq_refl).
  set (check := match v_value (h_var h v) with Some _ => false | None => true end).
  pose proof (add_dims_run c check (map snd (c_dims (h_coll h s))) h Hc) as Ha.
  destruct (mfor (map snd (c_dims (h_coll h s))) (fun d => add_dimension c d false check) h) as [h1 [[]|e]] eqn:E1.
  - destruct Ha as [A [B [C [D [F [G I]]]]]].
    { intros d Hd. apply in_map_iff in Hd as [[n d'] [<- Hin]]. eapply (ok_did _ _ Hs); exact Hin. }
    rewrite (bind_ok _ _ _ _ _ E1). rewrite (bind_ok (get_coll s) _ h1 h1 _ eq_refl).
    rewrite (hm_coll _ _ _ A s Hne).
    destruct (move_run c s (c_vars (h_coll h s)) h1 B Hne) as [h' [E' [Ho' [Hn' [Hd' [Hcx [Hcc [Hvx Hvl]]]]]]]].
    + intros n w Hin. rewrite (hm_var _ _ _ A), (hm_next _ _ _ A).
      split; [now apply (cs_name _ _ (ok_cs _ _ Hs))|]. split; [now apply (cs_parent _ _ (ok_cs _ _ Hs)) with n|].
      split; [now apply (ok_vid _ _ Hs) with n|]. intros names Hnm. destruct (ok_fits _ _ _ _ Hs Hin names Hnm) as [P [Q R]].
      assert (Hreg : forall m, In m names -> exists d e, Registered h s m d /\ Registered h1 c m e /\ d_size (h_dim h e) = d_size (h_dim h d)).
      { intros m Hm. destruct (Q m Hm) as [d Hd]. destruct (G eq_refl d) as [e [He Hsz]].
        - now apply in_map with (f := snd) in Hd.
        - rewrite (cs_dim_name _ _ (ok_cs _ _ Hs) _ _ Hd) in He. exists d, e. auto. }
      split; [exact P|split].
      * intros m Hm. destruct (Hreg m Hm) as [d [e [_ [He _]]]]. eauto.
      * intros shape Hsh. eapply Forall2_in_impl; [|exact (R shape Hsh)]. cbn beta. intros sz m Hm Hx e He.
        destruct (Hreg m Hm) as [d [e' [Hd [He' Hsz]]]].
        apply (reg_get _ _ _ _ B) in He, He'. rewrite (hm_dim _ _ _ A).
        assert (e = e') by congruence. subst e'. rewrite Hsz. apply Hx, Hd.
    + apply (cs_once _ _ (ok_cs _ _ Hs)).
    + intros n Hn Hn2. rewrite C in Hn2. apply in_map_iff in Hn as [[n1 w1] [<- H1]]. apply in_map_iff in Hn2 as [[n2 w2] [E2 H2]].
      cbn [fst] in *. subst n2. eapply Hap; eauto.
    + rewrite E'. split; [rewrite Hn'; apply (hm_next _ _ _ A)|]. split; [rewrite Hd'; apply (hm_dim _ _ _ A)|].
      split; [intros i Hi; rewrite Hcx by exact Hi; now apply (hm_coll _ _ _ A)|]. split; [exact Ho'|].
      split; [intros n d Hd; unfold Registered; rewrite Hcc; apply F, Hd|].
      split; [|discriminate]. intros _. split; [rewrite Hcc, C; reflexivity|]. split.
      * intros i [n Hi]. rewrite Hvl by (now apply in_map with (f := snd) in Hi). now rewrite (hm_var _ _ _ A).
      * intros i Hi. rewrite Hvx; [now rewrite (hm_var _ _ _ A)|]. intros H. apply in_map_iff in H as [[n i'] [<- Hin]]. eapply Hi; exact Hin.
  - destruct Ha as [A [B [C [D [F [G I]]]]]].
    { intros d Hd. apply in_map_iff in Hd as [[n d'] [<- Hin]]. eapply (ok_did _ _ Hs); exact Hin. }
    rewrite (bind_err _ _ _ _ _ E1). split; [apply (hm_next _ _ _ A)|]. split; [apply (hm_dim _ _ _ A)|].
    split; [apply (hm_coll _ _ _ A)|]. split; [exact B|]. split; [exact F|]. split; [discriminate|].
    intros e0 H; injection H as <-. split; [now apply I|]. split; [apply (hm_var _ _ _ A)|exact C].
Qed.

(** ** Changing a listed variable *)
Lemma ok_var_change h c k v x : ok h c -> Listed h c k v -> v_name x = k -> v_parent x = Some c -> fits h c x -> ok (vput h v x) c.
Proof.
  intros Ho Hl Hn Hp Hf. pose proof Ho as [[C1 C2 C3 C4 C5 C6 C7] O1 O2 O3 O4].
  apply ok_intro; auto.
  - intros n d H. split; [apply C5, H|eapply O3, H].
  - intros k' v' H. change (Listed h c k' v') in H. cbn [vput h_var h_next]. destruct (Z.eq_dec v' v) as [->|Hne].
    + rewrite upd_same. apply (listed_get _ _ _ _ Ho) in Hl as Hl'. 
      assert (k' = k) as -> by (rewrite <- (C3 _ _ H); apply C3, Hl).
      split; [exact Hn|split; [exact Hp|split; [eapply O2; eauto|exact Hf]]].
    + rewrite upd_other by exact Hne. split; [eauto|split; [eauto|split; [eauto|]]]. exact (ok_fits _ _ _ _ Ho H).
Qed.
Lemma ok_var_other h c t k v x : ok h c -> Listed h c k v -> t <> c -> ok h t -> ok (vput h v x) t.
Proof.
  intros Ho Hl Hne Ht. apply (ok_same h); [exact Ht|]. split; [reflexivity|]. split; [|split; [auto|cbn; lia]].
  intros k' v' Hl'. cbn. apply upd_other. eapply not_listed; eauto. now apply (cs_parent _ _ (ok_cs _ _ Ho) k).
Qed.
Lemma inv_var_change L h c k v x : inv L h -> In c L -> Listed h c k v -> v_name x = k -> v_parent x = Some c -> fits h c x -> inv L (vput h v x).
Proof.
  intros Hi Hc Hl Hn Hp Hf t Ht. destruct (Z.eq_dec t c) as [->|Hne].
  - apply (ok_var_change h c k v x); auto.
  - apply (ok_var_other h c t k v x); auto.
Qed.
Lemma fits_bounds h c x b : fits h c x -> fits h c (with_bounds x b).
Proof. intros H names Hn. exact (H names Hn). Qed.

(** The collection [s] is given up. *)
Definition without (s : Z) (L : list Z) : list Z := filter (fun x => negb (x =? s)) L.
Lemma in_without s L t : In t (without s L) <-> In t L /\ t <> s.
Proof. unfold without. rewrite filter_In. destruct (Z.eqb_spec t s); cbn [negb]; intuition congruence. Qed.

Lemma add_variable_inv L h c s k v h' res :
  inv L h -> In c L -> In s L -> c <> s -> Listed h s k v -> Apart h c s -> add_variable c v false h = (h', res) ->
  match res with Ok _ => inv (without s L) h' | Err _ => inv L h' end.
Proof.
  intros Hi Hc Hs Hne Hl Hap E. pose proof (add_variable_run h c s k v (Hi c Hc) (Hi s Hs) (not_eq_sym Hne) Hl Hap) as H.
  rewrite E in H. destruct H as [A [B [C [D [F [G I]]]]]].
  assert (Hsame : forall t, t <> c -> ok h t -> (forall n i, Listed h t n i -> h_var h' i = h_var h i) -> ok h' t).
  { intros t Htc Hto Hv. apply (ok_same h); [exact Hto|]. split; [auto|split; [exact Hv|]]. rewrite B, A. split; [auto|lia]. }
  destruct res as [[]|e].
  - destruct (G eq_refl) as [G1 [G2 G3]]. intros t Ht. apply in_without in Ht as [Ht Hts].
    destruct (Z.eq_dec t c) as [->|Htc]; [exact D|]. apply Hsame; [exact Htc|now apply Hi|].
    intros n i Hti. apply G3. intros m Hsi. eapply (not_listed h t i s); [now apply Hi| |auto|exact Hti|reflexivity].
    eapply (cs_parent _ _ (ok_cs _ _ (Hi s Hs))); exact Hsi.
  - destruct (I e eq_refl) as [_ [I2 _]]. intros t Ht. destruct (Z.eq_dec t c) as [->|Htc]; [exact D|].
    apply Hsame; [exact Htc|now apply Hi|]. intros; now rewrite I2.
Qed.

Lemma set_bounds_inv L h c s k v kb b h' res :
  inv L h -> In c L -> In s L -> c <> s -> Listed h c k v -> Listed h s kb b -> Apart h c s ->
  set_bounds v (Some b) false h = (h', res) ->
  match res with Ok _ => inv (without s L) h' | Err _ => inv L h' end.
Proof.
  intros Hi Hc Hs Hne Hl Hlb Hap. unfold set_bounds.
  rewrite (bind_ok _ _ h h c) by (apply parent_of_some; eapply (cs_parent _ _ (ok_cs _ _ (Hi c Hc))); eauto).
  rewrite (bind_ok (get_var v) _ h h _ eq_refl), (bind_ok (get_var b) _ h h _ eq_refl).
  set (x := with_bounds (h_var h v) (Some (v_name (h_var h b)))).
  rewrite (bind_ok (put_var v x) _ h (vput h v x) tt eq_refl). intros E.
  refine (add_variable_inv L (vput h v x) c s kb b h' res _ Hc Hs Hne Hlb Hap E).
  apply (inv_var_change L h c k v x); auto.
  - cbn. eapply (cs_name _ _ (ok_cs _ _ (Hi c Hc))); eauto.
  - cbn. eapply (cs_parent _ _ (ok_cs _ _ (Hi c Hc))); eauto.
  - apply fits_bounds. eapply ok_fits; eauto.
Qed.

Lemma drop_bounds_inv L h c k v : inv L h -> In c L -> Listed h c k v -> inv L (fst (set_bounds v None false h)).
Proof.
  intros Hi Hc Hl. pose proof (Hi c Hc) as Ho. unfold set_bounds.
  rewrite (bind_ok _ _ h h c) by (apply parent_of_some; eapply (cs_parent _ _ (ok_cs _ _ Ho)); eauto).
  rewrite (bind_ok (get_var v) _ h h _ eq_refl).
  assert (Hput : forall h', (h' = h \/ exists n, h' = hput h c (set_vars (h_coll h c) (dremove String.eqb (c_vars (h_coll h c)) n))) ->
     inv L (fst (put_var v (with_bounds (h_var h v) None) h'))).
  { intros h' [->|[n ->]].
    - change (fst (put_var v (with_bounds (h_var h v) None) h)) with (vput h v (with_bounds (h_var h v) None)).
      eapply inv_var_change; eauto; cbn.
      + eapply (cs_name _ _ (ok_cs _ _ Ho)); eauto.
      + eapply (cs_parent _ _ (ok_cs _ _ Ho)); eauto.
      + apply fits_bounds. eapply ok_fits; eauto.
    - set (h1 := vput h v (with_bounds (h_var h v) None)).
      assert (Hi1 : inv L h1).
      { eapply inv_var_change; eauto; cbn.
        + eapply (cs_name _ _ (ok_cs _ _ Ho)); eauto.
        + eapply (cs_parent _ _ (ok_cs _ _ Ho)); eauto.
        + apply fits_bounds. eapply ok_fits; eauto. }
      change (fst (put_var v (with_bounds (h_var h v) None) (hput h c (set_vars (h_coll h c) (dremove String.eqb (c_vars (h_coll h c)) n)))))
        with (hput h1 c (set_vars (h_coll h1 c) (dremove String.eqb (c_vars (h_coll h1 c)) n))).
      apply inv_hput; [exact Hi1|]. intros _. apply ok_pop_var, Hi1, Hc. }
  destruct (v_bounds (h_var h v)) as [n|].
  - destruct (pop_var c n h) as [h' [[]|e]] eqn:E.
    + rewrite (bind_ok _ _ _ _ _ E). apply Hput. right. exists n. unfold pop_var, mbind, get_coll in E.
      destruct (dmem _ _ _) in E; [|discriminate]. injection E as <-. reflexivity.
    + rewrite (bind_err _ _ _ _ _ E). cbn. unfold pop_var, mbind, get_coll in E.
      destruct (dmem _ _ _) in E; [discriminate|]. injection E as <- _. exact Hi.
  - rewrite (bind_ok (mret tt) _ h h tt eq_refl). apply Hput. now left.
Qed.

(** ** Renaming *)
Lemma set_name_inv L h c k v name : inv L h -> In c L -> Listed h c k v -> (forall w, ~ Listed h c name w) ->
  inv L (fst (set_name v name h))
  /\ (forall n w, Listed (fst (set_name v name h)) c n w <-> (Listed h c n w /\ n <> k) \/ (n = name /\ w = v)).
Proof.
  intros Hi Hc Hl Hnew. pose proof (Hi c Hc) as Ho. pose proof (cs_name _ _ (ok_cs _ _ Ho) _ _ Hl) as Hname.
  set (h' := mkheap (h_dim h) (upd (h_var h) v (with_name (h_var h v) name))
    (upd (h_coll h) c (set_vars (h_coll h c) (dremove String.eqb (c_vars (h_coll h c)) k ++ [(name, v)])%list)) (h_next h)).
  assert (Hnk : ~ In name (map fst (dremove String.eqb (c_vars (h_coll h c)) k))).
  { intros H. apply in_map_iff in H as [[n w] [E Hin]]. cbn in E; subst n. apply in_dremove in Hin. eapply Hnew; exact Hin. }
  assert (E : set_name v name h = (h', Ok tt)).
  { unfold set_name. rewrite (bind_ok (get_var v) _ h h _ eq_refl). rewrite (cs_parent _ _ (ok_cs _ _ Ho) _ _ Hl).
    rewrite (bind_ok _ _ h (hput h c (set_vars (h_coll h c) (dremove String.eqb (c_vars (h_coll h c)) k ++ [(name, v)])%list)) tt).
    - reflexivity.
    - rewrite (bind_ok (get_coll c) _ h h _ eq_refl). rewrite Hname. rewrite (proj1 (listed_get _ _ _ _ Ho) Hl).
      rewrite dset_absent by exact Hnk. reflexivity. }
  rewrite E. cbn [fst].
  assert (Hc' : h_coll h' c = set_vars (h_coll h c) (dremove String.eqb (c_vars (h_coll h c)) k ++ [(name, v)])%list) by (unfold h'; cbn; now rewrite upd_same).
  assert (HL : forall n w, Listed h' c n w <-> (Listed h c n w /\ n <> k) \/ (n = name /\ w = v)).
  { intros n w. unfold Listed at 1. rewrite Hc'. cbn [set_vars c_vars]. rewrite in_app_iff.
    rewrite in_dremove_iff by apply (cs_once _ _ (ok_cs _ _ Ho)). cbn [In]. unfold Listed.
    split; [intros [H|[H|[]]]; [auto|injection H as <- <-; auto]|intros [H|[-> ->]]; auto]. }
  split; [|exact HL]. intros t Ht. destruct (Z.eq_dec t c) as [->|Hne].
  - pose proof Ho as [[C1 C2 C3 C4 C5 C6 C7] O1 O2 O3 O4]. 
    assert (HR : forall n d, Registered h' c n d <-> Registered h c n d) by (intros; unfold Registered; now rewrite Hc').
    assert (HF : forall x, fits h c x -> fits h' c x).
    { intros x Hx names Hn. destruct (Hx names Hn) as [A [B C]]. split; [exact A|split].
      - intros n H. destruct (B n H) as [d Hd]. exists d. now apply HR.
      - intros shape Hs. eapply Forall2_impl; [|exact (C shape Hs)]. cbn beta. intros s n H d Hd. now apply H, HR. }
    apply ok_intro.
    + rewrite Hc'. cbn [set_vars c_vars]. rewrite map_app. cbn [map fst].
      apply NoDup_Add with (a := name) (l := map fst (dremove String.eqb (c_vars (h_coll h c)) k)).
      * rewrite <- (app_nil_r (map fst (dremove _ _ _))) at 1. apply Add_app.
      * split; [now apply dremove_nodup|exact Hnk].
    + rewrite Hc'. exact C2.
    + exact O1.
    + intros n d H. apply HR in H. split; [apply C5, H|eapply O3, H].
    + intros n w H. apply HL in H as [[H Hnk']|[-> ->]].
      * assert (Hwv : w <> v) by (intros ->; apply Hnk'; rewrite <- (C3 _ _ H); exact Hname).
        unfold h'; cbn [h_var h_next]. rewrite upd_other by exact Hwv. split; [eauto|split; [eauto|split; [eauto|]]].
        apply HF. eapply ok_fits; eauto.
      * unfold h'; cbn [h_var h_next]. rewrite upd_same. split; [reflexivity|split; [cbn; eauto|split; [eauto|]]].
        apply HF. intros names Hn. exact (ok_fits _ _ _ _ Ho Hl names Hn).
  - apply (ok_same h); [now apply Hi|]. split; [unfold h'; cbn; now rewrite upd_other|]. split; [|split; [auto|cbn; lia]].
    intros n w Hw. unfold h'; cbn. apply upd_other. eapply not_listed; [apply Hi, Ht| |exact (not_eq_sym Hne)|exact Hw].
    eapply (cs_parent _ _ (ok_cs _ _ Ho)); eauto.
Qed.

Lemma replace_first_in l old new n : NoDup l -> In n (replace_first l old new) <-> (In n l /\ n <> old) \/ (n = new /\ In old l).
Proof.
  induction l as [|a l IH]; cbn [replace_first]; intros Hnd; [cbn; tauto|]. inversion Hnd; subst.
  destruct (String.eqb_spec old a) as [->|Hne]; cbn [In].
  - split; [intros [<-|H]; [auto|]|intros [[[H|H] Hn]|[-> _]]; [congruence|auto|auto]].
    left. split; [auto|]. intros ->. contradiction.
  - rewrite IH by assumption. split; [intros [<-|[[H Hn]|[-> H]]]; auto|intros [[[H|H] Hn]|[-> [H|H]]]; auto; congruence].
Qed.
Lemma replace_first_nodup l old new : NoDup l -> (~ In new l \/ ~ In old l) -> NoDup (replace_first l old new).
Proof.
  induction l as [|a l IH]; cbn [replace_first]; intros Hnd Hnew; [constructor|]. inversion Hnd; subst.
  destruct (String.eqb_spec old a) as [->|Hne].
  - constructor; [|assumption]. destruct Hnew as [Hn|Hn]; [intros H; apply Hn; now right|exfalso; apply Hn; now left].
  - constructor; [|apply IH; [assumption|destruct Hnew as [Hn|Hn]; [left|right]; intros H; apply Hn; now right]].
    rewrite replace_first_in by assumption. intros [[H _]|[-> H]]; [contradiction|].
    destruct Hnew as [Hn|Hn]; apply Hn; [now left|now right].
Qed.
Lemma replace_first_forall2 {A} (P Q : A -> string -> Prop) sh l old new :
  (forall s n, P s n -> n <> old -> Q s n) -> (forall s, P s old -> Q s new) ->
  NoDup l -> Forall2 P sh l -> Forall2 Q sh (replace_first l old new).
Proof.
  intros H1 H2 Hnd HF. induction HF as [|s n sh l HP HF IH]; cbn [replace_first]; [constructor|]. inversion Hnd as [|? ? Hn Hnd']; subst.
  destruct (String.eqb_spec old n) as [->|Hne].
  - constructor; [now apply H2|]. clear -HF Hn H1. induction HF; constructor.
    + apply H1; [assumption|]. intros ->. apply Hn; now left.
    + apply IHHF. intros Hx; apply Hn; now right.
  - constructor; [apply H1; auto|now apply IH].
Qed.

(** The loop over the variables. *)
Lemma rename_loop old new l : forall h,
  exists h', mfor l (fun v => x <-- get_var v ;; match v_dims x with Some l => put_var v (with_dims x (Some (replace_first l old new))) | None => mret tt end) h = (h', Ok tt)
  /\ h_next h' = h_next h /\ h_dim h' = h_dim h /\ h_coll h' = h_coll h
  /\ (forall i, ~ In i l -> h_var h' i = h_var h i)
  /\ (forall i, v_name (h_var h' i) = v_name (h_var h i) /\ v_parent (h_var h' i) = v_parent (h_var h i) /\ v_value (h_var h' i) = v_value (h_var h i))
  /\ (NoDup l -> forall i, In i l -> v_dims (h_var h' i) = match v_dims (h_var h i) with Some ns => Some (replace_first ns old new) | None => None end).
Proof.
  induction l as [|v l IH]; intros h; cbn [mfor].
  - exists h. split; [reflexivity|]. repeat split; auto. intros _ i [].
  - set (h1 := match v_dims (h_var h v) with Some ns => vput h v (with_dims (h_var h v) (Some (replace_first ns old new))) | None => h end).
    assert (E1 : (x <-- get_var v ;; match v_dims x with Some l => put_var v (with_dims x (Some (replace_first l old new))) | None => mret tt end) h = (h1, Ok tt)).
    { unfold mbind, get_var, h1. now destruct (v_dims (h_var h v)). }
    rewrite (bind_ok _ _ _ _ _ E1).
    destruct (IH h1) as [h' [E' [A [B [C [D [F G]]]]]]]. exists h'. split; [exact E'|].
    assert (H1 : h_next h1 = h_next h /\ h_dim h1 = h_dim h /\ h_coll h1 = h_coll h /\ (forall i, i <> v -> h_var h1 i = h_var h i)
      /\ v_name (h_var h1 v) = v_name (h_var h v) /\ v_parent (h_var h1 v) = v_parent (h_var h v) /\ v_value (h_var h1 v) = v_value (h_var h v)
      /\ v_dims (h_var h1 v) = match v_dims (h_var h v) with Some ns => Some (replace_first ns old new) | None => None end).
    { unfold h1. destruct (v_dims (h_var h v)) eqn:Ed.
      - cbn [vput h_next h_dim h_coll h_var]. rewrite upd_same. repeat split; auto. intros i Hi. now rewrite upd_other.
      - repeat split; auto. }
    destruct H1 as [H1 [H2 [H3 [H4 [H5 [H6 [H7 H8]]]]]]].
    split; [congruence|split; [congruence|split; [congruence|split; [|split]]]].
    + intros i Hi. cbn [In] in Hi. rewrite D by tauto. apply H4. intros ->. tauto.
    + intros i. destruct (F i) as [F1 [F2 F3]]. rewrite F1, F2, F3. destruct (Z.eq_dec i v) as [->|Hne]; [auto|]. now rewrite H4.
    + intros Hnd i Hi. inversion Hnd as [|? ? Hv Hnd']; subst. destruct (in_dec Z.eq_dec i l) as [Hil|Hil].
      * rewrite (G Hnd' i Hil). rewrite H4; [reflexivity|]. intros ->. contradiction.
      * rewrite (D i Hil). destruct Hi as [<-|Hi]; [exact H8|contradiction].
Qed.

Lemma vars_nodup h c : ok h c -> NoDup (map snd (c_vars (h_coll h c))).
Proof.
  intros Ho. pose proof (cs_once _ _ (ok_cs _ _ Ho)) as Hn. pose proof (cs_name _ _ (ok_cs _ _ Ho)) as Hnm. unfold Listed in Hnm.
  induction (c_vars (h_coll h c)) as [|[k v] l IH]; cbn [map snd] in *; constructor.
  - intros H. apply in_map_iff in H as [[k' v'] [E Hin]]. cbn in E; subst v'. inversion Hn as [|? ? Hk _]; subst. apply Hk.
    cbn [fst]. rewrite <- (Hnm k v (or_introl eq_refl)), (Hnm k' v (or_intror Hin)). now apply in_map with (f := fst) in Hin.
  - apply IH; [now inversion Hn|]. intros; apply Hnm; now right.
Qed.

Lemma rename_dimension_inv L h c old new : inv L h -> In c L -> (forall d, ~ Registered h c new d) ->
  (forall s d n, In s L -> s <> c -> Registered h c old d -> ~ Registered h s n d) ->
  inv L (fst (rename_dimension c old new h)).
Proof.
  intros Hi Hc Hnew Hsh. pose proof (Hi c Hc) as Ho. unfold rename_dimension. rewrite (bind_ok (get_coll c) _ h h _ eq_refl).
  destruct (dget String.eqb (c_dims (h_coll h c)) old) as [d|] eqn:Ed.
  2: { rewrite (bind_err _ _ h h KeyError) by now apply lookup_none. exact Hi. }
  rewrite (bind_ok _ _ h h d) by now apply lookup_some.
  assert (Hd : Registered h c old d) by now apply reg_get.
  rewrite (bind_ok (get_dim d) _ h h _ eq_refl).
  set (x := mkdim new (d_size (h_dim h d)) (d_cur (h_dim h d)) (d_src (h_dim h d))).
  rewrite (bind_ok (put_dim d x) _ h (dput h d x) tt eq_refl).
  assert (Hnk : ~ In new (map fst (dremove String.eqb (c_dims (h_coll h c)) old))).
  { intros H. apply in_map_iff in H as [[n w] [E Hin]]. cbn in E; subst n. apply in_dremove in Hin. eapply Hnew; exact Hin. }
  rewrite dset_absent by exact Hnk.
  set (cc := set_dims (h_coll h c) (dremove String.eqb (c_dims (h_coll h c)) old ++ [(new, d)])%list).
  set (h2 := hput (dput h d x) c cc).
  rewrite (bind_ok (put_coll c cc) _ (dput h d x) h2 tt eq_refl).
  destruct (rename_loop old new (map snd (c_vars (h_coll h c))) h2) as [h' [E' [A [B [C [D [F G]]]]]]].
  rewrite E'. cbn [fst]. specialize (G (vars_nodup _ _ Ho)).
  pose proof Ho as [[C1 C2 C3 C4 C5 C6 C7] O1 O2 O3 O4].
  intros t Ht. destruct (Z.eq_dec t c) as [->|Hne].
  - assert (Hc' : h_coll h' c = cc) by (rewrite C; unfold h2, hput; cbn; now rewrite upd_same).
    assert (HL : forall n w, Listed h' c n w <-> Listed h c n w) by (intros; unfold Listed; rewrite Hc'; reflexivity).
    assert (HR : forall n e, Registered h' c n e <-> (Registered h c n e /\ n <> old) \/ (n = new /\ e = d)).
    { intros n e. unfold Registered at 1. rewrite Hc'. unfold cc. cbn [set_dims c_dims]. rewrite in_app_iff, in_dremove_iff by exact C2.
      cbn [In]. unfold Registered. split; [intros [H|[H|[]]]; [auto|injection H as <- <-; auto]|intros [H|[-> ->]]; auto]. }
    assert (Hdim : forall e, h_dim h' e = if e =? d then x else h_dim h e) by (intros e; rewrite B; reflexivity).
    assert (Hned : forall n e, Registered h c n e -> n <> old -> e <> d).
    { intros n e H Hno ->. apply Hno. rewrite <- (C5 _ _ H). apply C5, Hd. }
    apply ok_intro.
    + rewrite Hc'. exact C1.
    + rewrite Hc'. unfold cc. cbn [set_dims c_dims]. rewrite map_app. cbn [map fst].
      apply NoDup_Add with (a := new) (l := map fst (dremove String.eqb (c_dims (h_coll h c)) old)).
      * rewrite <- (app_nil_r (map fst (dremove _ _ _))) at 1. apply Add_app.
      * split; [now apply dremove_nodup|exact Hnk].
    + rewrite A. exact O1.
    + intros n e H. rewrite Hdim, A. apply HR in H as [[H Hno]|[-> ->]].
      * destruct (Z.eqb_spec e d) as [->|_]; [exfalso; eapply Hned; eauto|]. split; [apply C5, H|eapply O3, H].
      * rewrite Z.eqb_refl. split; [reflexivity|eapply O3, Hd].
    + intros k v H. apply HL in H. destruct (F v) as [F1 [F2 F3]]. rewrite F1, F2, A.
      split; [exact (C3 _ _ H)|split; [exact (C4 _ _ H)|split; [exact (O2 _ _ H)|]]].
      intros names Hn. rewrite G in Hn by (now apply in_map with (f := snd) in H).
      change (h_var h2 v) with (h_var h v) in Hn, F3.
      destruct (v_dims (h_var h v)) as [ns|] eqn:Ens; [|discriminate]. injection Hn as <-.
      destruct (ok_fits _ _ _ _ Ho H ns Ens) as [P [Q R]].
      assert (Hnn : ~ In new ns) by (intros Hin; destruct (Q new Hin) as [e He]; eapply Hnew; exact He).
      split; [apply replace_first_nodup; auto|split].
      * intros n Hin. apply replace_first_in in Hin as [[Hin Hno]|[-> _]]; [|exists d; apply HR; auto| exact P].
        destruct (Q n Hin) as [e He]. exists e. apply HR; auto.
      * intros shape Hs. rewrite F3 in Hs. specialize (R shape Hs).
        assert (R' : Forall2 (fun s n => (forall e, Registered h c n e -> d_size (h_dim h e) = None \/ d_size (h_dim h e) = Some s) /\ n <> new) shape ns).
        { eapply Forall2_in_impl; [|exact R]. cbn beta. intros s n Hin Hx. split; [exact Hx|]. intros ->. contradiction. }
        eapply replace_first_forall2; [| |exact P|exact R'].
        -- cbn beta. intros s n [Hx Hnn'] Hno e He. apply HR in He as [[He _]|[-> ->]]; [|contradiction].
           rewrite Hdim. destruct (Z.eqb_spec e d) as [->|_]; [exfalso; eapply Hned; eauto|]. auto.
        -- cbn beta. intros s [Hx _] e He. apply HR in He as [[He _]|[_ ->]]; [exfalso; eapply Hnew; exact He|].
           rewrite Hdim, Z.eqb_refl. cbn. apply Hx, Hd.
  - apply (ok_same h); [now apply Hi|]. split; [rewrite C; unfold h2, hput; cbn; now rewrite upd_other|]. split; [|split].
    + intros n w Hw. rewrite D; [reflexivity|]. intros H. apply in_map_iff in H as [[k w'] [E Hin]]. cbn in E; subst w'.
      eapply (not_listed h t w c); [apply Hi, Ht|exact (C4 _ _ Hin)|auto|exact Hw|reflexivity].
    + intros n e He. rewrite B. unfold h2, hput, dput; cbn. rewrite upd_other; [auto|]. intros ->. eapply (Hsh t d n); eauto.
    + rewrite A. unfold h2, hput, dput; cbn. lia.
Qed.

(** ** Constructing *)
Lemma place_dim_run c value idx a : forall h, ok h c -> (forall d, a = DObj d -> d < h_next h) ->
  let '(h', res) := place_dim c value idx a h in
  extc c h h' /\ ok h' c /\ c_vars (h_coll h' c) = c_vars (h_coll h c)
  /\ (forall n d, Registered h c n d -> Registered h' c n d)
  /\ (forall n, res = Ok n -> exists d, Registered h' c n d).
Proof.
  intros h Ho Hd. destruct a as [d|n]; unfold place_dim.
  - pose proof (add_dimension_run h c d true Ho (Hd d eq_refl)) as H.
    destruct (add_dimension c d false true h) as [h1 [[]|e]] eqn:E; destruct H as [A [B [C [D [F [G I]]]]]].
    + rewrite (bind_ok _ _ _ _ _ E). rewrite (bind_ok (get_dim d) _ h1 h1 _ eq_refl). unfold mret.
      split; [now apply hm_extc|]. split; [exact B|]. split; [exact C|]. split; [exact F|].
      intros n Hn; injection Hn as <-. destruct (G eq_refl) as [e [He _]]. exists e. now rewrite (hm_dim _ _ _ A).
    + rewrite (bind_err _ _ _ _ _ E). split; [now apply hm_extc|]. split; [exact B|]. split; [exact C|]. split; [exact F|discriminate].
  - rewrite (bind_ok (get_coll c) _ h h _ eq_refl). destruct (dmem String.eqb (c_dims (h_coll h c)) n) eqn:Em.
    + unfold mret. split; [apply extc_refl|]. split; [exact Ho|]. split; [reflexivity|]. split; [auto|].
      intros n' Hn; injection Hn as <-. apply dmem_in in Em. apply in_map_iff in Em as [[n' d] [E Hin]]. cbn in E; subst n'. exists d; exact Hin.
    + destruct (py_index _ idx) as [s|e].
      2: { rewrite (bind_err _ _ h h e) by reflexivity. split; [apply extc_refl|]. split; [exact Ho|]. split; [reflexivity|]. split; [auto|discriminate]. }
      rewrite (bind_ok _ _ h h s) by reflexivity.
      set (h1 := fst (new_dim (mkdim n (Some s) None None) h)). set (d := h_next h).
      rewrite (bind_ok (new_dim _) _ h h1 d eq_refl).
      pose proof (ext_new_dim h (mkdim n (Some s) None None)) as Hext. fold h1 in Hext.
      pose proof (ok_ext _ _ _ Ho Hext) as Ho1.
      assert (Hd1 : d < h_next h1) by (unfold d, h1; cbn; lia).
      pose proof (add_dimension_run h1 c d true Ho1 Hd1) as H.
      destruct (add_dimension c d false true h1) as [h2 [[]|e]] eqn:E; destruct H as [A [B [C [D [F [G I]]]]]].
      * rewrite (bind_ok _ _ _ _ _ E). unfold mret.
        split; [eapply extc_trans; [apply ext_extc, Hext|now apply hm_extc]|]. split; [exact B|]. split; [exact C|]. split; [exact F|].
        intros n' Hn; injection Hn as <-. destruct (G eq_refl) as [e [He _]]. exists e.
        replace (d_name (h_dim h1 d)) with n in He; [exact He|]. unfold h1, d; cbn. now rewrite upd_same.
      * rewrite (bind_err _ _ _ _ _ E). split; [eapply extc_trans; [apply ext_extc, Hext|now apply hm_extc]|].
        split; [exact B|]. split; [exact C|]. split; [exact F|discriminate].
Qed.
Lemma place_dims_run c value l : forall idx h, ok h c -> (forall d, In (DObj d) l -> d < h_next h) ->
  let '(h', res) := place_dims c value idx l h in
  extc c h h' /\ ok h' c /\ c_vars (h_coll h' c) = c_vars (h_coll h c)
  /\ (forall n d, Registered h c n d -> Registered h' c n d)
  /\ (forall names, res = Ok names -> forall n, In n names -> exists d, Registered h' c n d).
Proof.
  induction l as [|a l IH]; intros idx h Ho Hd; cbn [place_dims].
  - unfold mret. split; [apply extc_refl|]. split; [exact Ho|]. repeat split; auto. intros names H; injection H as <-. intros n [].
  - pose proof (place_dim_run c value idx a h Ho) as H.
    destruct (place_dim c value idx a h) as [h1 [n|e]] eqn:E; destruct H as [A [B [C [D F]]]].
    { intros d ->. apply Hd. now left. }
    2: { intros d ->. apply Hd. now left. }
    + rewrite (bind_ok _ _ _ _ _ E). specialize (IH (idx + 1) h1 B).
      destruct (place_dims c value (idx + 1) l h1) as [h2 [r|e]] eqn:E2; destruct IH as [A' [B' [C' [D' F']]]].
      { intros d Hin. pose proof (xc_next _ _ _ A). specialize (Hd d (or_intror Hin)). lia. }
      2: { intros d Hin. pose proof (xc_next _ _ _ A). specialize (Hd d (or_intror Hin)). lia. }
      * rewrite (bind_ok _ _ _ _ _ E2). unfold mret. split; [eapply extc_trans; eauto|]. split; [exact B'|]. split; [congruence|]. split; [auto|].
        intros names Hn; injection Hn as <-. intros m [<-|Hm]; [destruct (F n eq_refl) as [d Hx]; eauto|now apply (F' r eq_refl)].
      * rewrite (bind_err _ _ _ _ _ E2). split; [eapply extc_trans; eauto|]. split; [exact B'|]. split; [congruence|]. split; [auto|discriminate].
    + rewrite (bind_err _ _ _ _ _ E). split; [exact A|]. split; [exact B|]. split; [exact C|]. split; [exact D|discriminate].
Qed.

Lemma nodupb_nodup l : nodupb l = true -> NoDup l.
Proof.
  induction l as [|x l IH]; cbn [nodupb]; [constructor|]. intros H. apply andb_prop in H as [H1 H2]. constructor; [|auto].
  intros Hin. apply existsb_eqb_in in Hin. rewrite Hin in H1. discriminate.
Qed.
Lemma dims_of_run h ds : dims_of ds h = (h, Ok (map (h_dim h) ds)).
Proof.
  induction ds as [|d ds IH]; [reflexivity|]. cbn [dims_of]. unfold mbind at 1, get_dim. unfold mbind. now rewrite IH.
Qed.
(** Only current sizes changed. *)
Record dm (h h' : heap) : Prop := {
  dm_next : h_next h' = h_next h; dm_var : h_var h' = h_var h; dm_coll : h_coll h' = h_coll h;
  dm_dim : forall d, d_name (h_dim h' d) = d_name (h_dim h d) /\ d_size (h_dim h' d) = d_size (h_dim h d) }.
Lemma dm_inv L h h' : dm h h' -> inv L h -> inv L h'.
Proof.
  intros [A B C D] Hi c Hc. apply (ok_same h); [now apply Hi|]. split; [now rewrite C|]. rewrite B, A. repeat split; auto; try apply D; lia.
Qed.
Lemma update_current_run shape : forall l h, exists h', update_current shape l h = (h', Ok tt) /\ dm h h'.
Proof.
  induction shape as [|s shape IH]; intros l h; [exists h; split; [reflexivity|constructor; auto]|].
  destruct l as [|d l]; [exists h; split; [reflexivity|constructor; auto]|]. cbn [update_current].
  rewrite (bind_ok (get_dim d) _ h h _ eq_refl).
  destruct (d_size (h_dim h d)) as [z|] eqn:Es.
  - rewrite (bind_ok (mret tt) _ h h tt eq_refl). apply IH.
  - set (x := mkdim (d_name (h_dim h d)) None (Some s) (d_src (h_dim h d))).
    rewrite (bind_ok (put_dim d x) _ h (dput h d x) tt eq_refl).
    destruct (IH l (dput h d x)) as [h' [E [A B C D]]]. exists h'. split; [exact E|]. constructor; auto.
    intros e. destruct (D e) as [D1 D2]. rewrite D1, D2. cbn [dput h_dim]. destruct (Z.eq_dec e d) as [->|Hne].
    + rewrite upd_same. cbn. auto.
    + now rewrite upd_other.
Qed.
Lemma shape_fits_forall h c shape : forall names ds, ok h c -> Forall2 (fun n d => Registered h c n d) names ds ->
  shape_fits shape (map (h_dim h) ds) = true ->
  Forall2 (fun s n => forall d, Registered h c n d -> d_size (h_dim h d) = None \/ d_size (h_dim h d) = Some s) shape names.
Proof.
  induction shape as [|s shape IH]; intros names ds Ho HF; destruct HF as [|n d names ds Hnd HF]; cbn [map shape_fits]; try discriminate; [constructor|].
  intros H. apply andb_prop in H as [H1 H2]. constructor; [|eapply IH; eauto].
  intros e He. apply (reg_get _ _ _ _ Ho) in He, Hnd. assert (e = d) by congruence. subst e.
  destruct (d_size (h_dim h d)); [|auto]. apply Z.eqb_eq in H1. subst. auto.
Qed.

Lemma new_variable_inv L h c name value dims h' res :
  inv L h -> In c L -> (forall v, ~ Listed h c name v) -> (forall l d, dims = Some l -> In (DObj d) l -> d < h_next h) ->
  new_variable name value dims (Some c) h = (h', res) -> res <> Err ValueError ->
  inv L h' /\ forall v, res = Ok v -> v_parent (h_var h' v) = Some c /\ Listed h' c name v.
Proof.
  intros Hi Hc Hnew Hdl. pose proof (Hi c Hc) as Ho. unfold new_variable.
  set (x0 := mkvar name None value None (Some c)). set (v := h_next h).
  set (h1 := mkheap (h_dim h) (upd (h_var h) v x0) (upd (h_coll h) c (set_vars (h_coll h c) (c_vars (h_coll h c) ++ [(name, v)])%list)) (h_next h + 1)).
  assert (Hnk : ~ In name (map fst (c_vars (h_coll h c)))).
  { intros H. apply in_map_iff in H as [[n w] [E Hin]]. cbn in E; subst n. eapply Hnew; exact Hin. }
  assert (Hext : ext h (fst (new_var x0 h))) by apply ext_new_var.
  assert (Hva : va v c (fst (new_var x0 h)) h1) by (constructor; try reflexivity; intros i Hx; cbn; now rewrite upd_other).
  assert (Hc1 : h_coll h1 c = set_vars (h_coll h c) (c_vars (h_coll h c) ++ [(name, v)])%list) by (unfold h1; cbn; now rewrite upd_same).
  assert (Hv1 : h_var h1 v = x0) by (unfold h1; cbn; now rewrite upd_same).
  assert (Hnl : forall t, In t L -> forall k w, Listed (fst (new_var x0 h)) t k w -> w <> v).
  { intros t Ht k w Hw. pose proof (ok_vid _ _ (Hi t Ht) k w Hw). unfold v; lia. }
  assert (Ho1 : ok h1 c).
  { apply (ok_add_var (fst (new_var x0 h)) h1 c name v (ok_ext _ _ _ Ho Hext) Hva).
    - cbn. unfold v; lia.
    - exact (Hnl c Hc).
    - exact Hnk.
    - exact Hc1.
    - now rewrite Hv1.
    - now rewrite Hv1.
    - rewrite Hv1. intros names H. discriminate. }
  assert (Hi1 : inv L h1).
  { intros t Ht. destruct (Z.eq_dec t c) as [->|Hne]; [exact Ho1|].
    eapply (va_other (fst (new_var x0 h))); [exact Hva|exact Hne|eapply ok_ext; [apply Hi, Ht|exact Hext]|exact (Hnl t Ht)]. }
  assert (Hl1 : Listed h1 c name v) by (unfold Listed; rewrite Hc1; cbn; apply in_or_app; right; now left).
  assert (Hstart : forall (f : Z -> M Z),
    (c0 <-- mret c ;; v <-- new_var (mkvar name None value None (Some c0)) ;;
     cc <-- get_coll c0 ;; put_coll c0 (set_vars cc (dset String.eqb (c_vars cc) name v)) ;;; f v) h = f v h1).
  { intros f. rewrite (bind_ok (mret c) _ h h c eq_refl). fold x0.
    rewrite (bind_ok (new_var x0) _ h (fst (new_var x0 h)) v eq_refl).
    rewrite (bind_ok (get_coll c) _ (fst (new_var x0 h)) (fst (new_var x0 h)) (h_coll h c) eq_refl).
    rewrite dset_absent by exact Hnk.
    rewrite (bind_ok (put_coll c _) _ (fst (new_var x0 h)) h1 tt) by reflexivity. reflexivity. }
  destruct dims as [l|].
  2: { destruct value as [shape|]; [intros H; injection H as <- <-; now intros []|].
       intros E. assert (E' : mret v h1 = (h', res)) by exact (eq_trans (eq_sym (Hstart mret)) E).
       injection E' as <- <-. intros _. split; [exact Hi1|]. intros w Hw; injection Hw as <-. split; [now rewrite Hv1|exact Hl1]. }
  assert (Hm : match value, Some l with Some _, None => mraise ValueError | _, _ =>
       c0 <-- mret c ;; v <-- new_var (mkvar name None value None (Some c0)) ;;
       cc <-- get_coll c0 ;; put_coll c0 (set_vars cc (dset String.eqb (c_vars cc) name v)) ;;;
       (names <-- place_dims c0 value 0 l ;;
        if nodupb names then x <-- get_var v ;; put_var v (with_dims x (Some names)) ;;;
            ds <-- dimensions_of v ;; update_unlimited value ds ;;; mret v
        else mraise ValueError) end h
     = (names <-- place_dims c value 0 l ;;
        if nodupb names then x <-- get_var v ;; put_var v (with_dims x (Some names)) ;;;
            ds <-- dimensions_of v ;; update_unlimited value ds ;;; mret v
        else mraise ValueError) h1).
  { destruct value; exact (Hstart (fun v => names <-- place_dims c _ 0 l ;;
        if nodupb names then x <-- get_var v ;; put_var v (with_dims x (Some names)) ;;;
            ds <-- dimensions_of v ;; update_unlimited _ ds ;;; mret v
        else mraise ValueError)). }
  intros E. rewrite Hm in E. clear Hm Hstart. revert E.
  pose proof (place_dims_run c value l 0 h1 Ho1) as H.
  destruct (place_dims c value 0 l h1) as [h2 [names|e]] eqn:E2; destruct H as [A [B [C [D F]]]].
  { intros d Hd. specialize (Hdl l d eq_refl Hd). cbn. lia. }
  2: { intros d Hd. specialize (Hdl l d eq_refl Hd). cbn. lia. }
  2: { rewrite (bind_err _ _ _ _ _ E2). intros H; injection H as <- <-. intros _. split; [|discriminate]. eapply inv_extc; eauto. }
  rewrite (bind_ok _ _ _ _ _ E2). destruct (nodupb names) eqn:End; [|intros H; injection H as <- <-; now intros []].
  apply nodupb_nodup in End. specialize (F names eq_refl).
  assert (Hv2 : h_var h2 v = x0) by (rewrite (xc_var _ _ _ A) by (cbn; unfold v; lia); exact Hv1).
  assert (Hi2 : inv L h2) by (eapply inv_extc; eauto).
  assert (Hl2 : Listed h2 c name v) by (unfold Listed; rewrite C; exact Hl1).
  rewrite (bind_ok (get_var v) _ h2 h2 _ eq_refl). rewrite Hv2.
  set (x := with_dims x0 (Some names)). rewrite (bind_ok (put_var v x) _ h2 (vput h2 v x) tt eq_refl).
  destruct (resolve_ok h2 c names B F) as [ds [Er HF]].
  rewrite (bind_ok _ _ (vput h2 v x) (vput h2 v x) ds).
  2: { unfold dimensions_of. rewrite (bind_ok (get_var v) _ (vput h2 v x) (vput h2 v x) x) by (unfold get_var; cbn; now rewrite upd_same).
       cbn [x with_dims v_dims]. rewrite (bind_ok _ _ (vput h2 v x) (vput h2 v x) c) by (apply parent_of_some; cbn; now rewrite upd_same).
       rewrite (bind_ok (get_coll c) _ (vput h2 v x) (vput h2 v x) (h_coll h2 c) eq_refl). rewrite Er. reflexivity. }
  assert (Hdone : fits h2 c x -> forall h3, dm (vput h2 v x) h3 ->
     inv L h3 /\ forall w : Z, Ok v = Ok w -> v_parent (h_var h3 w) = Some c /\ Listed h3 c name w).
  { intros Hfit h3 Hdm. split.
    - eapply dm_inv; [exact Hdm|]. apply (inv_var_change L h2 c name v x); auto.
    - intros w Hw; injection Hw as <-. unfold Listed. rewrite (dm_var _ _ Hdm), (dm_coll _ _ Hdm). cbn. rewrite upd_same. auto. }
  destruct value as [shape|]; unfold update_unlimited.
  - rewrite bind_assoc. rewrite (bind_ok _ _ _ _ _ (dims_of_run (vput h2 v x) ds)).
    change (h_dim (vput h2 v x)) with (h_dim h2). destruct (shape_fits shape (map (h_dim h2) ds)) eqn:Es.
    + destruct (update_current_run shape ds (vput h2 v x)) as [h3 [E3 Hdm]]. rewrite (bind_ok _ _ _ _ _ E3). unfold mret.
      intros H; injection H as <- <-. intros _. apply Hdone; [|exact Hdm].
      intros ns Hns. injection Hns as <-. split; [exact End|split; [exact F|]]. intros sh Hsh. injection Hsh as <-.
      eapply shape_fits_forall; eauto.
    + rewrite (bind_err _ _ _ (vput h2 v x) ValueError) by reflexivity. intros H; injection H as <- <-. now intros [].
  - rewrite (bind_ok (mret tt) _ (vput h2 v x) (vput h2 v x) tt eq_refl). unfold mret. intros H; injection H as <- <-. intros _.
    apply Hdone; [|constructor; auto]. intros ns Hns. injection Hns as <-. split; [exact End|split; [exact F|]]. intros sh Hsh. discriminate.
Qed.

(** ** Every history *)
Lemma inv_empty_coll L h h' c : inv L h -> new_coll no_coll h = (h', Ok c) -> inv (c :: L) h'.
Proof.
  intros Hi E. assert (Hext : ext h h') by (replace h' with (fst (new_coll no_coll h)) by (now rewrite E); apply ext_new_coll).
  intros t [<-|Ht]; [|eapply inv_ext; eauto].
  assert (Hc : h_coll h' c = no_coll) by (injection E as <- <-; cbn; now rewrite upd_same).
  apply ok_intro; unfold Listed, Registered; rewrite ?Hc; cbn [no_coll c_vars c_dims map].
  - constructor.
  - constructor.
  - injection E as <- <-. cbn. lia.
  - intros n d [].
  - intros k v [].
Qed.
Lemma inv_sub L L' h : (forall t, In t L' -> In t L) -> inv L h -> inv L' h.
Proof. intros H Hi t Ht. auto. Qed.

Lemma tag_put_inv L h c t : inv L h -> inv L (hput h c (set_tags (h_coll h c) t)).
Proof. apply inv_tags. Qed.
Lemma create_tag_inv L c tag : tr (inv L) (create_tag c tag) (invp L).
Proof.
  intros h Hi. unfold create_tag. rewrite (bind_ok (get_coll c) _ h h _ eq_refl). destruct (dmem _ _ _); [exact Hi|]. apply inv_tags, Hi.
Qed.
Lemma tag_names_inv L c tag create : tr (inv L) (tag_names c tag create) (invp L).
Proof.
  unfold tag_names. eapply tr_bind with (Q := invp L); [intros h Hi; exact Hi| |auto]. intros cc.
  eapply tr_bind with (Q := invp L); [| |auto].
  - destruct (_ && _); [apply create_tag_inv|apply tr_ret; auto].
  - intros []. eapply tr_bind with (Q := invp L); [intros h Hi; exact Hi| |auto]. intros cc'. unfold lookup. destruct (dget _ _ _); [apply tr_ret|apply tr_raise]; auto.
Qed.
Lemma lift_inv {A} L (r : res A) : tr (inv L) (lift_res r) (invp L).
Proof. destruct r; [apply tr_ret|apply tr_raise]; auto. Qed.
Lemma get_by_tag_inv L c tag create strict : tr (inv L) (get_by_tag c tag create strict) (invp L).
Proof.
  unfold get_by_tag. eapply tr_bind with (Q := invp L); [apply tag_names_inv| |auto]. intros names.
  eapply tr_bind with (Q := invp L); [intros h Hi; exact Hi| |auto]. intros cc. apply lift_inv.
Qed.
Lemma append_to_tags_inv L c tag names create : tr (inv L) (append_to_tags c tag names create) (invp L).
Proof.
  unfold append_to_tags. eapply tr_bind with (Q := invp L); [apply tag_names_inv| |auto]. intros ns.
  eapply tr_bind with (Q := invp L); [apply lift_inv| |auto]. intros ns'. intros h Hi.
  rewrite (bind_ok (get_coll c) _ h h _ eq_refl). apply inv_tags, Hi.
Qed.
Lemma tr_eq {A} P (m : M A) Q h h' r : tr P m Q -> P h -> m h = (h', r) -> Q r h'.
Proof. intros Ht HP E. specialize (Ht h HP). now rewrite E in Ht. Qed.

Lemma reach_inv h L : Reach h L -> inv L h.
Proof.
  induction 1.
  - intros c [].
  - eapply inv_empty_coll; eauto.
  - eapply inv_ext; [exact IHReach|]. replace h' with (fst (new_dim x h)) by (now rewrite H0). apply ext_new_dim.
  - pose proof (add_dimension_run h c d check (IHReach c H0) H1) as Ha. rewrite H2 in Ha. destruct Ha as [A [B _]].
    intros t Ht. destruct (Z.eq_dec t c) as [->|Hne]; [exact B|]. eapply hm_other; eauto.
  - eapply new_variable_inv; eauto.
  - (* RNewLone *)
    set (h1 := fst (new_coll no_coll h)).
    assert (Hi1 : inv (h_next h :: L) h1) by (apply (inv_empty_coll L h); [exact IHReach|reflexivity]).
    destruct (new_variable_inv (h_next h :: L) h1 (h_next h) name value dims h' (Ok v)) as [Hi' Hv]; auto.
    + now left.
    + intros w. unfold Listed, h1. cbn. rewrite upd_same. auto.
    + intros l d Hl Hd. specialize (H0 l d Hl Hd). cbn. lia.
    + unfold new_variable in H1 |- *. destruct value, dims; try discriminate; exact H1.
    + discriminate.
    + destruct (Hv v eq_refl) as [Hp _]. assert (c = h_next h) by congruence. now subst c.
  - exact (add_variable_inv L h c s k v h' (Ok tt) IHReach H0 H1 H2 H3 H4 H5).
  - exact (add_variable_inv L h c s k v h' (Err e) IHReach H0 H1 H2 H3 H4 H5).
  - destruct (copy_coll_spec h c (IHReach c H0)) as [h2 [c2 [E Hcp]]]. rewrite H1 in E. injection E as <- <-.
    intros t [<-|Ht]; [eapply copied_ok; eauto|]. eapply ok_ext; [now apply IHReach|apply (cp_ext _ _ _ _ Hcp)].
  - pose proof (extract_run h c k v keep clean (IHReach c H0) H1) as Ha. rewrite H2 in Ha. destruct Ha as [A [B C]].
    destruct (C r eq_refl) as [x' Hx]. pose proof (cs_parent _ _ (ok_cs _ _ (ex_ok _ _ _ _ _ _ _ Hx)) _ _ (ex_ret _ _ _ _ _ _ _ Hx)) as Hp.
    assert (x = x') by congruence. subst x'. intros t [<-|Ht]; [apply (ex_ok _ _ _ _ _ _ _ Hx)|]. eapply inv_extc; eauto.
  - pose proof (extract_run h c k v keep clean (IHReach c H0) H1) as Ha. rewrite H2 in Ha. destruct Ha as [A [B C]]. eapply inv_extc; eauto.
  - pose proof (remove_variable_run h c name flag (IHReach c H0)) as Ha. rewrite H1 in Ha. destruct Ha as [A [B [_ C]]].
    destruct (C r eq_refl) as [v [x' [_ Hx]]]. apply rm_ext in Hx.
    pose proof (cs_parent _ _ (ok_cs _ _ (ex_ok _ _ _ _ _ _ _ Hx)) _ _ (ex_ret _ _ _ _ _ _ _ Hx)) as Hp.
    assert (x = x') by congruence. subst x'. intros t [<-|Ht]; [apply (ex_ok _ _ _ _ _ _ _ Hx)|]. eapply inv_extc; eauto.
  - pose proof (remove_variable_run h c name flag (IHReach c H0)) as Ha. rewrite H1 in Ha. destruct Ha as [A [B [_ C]]]. eapply inv_extc; eauto.
  - destruct (set_name_inv L h c k v name IHReach H0 H1 H2) as [Hs _]. now rewrite H3 in Hs.
  - pose proof (rename_dimension_inv L h c old new IHReach H0 H1 H2) as Hs. now rewrite H3 in Hs.
  - exact (set_bounds_inv L h c s k v kb b h' (Ok tt) IHReach H0 H1 H2 H3 H4 H5 H6).
  - exact (set_bounds_inv L h c s k v kb b h' (Err e) IHReach H0 H1 H2 H3 H4 H5 H6).
  - pose proof (drop_bounds_inv L h c k v IHReach H0 H1) as Hs. now rewrite H2 in Hs.
  - exact (tr_eq _ _ _ _ _ _ (create_tag_inv L c tag) IHReach H1).
  - exact (tr_eq _ _ _ _ _ _ (append_to_tags_inv L c tag names create) IHReach H1).
  - exact (tr_eq _ _ _ _ _ _ (get_by_tag_inv L c tag create strict) IHReach H1).
Qed.
Lemma reach_consistent h L c : Reach h L -> In c L -> Consistent h c.
Proof. intros Hr Hc. apply ok_cs, (reach_inv h L Hr c Hc). Qed.
