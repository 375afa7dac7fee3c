(** What adding, extracting, removing and renaming do, over histories. *)
From Verif Require Import Py Lib CollModel CollSpec DmapProofs CollProofs CollInvProofs CollExtractProofs CollReachProofs.
Local Open Scope string_scope.
Local Open Scope Z_scope.

Lemma uses_names h w n : Uses h w n <-> In n (dim_names h w).
Proof.
  unfold Uses, dim_names. split; [intros [l [-> H]]; exact H|]. destruct (v_dims (h_var h w)) as [l|]; [eauto|intros []].
Qed.
Lemma ext_unchanged h h' c : ok h c -> ext h h' -> Unchanged h h' c.
Proof.
  intros Ho Hx. destruct (ext_same _ _ _ Ho Hx) as [A [B _]]. split; [exact A|split; [exact B|]].
  intros n d Hd. apply (ok_did _ _ Ho) in Hd. apply (proj2 Hx d Hd).
Qed.
Lemma extc_unchanged h h' c t : extc c h h' -> ok h t -> t <> c -> Unchanged h h' t.
Proof.
  intros [A B C D] Ho Hne. split; [apply D; [apply (ok_id _ _ Ho)|exact Hne]|]. split.
  - intros k v Hl. apply B. eapply (ok_vid _ _ Ho); eauto.
  - intros n d Hd. apply C. eapply (ok_did _ _ Ho); eauto.
Qed.

(** ** Adding *)
Lemma add_effect h L c s k v h' :
  Reach h L -> In c L -> In s L -> c <> s -> Listed h s k v -> Apart h c s -> add_variable c v false h = (h', Ok tt) ->
  c_vars (h_coll h' c) = (c_vars (h_coll h c) ++ c_vars (h_coll h s))%list
  /\ (forall n w, Listed h s n w -> SameIn c h w h' w)
  /\ (forall n w, Listed h c n w -> h_var h' w = h_var h w)
  /\ (forall n d, Registered h c n d -> Registered h' c n d)
  /\ (forall t, In t L -> t <> c -> t <> s -> Unchanged h h' t).
Proof.
  intros Hr Hc Hs Hne Hl Hap E. pose proof (reach_inv _ _ Hr) as Hi.
  pose proof (add_variable_run h c s k v (Hi c Hc) (Hi s Hs) (not_eq_sym Hne) Hl Hap) as H. rewrite E in H.
  destruct H as [A [B [C [D [F [G _]]]]]]. destruct (G eq_refl) as [G1 [G2 G3]].
  assert (Hkeep : forall t, In t L -> t <> s -> forall n w, Listed h t n w -> h_var h' w = h_var h w).
  { intros t Ht Hts n w Hw. apply G3. intros m Hm. eapply (not_listed h t w s); [now apply Hi| |auto|exact Hw|reflexivity].
    eapply (cs_parent _ _ (ok_cs _ _ (Hi s Hs))); exact Hm. }
  split; [exact G1|]. split; [intros n w Hw; apply G2; eauto|]. split; [now apply Hkeep|]. split; [exact F|].
  intros t Ht Htc Hts. split; [now apply C|]. split; [now apply Hkeep|]. intros; now rewrite B.
Qed.
Lemma add_refused h L c s k v h' e :
  Reach h L -> In c L -> In s L -> c <> s -> Listed h s k v -> Apart h c s -> add_variable c v false h = (h', Err e) ->
  e = DimensionMismatchError /\ c_vars (h_coll h' c) = c_vars (h_coll h c) /\ h_var h' = h_var h
  /\ (forall n d, Registered h c n d -> Registered h' c n d)
  /\ (forall t, In t L -> t <> c -> Unchanged h h' t).
Proof.
  intros Hr Hc Hs Hne Hl Hap E. pose proof (reach_inv _ _ Hr) as Hi.
  pose proof (add_variable_run h c s k v (Hi c Hc) (Hi s Hs) (not_eq_sym Hne) Hl Hap) as H. rewrite E in H.
  destruct H as [A [B [C [D [F [_ G]]]]]]. destruct (G e eq_refl) as [G1 [G2 G3]].
  split; [exact G1|]. split; [exact G3|]. split; [exact G2|]. split; [exact F|].
  intros t Ht Htc. split; [now apply C|]. split; intros; [now rewrite G2|now rewrite B].
Qed.

(** Clashing dimensions. *)
Lemma add_clash h L c s k v n d1 d2 force_no :
  force_no = false -> Reach h L -> In c L -> In s L -> Listed h s k v ->
  Registered h c n d1 -> Registered h s n d2 -> d_size (h_dim h d1) <> d_size (h_dim h d2) ->
  exists h', add_variable c v force_no h = (h', Err DimensionMismatchError) /\ c_vars (h_coll h' c) = c_vars (h_coll h c)
  /\ h_var h' = h_var h /\ Consistent h' c.
Proof.
  intros -> Hr Hc Hs Hl H1 H2 Hd. pose proof (reach_inv _ _ Hr) as Hi. pose proof (Hi c Hc) as Ho. pose proof (Hi s Hs) as Hos.
  unfold add_variable. rewrite (bind_ok (get_var v) _ h h _ eq_refl).
  rewrite (cs_parent _ _ (ok_cs _ _ Hos) _ _ Hl). cbv zeta. rewrite (bind_ok (get_coll s) _ h h _ eq_refl).
  set (check := match v_value (h_var h v) with Some _ => false | None => true end).
  pose proof (add_dims_run c check (map snd (c_dims (h_coll h s))) h Ho) as Ha.
  destruct (mfor (map snd (c_dims (h_coll h s))) (fun d => add_dimension c d false check) h) as [h1 [[]|e]] eqn:E1;
    destruct Ha as [A [B [C [D [F [G I]]]]]];
    try (intros d Hd'; apply in_map_iff in Hd' as [[n' d'] [<- Hin]]; eapply (ok_did _ _ Hos); exact Hin).
  - exfalso. destruct (G eq_refl d2) as [e [He Hsz]]; [now apply in_map with (f := snd) in H2|].
    rewrite (cs_dim_name _ _ (ok_cs _ _ Hos) _ _ H2) in He. apply F in H1.
    apply (reg_get _ _ _ _ B) in He, H1. apply Hd. congruence.
  - rewrite (bind_err _ _ _ _ _ E1). exists h1. rewrite (I e eq_refl). split; [reflexivity|]. split; [exact C|].
    split; [apply (hm_var _ _ _ A)|apply B].
Qed.

(** Clashing names: the target stays in order (the source does not). *)
Lemma move_any c s (l : list (string * Z)) : forall h, ok h c -> s <> c ->
  (forall k w, In (k, w) l -> v_name (h_var h w) = k /\ v_parent (h_var h w) = Some s /\ w < h_next h /\ fits h c (h_var h w)) ->
  NoDup (map fst l) ->
  let '(h', res) := mfor (map snd l) (fun w => y <-- get_var w ;; put_var w (with_parent y None) ;;; add_orphan c w false) h in
  ok h' c /\ (forall k w, Listed h c k w -> Listed h' c k w /\ h_var h' w = h_var h w)
  /\ (res = Ok tt -> forall k, In k (map fst l) -> ~ In k (map fst (c_vars (h_coll h c))))
  /\ (forall e, res = Err e -> e = VariableInCollectionError).
Proof.
  induction l as [|[k w] l IH]; intros h Ho Hsc Hl Hnd; cbn [map fst snd mfor].
  - unfold mret. split; [exact Ho|split; [auto|split; [intros _ k []|discriminate]]].
  - destruct (Hl k w (or_introl eq_refl)) as [Hname [Hpar [Hid Hfit]]].
    cbn [map fst] in Hnd. inversion Hnd as [|? ? Hk Hnd']; subst.
    assert (Hnl : forall k' v, Listed h c k' v -> v <> w) by (eapply not_listed; eauto).
    destruct (dmem String.eqb (c_vars (h_coll h c)) (v_name (h_var h w))) eqn:Em.
    + set (h1 := vput h w (with_parent (h_var h w) None)).
      rewrite (bind_err _ _ h h1 VariableInCollectionError).
      2: { rewrite (bind_ok (get_var w) _ h h _ eq_refl). rewrite (bind_ok (put_var w _) _ h h1 tt eq_refl).
           unfold add_orphan, mbind, get_var, get_coll. unfold h1, vput. cbn [h_var h_coll]. rewrite !upd_same. cbn [with_parent v_name].
           rewrite Em. reflexivity. }
      assert (Hv1 : forall i, i <> w -> h_var h1 i = h_var h i) by (intros; unfold h1, vput; cbn; now rewrite upd_other).
      split; [|split; [|split; [discriminate|intros e H; now injection H]]].
      * apply (ok_same h); [exact Ho|]. split; [reflexivity|]. split; [intros; apply Hv1; eauto|]. split; [auto|unfold h1, vput; cbn; lia].
      * intros k' v Hv. split; [exact Hv|]. apply Hv1; eauto.
    + assert (Hkn : ~ In (v_name (h_var h w)) (map fst (c_vars (h_coll h c)))) by (intros H; apply dmem_in in H; congruence).
      set (h1 := mkheap (h_dim h) (upd (upd (h_var h) w (with_parent (h_var h w) None)) w (with_parent (h_var h w) (Some c)))
                   (upd (h_coll h) c (set_vars (h_coll h c) (c_vars (h_coll h c) ++ [(v_name (h_var h w), w)])%list)) (h_next h)).
      assert (E1 : (y <-- get_var w ;; put_var w (with_parent y None) ;;; add_orphan c w false) h = (h1, Ok tt)).
      { rewrite (bind_ok (get_var w) _ h h _ eq_refl). unfold mbind at 1, put_var at 1. unfold add_orphan, mbind, get_var, get_coll.
        cbn [h_var h_coll h_dim h_next]. rewrite !upd_same. cbn [with_parent v_name]. rewrite Em.
        cbn [negb andb]. unfold put_coll, put_var. cbn [h_var h_coll h_dim h_next]. rewrite dset_absent by exact Hkn. reflexivity. }
      assert (Hva : va w c h h1).
      { constructor; try reflexivity; intros i Hi; unfold h1; cbn; now rewrite !upd_other. }
      assert (Hc1 : h_coll h1 c = set_vars (h_coll h c) (c_vars (h_coll h c) ++ [(v_name (h_var h w), w)])%list) by (unfold h1; cbn; now rewrite upd_same).
      assert (Hw1 : h_var h1 w = with_parent (h_var h w) (Some c)) by (unfold h1; cbn; now rewrite upd_same).
      assert (Hwl : ~ In w (map snd l)).
      { intros H. apply in_map_iff in H as [[k' w'] [E Hin]]. cbn in E; subst w'.
        destruct (Hl k' w (or_intror Hin)) as [Hn' _]. apply Hk. rewrite Hn'. now apply in_map with (f := fst) in Hin. }
      assert (Ho1 : ok h1 c).
      { eapply (ok_add_var h h1 c _ w Ho Hva Hid); [exact Hnl|exact Hkn|exact Hc1|now rewrite Hw1|now rewrite Hw1|].
        rewrite Hw1. exact Hfit. }
      rewrite (bind_ok _ _ _ _ _ E1). specialize (IH h1 Ho1 Hsc).
      destruct (mfor (map snd l) _ h1) as [h' res]. destruct IH as [A [B [C D]]].
      * intros k' w' Hin. assert (Hne : w' <> w) by (intros ->; apply Hwl; now apply in_map with (f := snd) in Hin).
        rewrite (va_var _ _ _ _ Hva) by exact Hne. destruct (Hl k' w' (or_intror Hin)) as [P [Q [R S]]].
        split; [exact P|split; [exact Q|split; [exact R|]]]. intros names Hnm. destruct (S names Hnm) as [D1 [D2 D3]].
        split; [exact D1|split].
        -- intros n Hn. destruct (D2 n Hn) as [d Hd]. exists d. unfold Registered in *. now rewrite Hc1.
        -- intros shape Hs. eapply Forall2_impl; [|exact (D3 shape Hs)]. cbn beta. intros s0 n Hx d Hd. apply Hx.
           unfold Registered in *. now rewrite Hc1 in Hd.
      * exact Hnd'.
      * split; [exact A|split; [|split; [|exact D]]].
        -- intros k' v Hv. destruct (B k' v) as [B1 B2].
           ++ unfold Listed. rewrite Hc1. cbn [set_vars c_vars]. apply in_or_app; now left.
           ++ split; [exact B1|]. rewrite B2. apply (va_var _ _ _ _ Hva). eauto.
        -- intros Hres k' [<-|Hk']; [exact Hkn|]. intros H. apply (C Hres k' Hk'). rewrite Hc1. cbn [set_vars c_vars].
           rewrite map_app. apply in_or_app; now left.
Qed.
Lemma add_name_clash h L c s k v n w1 w2 :
  Reach h L -> In c L -> In s L -> c <> s -> Listed h s k v -> Listed h c n w1 -> Listed h s n w2 ->
  exists h' e, add_variable c v false h = (h', Err e) /\ (e = DimensionMismatchError \/ e = VariableInCollectionError)
  /\ Consistent h' c /\ (forall m w, Listed h c m w -> Listed h' c m w /\ h_var h' w = h_var h w).
Proof.
  intros Hr Hc Hs Hne Hl H1 H2. pose proof (reach_inv _ _ Hr) as Hi. pose proof (Hi c Hc) as Ho. pose proof (Hi s Hs) as Hos.
  unfold add_variable. rewrite (bind_ok (get_var v) _ h h _ eq_refl).
  rewrite (cs_parent _ _ (ok_cs _ _ Hos) _ _ Hl). cbv zeta. rewrite (bind_ok (get_coll s) _ h h _ eq_refl).
  set (check := match v_value (h_var h v) with Some _ => false | None => true end).
  pose proof (add_dims_run c check (map snd (c_dims (h_coll h s))) h Ho) as Ha.
  destruct (mfor (map snd (c_dims (h_coll h s))) (fun d => add_dimension c d false check) h) as [h1 [[]|e]] eqn:E1;
    destruct Ha as [A [B [C [D [F [G I]]]]]];
    try (intros d Hd'; apply in_map_iff in Hd' as [[n' d'] [<- Hin]]; eapply (ok_did _ _ Hos); exact Hin).
  2: { rewrite (bind_err _ _ _ _ _ E1). exists h1, e. split; [reflexivity|]. split; [left; now apply I|]. split; [apply B|].
       intros m w Hm. split; [unfold Listed; now rewrite C|now rewrite (hm_var _ _ _ A)]. }
  rewrite (bind_ok _ _ _ _ _ E1). rewrite (bind_ok (get_coll s) _ h1 h1 _ eq_refl). rewrite (hm_coll _ _ _ A s (not_eq_sym Hne)).
  pose proof (move_any c s (c_vars (h_coll h s)) h1 B (not_eq_sym Hne)) as Hm.
  match type of Hm with _ -> _ -> let '(_, _) := ?m in _ => destruct m as [h' res] eqn:E2 end.
  destruct Hm as [P [Q [R S]]].
  - intros m w Hin. rewrite (hm_var _ _ _ A), (hm_next _ _ _ A).
    split; [now apply (cs_name _ _ (ok_cs _ _ Hos))|]. split; [now apply (cs_parent _ _ (ok_cs _ _ Hos)) with m|].
    split; [now apply (ok_vid _ _ Hos) with m|]. intros names Hnm. destruct (ok_fits _ _ _ _ Hos Hin names Hnm) as [X [Y Z0]].
    assert (Hreg : forall m, In m names -> exists d e, Registered h s m d /\ Registered h1 c m e /\ d_size (h_dim h e) = d_size (h_dim h d)).
    { intros m0 Hm0. destruct (Y m0 Hm0) as [d Hd]. destruct (G eq_refl d) as [e [He Hsz]].
      - now apply in_map with (f := snd) in Hd.
      - rewrite (cs_dim_name _ _ (ok_cs _ _ Hos) _ _ Hd) in He. exists d, e. auto. }
    split; [exact X|split].
    + intros m0 Hm0. destruct (Hreg m0 Hm0) as [d [e [_ [He _]]]]. eauto.
    + intros shape Hsh. eapply Forall2_in_impl; [|exact (Z0 shape Hsh)]. cbn beta. intros sz m0 Hm0 Hx e He.
      destruct (Hreg m0 Hm0) as [d [e' [Hd [He' Hsz]]]].
      apply (reg_get _ _ _ _ B) in He, He'. rewrite (hm_dim _ _ _ A).
      assert (e = e') by congruence. subst e'. rewrite Hsz. apply Hx, Hd.
  - apply (cs_once _ _ (ok_cs _ _ Hos)).
  - destruct res as [[]|e].
    + exfalso. apply (R eq_refl n); [now apply in_map with (f := fst) in H2|]. rewrite C. now apply in_map with (f := fst) in H1.
    + exists h', e. split; [reflexivity|]. split; [right; now apply S|]. split; [apply P|].
      intros m w Hm. destruct (Q m w) as [Q1 Q2]; [unfold Listed; now rewrite C|]. split; [exact Q1|]. now rewrite Q2, (hm_var _ _ _ A).
Qed.

(** ** Extracting *)
Lemma taken_of h c v kb h' x r : extracted h c v kb h' x r -> exact_dims h c h' x -> Taken h c v kb h' x r.
Proof.
  intros [A B C D F] Hd. split; [apply A|]. split; [exact C|]. split; [|split].
  - intros n. split; [intros [w Hw]; apply (D n w Hw)|]. intros Hn. apply F, Hn.
  - intros n w' Hw. destruct (D n w' Hw) as [_ [_ [w [Hl Hv]]]]. exists w. split; [exact Hl|exact Hv].
  - intros n d. rewrite (Hd n d). split; intros [P [k [w [Q R]]]]; (split; [exact P|exists k, w; split; [exact Q|now apply uses_names]]).
Qed.
Lemma extract_effect h L c k v kb :
  Reach h L -> In c L -> Listed h c k v -> (kb = true -> BoundsFound h c v) ->
  exists h' x r, extract v kb false h = (h', Ok r) /\ (forall t, In t L -> Unchanged h h' t) /\ Taken h c v kb h' x r.
Proof.
  intros Hr Hc Hl Hb. pose proof (reach_inv _ _ Hr) as Hi.
  destruct (extract_keep_run h c k v kb (Hi c Hc) Hl Hb) as [h' [x [r [E [Hx [He Hd]]]]]].
  exists h', x, r. split; [exact E|]. split; [intros t Ht; apply ext_unchanged; auto|]. now apply taken_of.
Qed.

(** ** Removing *)
Lemma remove_loop_total c l : forall h, ok h c -> NoDup l -> (forall k, In k l -> In k (map fst (c_vars (h_coll h c)))) ->
  exists h', mfor l (fun rn =>
    cc <-- get_coll c ;; put_coll c (set_tags cc (map (fun t => (fst t, remove_first (snd t) rn)) (c_tags cc))) ;;; pop_var c rn) h = (h', Ok tt).
Proof.
  induction l as [|rn l IH]; intros h Ho Hn Hin; cbn [mfor]; [eexists; reflexivity|]. inversion Hn as [|? ? Hr Hn']; subst.
  set (h1 := hput h c (set_tags (h_coll h c) (map (fun t => (fst t, remove_first (snd t) rn)) (c_tags (h_coll h c))))).
  assert (Hc1 : h_coll h1 c = set_tags (h_coll h c) (map (fun t => (fst t, remove_first (snd t) rn)) (c_tags (h_coll h c))))
    by (unfold h1, hput; cbn; now rewrite upd_same).
  set (h2 := hput h1 c (set_vars (h_coll h1 c) (dremove String.eqb (c_vars (h_coll h1 c)) rn))).
  assert (Hc2 : h_coll h2 c = set_vars (h_coll h1 c) (dremove String.eqb (c_vars (h_coll h1 c)) rn))
    by (unfold h2, hput; cbn; now rewrite upd_same).
  assert (Ho2 : ok h2 c) by (apply ok_pop_var, ok_tags, Ho).
  assert (E1 : (cc <-- get_coll c ;; put_coll c (set_tags cc (map (fun t => (fst t, remove_first (snd t) rn)) (c_tags cc))) ;;; pop_var c rn) h = (h2, Ok tt)).
  { rewrite (bind_ok (get_coll c) _ h h _ eq_refl). rewrite (bind_ok (put_coll c _) _ h h1 tt) by reflexivity.
    unfold pop_var. rewrite (bind_ok (get_coll c) _ h1 h1 _ eq_refl).
    assert (Em : dmem String.eqb (c_vars (h_coll h1 c)) rn = true) by (rewrite Hc1; apply dmem_in, Hin; now left). rewrite Em. reflexivity. }
  destruct (IH h2 Ho2 Hn') as [h' E'].
  - intros k Hk. rewrite Hc2, Hc1. cbn [set_vars set_tags c_vars]. apply in_map_iff.
    assert (Hk' := Hin k (or_intror Hk)). apply in_map_iff in Hk' as [[k0 w] [Ek Hw]]. cbn in Ek; subst k0. exists (k, w). split; [reflexivity|].
    apply in_dremove_iff; [apply (cs_once _ _ (ok_cs _ _ Ho))|]. split; [exact Hw|]. intros ->. contradiction.
  - exists h'. now rewrite (bind_ok _ _ _ _ _ E1).
Qed.
Lemma dedup_nodup l : NoDup (dedup l).
Proof.
  induction l as [|a l IH]; cbn [dedup]; [constructor|]. destruct (existsb (String.eqb a) l) eqn:E; [exact IH|]. constructor; [|exact IH].
  rewrite in_dedup. intros H. apply existsb_eqb_in in H. congruence.
Qed.
Lemma rest_total h c name v kb D : ok h c -> Listed h c name v -> (kb = true -> bounds_there h c v) -> NoDup (kept h v kb) -> NoDup D ->
  (forall n, In n D -> exists d, Registered h c n d) ->
  exists h' r, (ret <-- extract_keep v kb ;;
    mfor (kept h v kb) (fun rn =>
      cc <-- get_coll c ;; put_coll c (set_tags cc (map (fun t => (fst t, remove_first (snd t) rn)) (c_tags cc))) ;;;
      pop_var c rn) ;;;
    remove_orphaned_dimensions c D ;;; mret ret) h = (h', Ok r).
Proof.
  intros Ho Hl Hb Hk HD HR. destruct (extract_keep_run _ _ _ _ kb Ho Hl Hb) as [h1 [x [r [E [Hext [Hex _]]]]]].
  rewrite (bind_ok _ _ _ _ _ E). pose proof (ok_ext _ _ _ Ho Hext) as Ho1. destruct (ext_same _ _ _ Ho Hext) as [Ecc _].
  destruct (remove_loop_total c (kept h v kb) h1 Ho1 Hk) as [h2 E2].
  { intros k Hin. rewrite Ecc. unfold kept in Hin. destruct Hin as [<-|Hin].
    - rewrite (cs_name _ _ (ok_cs _ _ Ho) _ _ Hl). now apply in_map with (f := fst) in Hl.
    - destruct kb; [|destruct Hin]. destruct (v_bounds (h_var h v)) as [b|] eqn:Eb; [|destruct Hin]. destruct Hin as [<-|[]].
      destruct (Hb eq_refl b Eb) as [w Hw]. now apply in_map with (f := fst) in Hw. }
  pose proof (remove_loop c (kept h v kb) h1 Ho1) as Hloop. rewrite E2 in Hloop. destruct Hloop as [Hm2 [Ho2 [HD2 _]]].
  rewrite (bind_ok _ _ _ _ _ E2).
  destruct (pop_dims_run c (filter (fun d => negb (used_by (h_coll h2 c) h2 d)) D) h2) as [h3 [E3 _]].
  - rewrite HD2, Ecc. apply (cs_dims_once _ _ (ok_cs _ _ Ho)).
  - now apply NoDup_filter.
  - intros k Hin. apply filter_In in Hin as [Hin _]. rewrite HD2, Ecc. destruct (HR k Hin) as [d Hd]. now apply in_map with (f := fst) in Hd.
  - rewrite (bind_ok _ _ h2 h3 tt) by exact E3. eexists _, _; reflexivity.
Qed.
Lemma names_registered h c k v n : ok h c -> Listed h c k v -> In n (dim_names h v) -> exists d, Registered h c n d.
Proof.
  intros Ho Hl Hn. unfold dim_names in Hn. destruct (v_dims (h_var h v)) as [l|] eqn:E; [|destruct Hn].
  eapply (cs_registered _ _ (ok_cs _ _ Ho)); eauto.
Qed.
Lemma remove_total h c name v flag : ok h c -> Listed h c name v -> (flag = true -> bounds_there h c v) -> NoDup (kept h v flag) ->
  exists h' r, remove_variable c name flag h = (h', Ok r).
Proof.
  intros Ho Hl Hb Hk. unfold remove_variable. rewrite (bind_ok (get_coll c) _ h h _ eq_refl).
  rewrite (bind_ok _ _ h h v) by (apply lookup_some; now apply listed_get).
  rewrite (bind_ok _ _ h h (dim_names h v)) by (eapply dimension_names_run; eauto).
  rewrite (bind_ok (get_var v) _ h h _ eq_refl).
  assert (Hnd : NoDup (dim_names h v)).
  { unfold dim_names. destruct (v_dims (h_var h v)) as [l|] eqn:E; [|constructor]. eapply (ok_nodup _ _ Ho); eauto. }
  destruct flag.
  - destruct (bounds_there_res _ _ _ Ho (Hb eq_refl)) as [b Eb].
    rewrite (bind_ok _ _ h h b) by (rewrite (bounds_of_run _ _ _ _ Ho Hl), Eb; reflexivity).
    destruct b as [w|].
    + destruct (bounds_listed _ _ _ _ Ho Eb) as [bn [E Hw]].
      rewrite (bind_ok _ _ h h ([v_name (h_var h v); v_name (h_var h w)], dedup (dim_names h v ++ dim_names h w)%list)).
      2: { rewrite (bind_ok (get_var w) _ h h _ eq_refl). rewrite (bind_ok _ _ h h (dim_names h w)) by (eapply dimension_names_run; eauto). reflexivity. }
      cbn [fst snd].
      assert (Ek : [v_name (h_var h v); v_name (h_var h w)] = kept h v true).
      { unfold kept. rewrite E. now rewrite (cs_name _ _ (ok_cs _ _ Ho) _ _ Hw). }
      rewrite Ek. eapply rest_total; eauto using dedup_nodup. intros n Hn. rewrite in_dedup in Hn. apply in_app_or in Hn as [Hn|Hn].
      * exact (names_registered h c name v n Ho Hl Hn).
      * exact (names_registered h c bn w n Ho Hw Hn).
    + rewrite (bind_ok _ _ h h ([v_name (h_var h v)], dim_names h v)) by reflexivity. cbn [fst snd].
      assert (Ek : [v_name (h_var h v)] = kept h v true).
      { unfold kept. unfold bounds_res in Eb. destruct (v_bounds (h_var h v)); [|reflexivity]. destruct (dget _ _ _) in Eb; discriminate. }
      rewrite Ek. eapply rest_total; eauto. intros n Hn. exact (names_registered h c name v n Ho Hl Hn).
  - rewrite (bind_ok _ _ h h None) by reflexivity.
    rewrite (bind_ok _ _ h h ([v_name (h_var h v)], dim_names h v)) by reflexivity. cbn [fst snd].
    change [v_name (h_var h v)] with (kept h v false). eapply rest_total; eauto. intros n Hn. exact (names_registered h c name v n Ho Hl Hn).
Qed.
Lemma remove_effect h L c name v flag :
  Reach h L -> In c L -> Listed h c name v -> (flag = true -> BoundsFound h c v) -> (flag = true -> v_bounds (h_var h v) <> Some name) ->
  exists h' x r, remove_variable c name flag h = (h', Ok r)
  /\ Taken h c v flag h' x r
  /\ (forall n w, Listed h' c n w <-> Listed h c n w /\ ~ In n (with_bounds_name (h_var h v) flag))
  /\ (forall n w, Listed h' c n w -> h_var h' w = h_var h w)
  /\ (forall n d, Registered h' c n d <-> Registered h c n d /\
        ~ ((exists k w, Listed h c k w /\ In k (with_bounds_name (h_var h v) flag) /\ Uses h w n) /\ forall k w, Listed h' c k w -> ~ Uses h' w n))
  /\ (forall t, In t L -> t <> c -> Unchanged h h' t).
Proof.
  intros Hr Hc Hl Hb Hself. pose proof (reach_inv _ _ Hr) as Hi. pose proof (Hi c Hc) as Ho.
  assert (Hk : NoDup (kept h v flag)).
  { unfold kept. rewrite (cs_name _ _ (ok_cs _ _ Ho) _ _ Hl). constructor.
    - destruct flag; [|tauto]. destruct (v_bounds (h_var h v)) as [b|]; [|tauto]. intros [->|[]]. now apply Hself.
    - destruct flag; [|constructor]. destruct (v_bounds (h_var h v)); constructor; [tauto|constructor]. }
  destruct (remove_total h c name v flag Ho Hl Hb Hk) as [h' [r E]].
  pose proof (remove_variable_run h c name flag Ho) as H. rewrite E in H. destruct H as [A [B [C D]]].
  destruct (D r eq_refl) as [v' [x [Hl' Hrm]]].
  assert (v' = v) by (apply (listed_get _ _ _ _ Ho) in Hl, Hl'; congruence). subst v'. destruct Hrm as [R1 R2 R3 R4 R5].
  exists h', x, r. split; [exact E|]. split; [now apply taken_of|]. split; [exact R3|].
  split; [intros n w Hw; apply R3 in Hw as [Hw _]; apply (xc_var _ _ _ A); eapply (ok_vid _ _ Ho); eauto|].
  split; [|intros t Ht Hne; eapply extc_unchanged; eauto].
  intros n d. rewrite (R5 n d). split; intros [P Q]; (split; [exact P|]); intros [[k [w [X [Y Z0]]]] W]; apply Q.
  - split; [exists k, w; split; [exact X|split; [exact Y|now apply uses_names]]|]. intros k' w' Hw' Hu. apply (W k' w' Hw'). now apply uses_names.
  - split; [exists k, w; split; [exact X|split; [exact Y|now apply uses_names]]|]. intros k' w' Hw' Hu. apply (W k' w' Hw'). now apply uses_names.
Qed.

(** ** Renaming *)
Lemma rename_effect h L c k v name :
  Reach h L -> In c L -> Listed h c k v -> (forall w, ~ Listed h c name w) ->
  exists h', set_name v name h = (h', Ok tt)
  /\ (forall n w, Listed h' c n w <-> (Listed h c n w /\ n <> k) \/ (n = name /\ w = v))
  /\ h_dim h' = h_dim h /\ c_dims (h_coll h' c) = c_dims (h_coll h c)
  /\ (forall n w, Listed h c n w -> n <> k -> h_var h' w = h_var h w)
  /\ (forall t, In t L -> t <> c -> Unchanged h h' t).
Proof.
  intros Hr Hc Hl Hnew. pose proof (reach_inv _ _ Hr) as Hi. pose proof (Hi c Hc) as Ho.
  destruct (set_name_inv L h c k v name Hi Hc Hl Hnew) as [_ HL].
  revert HL. unfold set_name. rewrite (bind_ok (get_var v) _ h h _ eq_refl). rewrite (cs_parent _ _ (ok_cs _ _ Ho) _ _ Hl).
  rewrite (bind_ok _ _ h (hput h c (set_vars (h_coll h c) (dset String.eqb (dremove String.eqb (c_vars (h_coll h c)) k) name v))) tt).
  2: { rewrite (bind_ok (get_coll c) _ h h _ eq_refl). rewrite (cs_name _ _ (ok_cs _ _ Ho) _ _ Hl), (proj1 (listed_get _ _ _ _ Ho) Hl). reflexivity. }
  set (h' := vput (hput h c (set_vars (h_coll h c) (dset String.eqb (dremove String.eqb (c_vars (h_coll h c)) k) name v))) v (with_name (h_var h v) name)).
  change (put_var v (with_name (h_var h v) name) (hput h c (set_vars (h_coll h c) (dset String.eqb (dremove String.eqb (c_vars (h_coll h c)) k) name v)))) with (h', Ok tt).
  cbn [fst]. intros HL. exists h'. split; [reflexivity|]. split; [exact HL|]. split; [reflexivity|].
  split; [unfold h', vput, hput; cbn; now rewrite upd_same|].
  assert (Hv : forall i, i <> v -> h_var h' i = h_var h i) by (intros; unfold h', vput, hput; cbn; now rewrite upd_other).
  split.
  - intros n w Hw Hn. apply Hv. intros ->. apply Hn. rewrite <- (cs_name _ _ (ok_cs _ _ Ho) _ _ Hw). apply (cs_name _ _ (ok_cs _ _ Ho) _ _ Hl).
  - intros t Ht Hne. split; [unfold h', vput, hput; cbn; now rewrite upd_other|]. split; [|reflexivity].
    intros n w Hw. apply Hv. eapply (not_listed h t v c); [now apply Hi| |auto|exact Hw]. exact (cs_parent _ _ (ok_cs _ _ Ho) _ _ Hl).
Qed.
Lemma replace_first_renamed old new l : NoDup l -> replace_first l old new = renamed old new l.
Proof.
  induction l as [|a l IH]; intros Hn; cbn [replace_first]; [reflexivity|]. inversion Hn as [|? ? Ha Hn']; subst. unfold renamed. cbn [map].
  rewrite (String.eqb_sym a old). destruct (String.eqb_spec old a) as [->|Hne].
  - f_equal. clear -Ha. induction l as [|b l IH]; [reflexivity|]. cbn [map]. destruct (String.eqb_spec b a) as [->|_]; [exfalso; apply Ha; now left|].
    rewrite <- IH; [reflexivity|]. intros H; apply Ha; now right.
  - f_equal. apply (IH Hn').
Qed.
Lemma rename_dim_effect h L c old new d :
  Reach h L -> In c L -> Registered h c old d -> (forall e, ~ Registered h c new e) ->
  exists h', rename_dimension c old new h = (h', Ok tt)
  /\ (forall n e, Registered h' c n e <-> (Registered h c n e /\ n <> old) \/ (n = new /\ e = d))
  /\ d_name (h_dim h' d) = new /\ d_size (h_dim h' d) = d_size (h_dim h d)
  /\ c_vars (h_coll h' c) = c_vars (h_coll h c)
  /\ (forall k v, Listed h c k v ->
        v_dims (h_var h' v) = option_map (renamed old new) (v_dims (h_var h v)) /\ v_value (h_var h' v) = v_value (h_var h v)).
Proof.
  intros Hr Hc Hd Hnew. pose proof (reach_inv _ _ Hr) as Hi. pose proof (Hi c Hc) as Ho. unfold rename_dimension.
  rewrite (bind_ok (get_coll c) _ h h _ eq_refl). rewrite (bind_ok _ _ h h d) by (apply lookup_some; now apply reg_get).
  rewrite (bind_ok (get_dim d) _ h h _ eq_refl).
  set (x := mkdim new (d_size (h_dim h d)) (d_cur (h_dim h d)) (d_src (h_dim h d))).
  rewrite (bind_ok (put_dim d x) _ h (dput h d x) tt eq_refl).
  assert (Hnk : ~ In new (map fst (dremove String.eqb (c_dims (h_coll h c)) old))).
  { intros H. apply in_map_iff in H as [[n w] [E Hin]]. cbn in E; subst n. apply in_dremove in Hin. eapply Hnew; exact Hin. }
  rewrite dset_absent by exact Hnk.
  set (cc := set_dims (h_coll h c) (dremove String.eqb (c_dims (h_coll h c)) old ++ [(new, d)])%list).
  set (h2 := hput (dput h d x) c cc).
  rewrite (bind_ok (put_coll c cc) _ (dput h d x) h2 tt eq_refl).
  destruct (rename_loop old new (map snd (c_vars (h_coll h c))) h2) as [h' [E' [A [B [C [D [F G]]]]]]].
  exists h'. split; [exact E'|]. specialize (G (vars_nodup _ _ Ho)).
  assert (Hc' : h_coll h' c = cc) by (rewrite C; unfold h2, hput; cbn; now rewrite upd_same).
  assert (Hdd : h_dim h' d = x) by (rewrite B; unfold h2, hput, dput; cbn; now rewrite upd_same).
  split.
  { intros n e. unfold Registered at 1. rewrite Hc'. unfold cc. cbn [set_dims c_dims]. rewrite in_app_iff, in_dremove_iff by apply (cs_dims_once _ _ (ok_cs _ _ Ho)).
    cbn [In]. unfold Registered. split; [intros [H|[H|[]]]; [auto|injection H as <- <-; auto]|intros [H|[-> ->]]; auto]. }
  rewrite Hdd. split; [reflexivity|]. split; [reflexivity|]. split; [rewrite Hc'; reflexivity|].
  intros k v Hl. destruct (F v) as [F1 [F2 F3]]. split; [|exact F3].
  rewrite G by (now apply in_map with (f := snd) in Hl). change (h_var h2 v) with (h_var h v).
  destruct (v_dims (h_var h v)) as [l|] eqn:El; [|reflexivity]. cbn [option_map]. f_equal. apply replace_first_renamed. eapply (ok_nodup _ _ Ho); eauto.
Qed.

(** ** Names of objects *)
Lemma source_stays x ops : nm_name x <> None -> source_name (fold_left nstep ops x) = source_name x.
Proof.
  revert x. induction ops as [|o ops IH]; intros x Hx; cbn [fold_left]; [reflexivity|].
  rewrite IH.
  - destruct o; cbn; [|reflexivity]. unfold source_name. cbn. destruct (nm_source x); [reflexivity|]. now destruct (nm_name x).
  - destruct o; cbn; [discriminate|exact Hx].
Qed.
Lemma name_current x ops n : nm_name x = Some n -> nm_name (fold_left nstep ops x) = Some (current n ops).
Proof.
  revert x n. induction ops as [|o ops IH]; intros x n Hx; cbn [fold_left]; [exact Hx|].
  destruct o as [m al|a]; unfold current; cbn [fold_left]; apply IH; [reflexivity|exact Hx].
Qed.
Lemma name_alias x ops n : nm_name x = Some n -> In n (nm_aliases x) -> In (current n ops) (nm_aliases (fold_left nstep ops x)).
Proof.
  revert x n. induction ops as [|o ops IH]; intros x n Hx Hin; cbn [fold_left]; [exact Hin|].
  destruct o as [m al|a]; unfold current; cbn [fold_left]; apply IH; try exact Hx; try reflexivity; cbn.
  - apply in_or_app; right; now left.
  - apply in_or_app; now left.
Qed.
Lemma history name aliases source ops :
  let x := fold_left nstep ops (named_new name aliases source) in
  source_name x = Some (match source with Some s => s | None => name end)
  /\ nm_name x = Some (current name ops) /\ is_matched_by_alias x (current name ops) = true.
Proof.
  cbv zeta. split; [|split].
  - rewrite source_stays; [|discriminate]. unfold named_new, source_name; cbn. now destruct source.
  - now apply name_current.
  - unfold is_matched_by_alias. apply existsb_eqb_in. apply name_alias; [reflexivity|]. cbn. apply in_or_app; right; now left.
Qed.
