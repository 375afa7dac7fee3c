(** Proofs for C16, C19 and C20. *)
From Verif Require Import Py Lib Spec PartitionModel NdModel NdSpec NdProofs.

(** ** C19 *)
Definition mask_step (start : bool) (c : option (nd bool) * bool) (idx : list Z) : bool :=
  if snd c then start || gives (fst c) idx else gives (fst c) idx.

Lemma masked_after_cons start c calls idx : MaskedAfter start (c :: calls) idx <-> MaskedAfter (mask_step start c idx) calls idx.
Proof.
  destruct c as [m u]. unfold MaskedAfter, mask_step; cbn [fst snd]. split.
  - intros [[Hs HF]|[before [m' [u' [after [E [Hg HF]]]]]]].
    + apply Forall_cons_iff in HF. destruct HF as [Hu HF']. cbn [snd] in Hu. subst u. left. split; [rewrite Hs; reflexivity|exact HF'].
    + destruct before as [|b before]; cbn [app] in E; injection E as E1 E2.
      * left. subst m' u' after. split; [|exact HF]. destruct u; rewrite Hg, ?orb_true_r; reflexivity.
      * right. exists before, m', u', after. split; [exact E2|]. tauto.
  - intros [[Hs HF]|[before [m' [u' [after [E [Hg HF]]]]]]].
    + destruct u.
      * apply orb_true_iff in Hs. destruct Hs as [Hs|Hs].
        -- left. split; [exact Hs|]. constructor; [reflexivity|exact HF].
        -- right. exists [], m, true, calls. split; [reflexivity|]. tauto.
      * right. exists [], m, false, calls. split; [reflexivity|]. tauto.
    + right. exists ((m, u) :: before), m', u', after. split; [cbn; rewrite E; reflexivity|]. tauto.
Qed.

Lemma var_set_mask_ok {A} (v : nvar A) m u : match m with None => True | Some a => nd_shape a = nv_shape v end ->
  exists v', var_set_mask v m u = Ok v' /\ nv_dims v' = nv_dims v /\ nv_value v' = nv_value v /\
    (forall idx, masked v' idx = mask_step (masked v idx) (m, u) idx) /\ (GoodVar v -> GoodVar v').
Proof.
  intros Hm. unfold var_set_mask.
  assert (E : (match m with None => Ok tt | Some m => check_shape m (nv_shape v) AssertionError end) = Ok tt).
  { destruct m as [a|]; [|reflexivity]. unfold check_shape. rewrite Hm, listZ_eqb_refl. reflexivity. }
  rewrite E. cbn [bind]. eexists. split; [reflexivity|]. cbn [nv_dims nv_value]. split; [reflexivity|]. split; [reflexivity|]. split.
  - intros idx. unfold masked, mask_step, gives; cbn [nv_mask fst snd]. destruct u.
    + destruct (nv_mask v) as [old|], m as [a|]; cbn [np_or nd_at]; rewrite ?orb_false_r; try reflexivity. apply orb_comm.
    + destruct m; reflexivity.
  - intros [H1 [H2 [H3 H4]]]. unfold GoodVar, nv_names, nv_shape in *; cbn [nv_dims nv_value nv_mask]. repeat split; try assumption.
    destruct u; destruct (nv_mask v) as [old|], m as [a|]; cbn [np_or nd_shape]; try exact I; assumption.
Qed.

Theorem set_mask_history {A} : forall calls (v : nvar A),
  Forall (fun c => match fst c with None => True | Some a => nd_shape a = nv_shape v end) calls ->
  exists v', fold_res (fun v c => var_set_mask v (fst c) (snd c)) calls v = Ok v' /\
    nv_dims v' = nv_dims v /\ nv_value v' = nv_value v /\
    forall idx, masked v' idx = true <-> MaskedAfter (masked v idx) calls idx.
Proof.
  induction calls as [|[m u] t IH]; intros v HF.
  - exists v. split; [reflexivity|]. split; [reflexivity|]. split; [reflexivity|]. intros idx. unfold MaskedAfter. split.
    + intros H. left. split; [exact H|constructor].
    + intros [[H _]|[before [m' [u' [after [E _]]]]]]; [exact H|destruct before; discriminate].
  - inversion HF as [|? ? Hm HFt]; subst. cbn [fst] in Hm. destruct (var_set_mask_ok v m u Hm) as [v1 [E [Hd [Hv [Hmk _]]]]].
    cbn [fold_res fst snd]. rewrite E. cbn [bind]. destruct (IH v1) as [v' [E' [Hd' [Hv' Hmk']]]].
    + eapply Forall_impl; [|exact HFt]. intros c Hc. unfold nv_shape in *. rewrite Hd. exact Hc.
    + exists v'. split; [exact E'|]. split; [congruence|]. split; [congruence|]. intros idx. rewrite Hmk', Hmk. symmetry. apply masked_after_cons.
Qed.

Theorem set_mask_wrong_shape {A} (v : nvar A) m u : nd_shape m <> nv_shape v -> var_set_mask v (Some m) u = Err AssertionError.
Proof.
  intros H. unfold var_set_mask, check_shape. destruct (listZ_eqb (nd_shape m) (nv_shape v)) eqn:E; [apply listZ_eqb_eq in E; congruence|reflexivity].
Qed.

(** ** C20 *)
Lemma in_indices : forall shape s, In s (indices shape) <-> IndexOf shape s.
Proof.
  unfold indices. induction shape as [|n t IH]; intros s; cbn [map list_product].
  - split; [intros [<-|[]]; constructor|intros H; inversion H; left; reflexivity].
  - rewrite in_flat_map. split.
    + intros [i [Hi Hs]]. apply in_map_iff in Hs. destruct Hs as [u [<- Hu]]. constructor; [apply in_zrange in Hi; lia|apply IH; exact Hu].
    + intros H. inversion H as [|? i ? u Hi HF]; subst. exists i. split; [apply in_zrange; lia|]. apply in_map. apply IH; exact HF.
Qed.

(** The template for a source index. *)
Definition template_of (ns nt : list string) (s : list Z) : list (option Z) :=
  map (fun n => match str_index ns n with Ok p => Some (nth p s 0) | Err _ => None end) nt.

Lemma mapping_ok ns nt : NoDup nt -> exists sm, get_mapping_for_slice ns nt = Ok sm /\
  (forall p q, In (p, q) sm <-> exists n, nth_error nt q = Some n /\ str_index ns n = Ok p) /\ NoDup (map snd sm).
Proof.
  intros Hn. unfold get_mapping_for_slice.
  assert (H : forall l, NoDup l -> incl l nt -> exists sm,
    map_res (fun n => do a <- str_index ns n; do b <- str_index nt n; Ok (a, b)) (filter (fun n => str_mem n ns) l) = Ok sm /\
    (forall p q, In (p, q) sm <-> exists n, In n l /\ nth_error nt q = Some n /\ str_index ns n = Ok p) /\ NoDup (map snd sm)).
  { induction l as [|y t IH]; intros Hnd Hinc.
    - exists []. split; [reflexivity|]. split; [|constructor]. intros p q. split; [intros []|intros [n [[] _]]].
    - inversion Hnd; subst. destruct IH as [sm [E [Hsm Hns]]]; [assumption|intros z Hz; apply Hinc; right; exact Hz|].
      cbn [filter]. destruct (str_mem y ns) eqn:Ey.
      + apply str_mem_In in Ey. destruct (str_index_ok ns y Ey) as [p0 [Ep Hp]].
        destruct (str_index_ok nt y) as [q0 [Eq Hq]]; [apply Hinc; left; reflexivity|].
        cbn [map_res]. rewrite Ep, Eq; cbn [bind]. rewrite E; cbn [bind]. exists ((p0, q0) :: sm). split; [reflexivity|]. split.
        * intros p q. split.
          -- intros [H|H]; [injection H as <- <-; exists y; split; [left; reflexivity|tauto]|].
             apply Hsm in H. destruct H as [n [Hin Hr]]. exists n. split; [right; exact Hin|exact Hr].
          -- intros [n [[<-|Hin] [Hr1 Hr2]]].
             ++ left. f_equal; [congruence|]. eapply nodup_nth_inj; [exact Hn|exact Hq|exact Hr1].
             ++ right. apply Hsm. exists n; tauto.
        * cbn [map snd]. constructor; [|exact Hns]. intros Hin. apply in_map_iff in Hin. destruct Hin as [[p q] [Eq' Hin]]. cbn [snd] in Eq'. subst q.
          apply Hsm in Hin. destruct Hin as [n [Hn' [Hr _]]]. rewrite Hq in Hr. injection Hr as <-. tauto.
      + exists sm. split; [exact E|]. split; [|exact Hns]. intros p q. rewrite Hsm. split.
        * intros [n [Hin Hr]]. exists n. split; [right; exact Hin|exact Hr].
        * intros [n [[<-|Hin] [Hr1 Hr2]]]; [|exists n; tauto]. exfalso. apply str_mem_nIn in Ey. apply Ey.
          clear -Hr2. revert p Hr2. induction ns as [|z u IHu]; intros p Hr2; cbn [str_index] in Hr2; [discriminate|].
          destruct (String.eqb z y) eqn:E; [apply String.eqb_eq in E; left; exact E|].
          destruct (str_index u y) as [k|]; cbn [bind] in Hr2; [|discriminate]. right. eapply IHu; reflexivity. }
  destruct (H nt Hn (incl_refl _)) as [sm [E [Hsm Hns]]]. exists sm. split; [exact E|]. split; [|exact Hns].
  intros p q. rewrite Hsm. split; intros [n Hr]; exists n; [tauto|]. split; [eapply nth_error_In; apply Hr|exact Hr].
Qed.

Definition TemplateInv (ns nt : list string) (t : list (option Z)) : Prop :=
  List.length t = List.length nt /\ forall q n, nth_error nt q = Some n -> (exists e, str_index ns n = Err e) -> nth_error t q = Some None.

Lemma fold_template ns nt sm s : (forall p q, In (p, q) sm <-> exists n, nth_error nt q = Some n /\ str_index ns n = Ok p) ->
  NoDup (map snd sm) -> forall t, TemplateInv ns nt t ->
  fold_left (fun t p => set_nth t (snd p) (Some (nth (fst p) s 0))) sm t = template_of ns nt s.
Proof.
  intros Hsm Hnd t [Hl Ht].
  assert (H : forall l t, NoDup (map snd l) -> List.length t = List.length nt ->
    List.length (fold_left (fun t p => set_nth t (snd p) (Some (nth (fst p) s 0))) l t) = List.length nt /\
    (forall p q, In (p, q) l -> (q < List.length nt)%nat -> nth_error (fold_left (fun t p => set_nth t (snd p) (Some (nth (fst p) s 0))) l t) q = Some (Some (nth p s 0))) /\
    (forall q, ~ In q (map snd l) -> nth_error (fold_left (fun t p => set_nth t (snd p) (Some (nth (fst p) s 0))) l t) q = nth_error t q)).
  { induction l as [|[p0 q0] l IH]; intros t0 Hn0 Hl0; cbn [fold_left fst snd map].
    - split; [exact Hl0|]. split; [intros p q []|]. intros q _. reflexivity.
    - cbn [map snd] in Hn0. inversion Hn0; subst. destruct (IH (set_nth t0 q0 (Some (nth p0 s 0)))) as [A1 [A2 A3]]; [assumption|rewrite set_nth_length; exact Hl0|].
      split; [exact A1|]. split.
      + intros p q [E|Hin] Hq; [|apply A2; assumption]. injection E as <- <-. rewrite A3 by assumption. apply nth_error_set_nth_same. lia.
      + intros q Hq. cbn [In] in Hq. rewrite A3 by tauto. apply nth_error_set_nth_other. intros ->. apply Hq. left; reflexivity. }
  destruct (H sm t Hnd Hl) as [H1 [H2 H3]]. apply nth_error_ext'. intros q. unfold template_of. rewrite nth_error_map.
  destruct (nth_error nt q) as [n|] eqn:En; cbn [option_map].
  - assert (Hq : (q < List.length nt)%nat) by (apply nth_error_Some; congruence).
    destruct (str_index ns n) as [p|e] eqn:Ep.
    + apply H2; [apply Hsm; exists n; tauto|exact Hq].
    + rewrite H3; [apply Ht with (n := n); [exact En|exists e; exact Ep]|]. intros Hin. apply in_map_iff in Hin. destruct Hin as [[p q'] [Eq Hin]]. cbn [snd] in Eq. subst q'.
      apply Hsm in Hin. destruct Hin as [n' [E1 E2]]. rewrite En in E1. injection E1 as <-. congruence.
  - apply nth_error_None. apply nth_error_None in En. lia.
Qed.

Lemma template_inv ns nt s : TemplateInv ns nt (template_of ns nt s).
Proof.
  split; [unfold template_of; apply map_length|]. intros q n Hq [e He]. unfold template_of. rewrite nth_error_map, Hq. cbn [option_map]. rewrite He. reflexivity.
Qed.

Lemma template_inv_none ns nt : TemplateInv ns nt (repeat None (List.length nt)).
Proof.
  split; [apply repeat_length|]. intros q n Hq _. rewrite nth_error_repeat; [reflexivity|]. apply nth_error_Some. congruence.
Qed.

Lemma fold_masks ns nt sm (ms : nd bool) : (forall p q, In (p, q) sm <-> exists n, nth_error nt q = Some n /\ str_index ns n = Ok p) ->
  NoDup (map snd sm) -> forall idxs t (m : nd bool), TemplateInv ns nt t ->
  let st := fold_left (fun st slc => let '(template, m) := st in
      if nd_at ms slc then
        let template' := fold_left (fun t p => set_nth t (snd p) (Some (nth (fst p) slc 0))) sm template in (template', set_true m template')
      else (template, m)) idxs (t, m) in
  nd_shape (snd st) = nd_shape m /\
  forall idx, nd_at (snd st) idx = existsb (fun s => nd_at ms s && matches (template_of ns nt s) idx) idxs || nd_at m idx.
Proof.
  intros Hsm Hnd. induction idxs as [|s rest IH]; intros t m Ht; cbn [fold_left existsb].
  - split; [reflexivity|]. intros idx. reflexivity.
  - destruct (nd_at ms s) eqn:Es; cbn [andb].
    + rewrite (fold_template ns nt sm s Hsm Hnd t Ht).
      destruct (IH (template_of ns nt s) (set_true m (template_of ns nt s)) (template_inv ns nt s)) as [H1 H2]. cbn zeta in *.
      split; [exact H1|]. intros idx. rewrite H2. cbn [set_true nd_at]. 
      destruct (matches (template_of ns nt s) idx), (existsb _ rest); reflexivity.
    + destruct (IH t m Ht) as [H1 H2]. cbn zeta in *. split; [exact H1|]. intros idx. rewrite H2. reflexivity.
Qed.

Lemma matches_spec : forall t idx, matches t idx = true <-> List.length t = List.length idx /\ forall q a, nth_error t q = Some (Some a) -> nth_error idx q = Some a.
Proof.
  induction t as [|[a|] t IH]; intros [|i u]; cbn [matches List.length]; split; try discriminate; try (intros [H _]; discriminate).
  - intros _. split; [reflexivity|]. intros [|q] a; discriminate.
  - reflexivity.
  - intros H. apply andb_true_iff in H. destruct H as [H1 H2]. apply Z.eqb_eq in H1. apply IH in H2. destruct H2 as [H2 H3]. split; [lia|].
    intros [|q] b Hb; cbn [nth_error] in *; [congruence|apply H3; exact Hb].
  - intros [H1 H2]. apply andb_true_iff. split; [apply Z.eqb_eq; specialize (H2 O a eq_refl); cbn in H2; congruence|].
    apply IH. split; [lia|]. intros q b Hb. apply (H2 (S q)); exact Hb.
  - intros H. apply IH in H. destruct H as [H1 H2]. split; [lia|]. intros [|q] b Hb; cbn [nth_error] in *; [discriminate|apply H2; exact Hb].
  - intros [H1 H2]. apply IH. split; [lia|]. intros q b Hb. apply (H2 (S q)); exact Hb.
Qed.

Lemma str_index_sound l x k : str_index l x = Ok k -> nth_error l k = Some x.
Proof.
  revert k. induction l as [|y t IH]; intros k H; cbn [str_index] in H; [discriminate|].
  destruct (String.eqb y x) eqn:E; [injection H as <-; apply String.eqb_eq in E; subst; reflexivity|].
  destruct (str_index t x) as [j|]; cbn [bind] in H; [|discriminate]. injection H as <-. cbn [nth_error]. apply IH; reflexivity.
Qed.

Lemma index_length shape idx : IndexOf shape idx -> List.length idx = List.length shape.
Proof. intros H. symmetry. eapply Forall2_len. exact H. Qed.

Lemma matches_agree ns nt s t : NoDup ns -> List.length s = List.length ns -> List.length t = List.length nt ->
  (matches (template_of ns nt s) t = true <-> Agree ns nt s t).
Proof.
  intros Hn Hs Ht. rewrite matches_spec. unfold Agree, template_of. rewrite map_length. split.
  - intros [_ H] n p q Hp Hq.
    specialize (H q (nth p s 0)). rewrite nth_error_map, Hq in H. cbn [option_map] in H.
    rewrite (str_index_nth ns p n Hn Hp) in H. rewrite (H eq_refl). apply nth_error_nth'. rewrite Hs. apply nth_error_Some; congruence.
  - intros H. split; [lia|]. intros q a Hq. rewrite nth_error_map in Hq. destruct (nth_error nt q) as [n|] eqn:En; [|discriminate]. cbn [option_map] in Hq.
    destruct (str_index ns n) as [p|] eqn:Ep; [|discriminate]. injection Hq as Ha. pose proof (str_index_sound _ _ _ Ep) as Hp.
    rewrite <- (H n p q Hp En). rewrite (nth_error_nth' s 0); [congruence|]. rewrite Hs. apply nth_error_Some; congruence.
Qed.

Lemma strs_eqb_eq a b : strs_eqb a b = true <-> a = b.
Proof.
  split.
  - revert b. induction a as [|x t IH]; intros [|y u] H; cbn in H; try discriminate; [reflexivity|].
    apply andb_true_iff in H. destruct H as [H1 H2]. apply String.eqb_eq in H1. rewrite (IH u H2), H1. reflexivity.
  - intros ->. induction b as [|x t IH]; [reflexivity|]. cbn. rewrite String.eqb_refl, IH. reflexivity.
Qed.

Lemma agree_same_names ns s t : NoDup ns -> List.length s = List.length ns -> List.length t = List.length ns -> Agree ns ns s t -> s = t.
Proof.
  intros Hn Hs Ht H. apply nth_error_ext'. intros k. destruct (nth_error ns k) as [n|] eqn:En; [apply (H n k k En En)|].
  apply nth_error_None in En. rewrite (proj2 (nth_error_None s k)), (proj2 (nth_error_None t k)) by lia. reflexivity.
Qed.

Theorem set_mask_by_variable_spec {A B} (source : nvar A) (target : nvar B) ms update :
  GoodVar source -> GoodVar target -> nv_mask source = Some ms ->
  (nv_names source = nv_names target -> nv_shape source = nv_shape target) ->
  exists target', set_mask_by_variable source target update = Ok target' /\
    nv_dims target' = nv_dims target /\ nv_value target' = nv_value target /\ GoodVar target' /\
    forall t, IndexOf (nv_shape target) t ->
      (masked target' t = true <->
       ((update = true \/ nv_names source <> nv_names target) /\ masked target t = true) \/
       exists s, IndexOf (nv_shape source) s /\ masked source s = true /\ Agree (nv_names source) (nv_names target) s t).
Proof.
  intros HgS HgT Hms Hcomp. unfold set_mask_by_variable. rewrite Hms.
  pose proof HgS as [HnS [HpS [HvS HmS]]]. rewrite Hms in HmS. pose proof HgT as [HnT [HpT [HvT HmT]]].
  destruct (mapping_ok (nv_names source) (nv_names target) HnT) as [sm [Em [Hsm Hnd]]]. rewrite Em. cbn [bind].
  assert (HlS : List.length (nv_shape source) = List.length (nv_names source)) by (unfold nv_shape, nv_names; rewrite !map_length; reflexivity).
  assert (HlT : List.length (nv_shape target) = List.length (nv_names target)) by (unfold nv_shape, nv_names; rewrite !map_length; reflexivity).
  destruct (strs_eqb (nv_names source) (nv_names target)) eqn:Eq.
  - apply strs_eqb_eq in Eq. specialize (Hcomp Eq).
    destruct (var_set_mask_ok target (Some ms) update) as [v' [E [Hd [Hv [Hmk Hg]]]]]; [congruence|].
    exists v'. split; [exact E|]. split; [exact Hd|]. split; [exact Hv|]. split; [apply Hg; exact HgT|].
    intros t Ht. rewrite Hmk. unfold mask_step; cbn [fst snd gives].
    assert (Hs : nd_at ms t = true <-> exists s, IndexOf (nv_shape source) s /\ masked source s = true /\ Agree (nv_names source) (nv_names target) s t).
    { split.
      - intros H. exists t. split; [rewrite Hcomp; exact Ht|]. unfold masked. rewrite Hms. split; [exact H|]. rewrite <- Eq.
        intros n p q Hp Hq. replace q with p; [reflexivity|]. exact (nodup_nth_inj _ p q n HnS Hp Hq).
      - intros [s [His [Hs Ha]]]. rewrite <- Eq in Ha.
        assert (s = t) as <-.
        { apply (agree_same_names (nv_names source)); try assumption; [rewrite (index_length _ _ His); exact HlS|rewrite (index_length _ _ Ht); congruence]. }
        unfold masked in Hs. rewrite Hms in Hs. exact Hs. }
    destruct update.
    + rewrite orb_true_iff, Hs. tauto.
    + rewrite Hs. split; [tauto|]. intros [[[H|H] _]|H]; [discriminate|congruence|exact H].
  - set (mt := match nv_mask target with Some m => m | None => mknd (nv_shape target) (fun _ => false) end).
    destruct (fold_masks (nv_names source) (nv_names target) sm ms Hsm Hnd (indices (nv_shape source))
       (repeat None (List.length (nv_names target))) mt (template_inv_none _ _)) as [F1 F2]. cbn zeta in F1, F2.
    assert (Hlen : List.length (nv_dims target) = List.length (nv_names target)) by (unfold nv_names; rewrite map_length; reflexivity).
    rewrite Hlen.
    destruct (fold_left _ (indices (nv_shape source)) _) as [tmpl m]. cbn [snd] in F1, F2.
    assert (Hmt : nd_shape mt = nv_shape target) by (unfold mt; destruct (nv_mask target); [exact HmT|reflexivity]).
    assert (Hat : forall t, nd_at mt t = masked target t) by (intros t; unfold mt, masked; destruct (nv_mask target); reflexivity).
    set (tv := mknvar (nv_dims target) (nv_value target) (match nv_mask target with Some _ => Some m | None => None end)).
    destruct (var_set_mask_ok tv (Some m) update) as [v' [E [Hd [Hv [Hmk Hg]]]]]; [change (nv_shape tv) with (nv_shape target); congruence|].
    exists v'. split; [exact E|]. split; [exact Hd|]. split; [exact Hv|]. split.
    + apply Hg. unfold GoodVar, tv, nv_names, nv_shape; cbn [nv_dims nv_value nv_mask].
      split; [exact HnT|]. split; [exact HpT|]. split; [exact HvT|]. destruct (nv_mask target); [|exact I]. unfold nv_shape in *. congruence.
    + intros t Ht. rewrite Hmk. unfold mask_step; cbn [fst snd gives].
      assert (Hnew : nd_at m t = true <-> masked target t = true \/ exists s, IndexOf (nv_shape source) s /\ masked source s = true /\ Agree (nv_names source) (nv_names target) s t).
      { rewrite F2, orb_true_iff, existsb_exists, Hat. split.
        - intros [[s [Hin Hs]]|H]; [|left; exact H]. right. exists s. apply in_indices in Hin. apply andb_true_iff in Hs. destruct Hs as [Hs1 Hs2].
          split; [exact Hin|]. split; [unfold masked; rewrite Hms; exact Hs1|]. apply matches_agree in Hs2; [exact Hs2|exact HnS| |].
          + rewrite (index_length _ _ Hin); exact HlS.
          + rewrite (index_length _ _ Ht); exact HlT.
        - intros [H|[s [Hin [Hs Ha]]]]; [right; exact H|]. left. exists s. split; [apply in_indices; exact Hin|]. apply andb_true_iff.
          split; [unfold masked in Hs; rewrite Hms in Hs; exact Hs|]. apply matches_agree; [exact HnS| | |exact Ha].
          + rewrite (index_length _ _ Hin); exact HlS.
          + rewrite (index_length _ _ Ht); exact HlT. }
      assert (Hne : nv_names source <> nv_names target) by (intros H; apply strs_eqb_eq in H; congruence).
      assert (Hor : (if update then masked tv t || nd_at m t else nd_at m t) = nd_at m t).
      { destruct update; [|reflexivity]. unfold masked, tv; cbn [nv_mask]. destruct (nv_mask target); [apply orb_diag|reflexivity]. }
      rewrite Hor, Hnew. tauto.
Qed.

Lemma mapping_nil ns nt : NoDup nt -> (get_mapping_for_slice ns nt = Ok [] <-> forall n, In n ns -> ~ In n nt).
Proof.
  intros Hn. destruct (mapping_ok ns nt Hn) as [sm [E [Hsm _]]]. rewrite E. split.
  - intros H. injection H as ->. intros n H1 H2. destruct (str_index_ok ns n H1) as [p [Ep _]]. apply In_nth_error in H2. destruct H2 as [q Eq].
    apply (proj2 (Hsm p q)). exists n; tauto.
  - intros H. destruct sm as [|[p q] t]; [reflexivity|]. destruct (proj1 (Hsm p q) (or_introl eq_refl)) as [n [H1 H2]].
    exfalso. apply (H n); [eapply nth_error_In, str_index_sound; exact H2|eapply nth_error_In; exact H1].
Qed.

Theorem collection_set_mask_spec {A} (vars : list (string * nvar A)) name exclude update source :
  dget String.eqb vars name = Some source -> GoodVar source ->
  (forall k v, In (k, v) vars -> GoodVar v /\ (nv_names source = nv_names v -> nv_shape source = nv_shape v)) ->
  exists vars', collection_set_mask vars name exclude update = Ok vars' /\
    Forall2 (fun kv kv' => fst kv' = fst kv /\
      (if str_mem (fst kv) exclude || String.eqb name (fst kv) then snd kv' = snd kv
       else Cascaded source update (snd kv) (snd kv'))) vars vars'.
Proof.
  intros Hget HgS Hall. unfold collection_set_mask. rewrite Hget.
  clear Hget. induction vars as [|[k v] t IH]; [exists []; split; [reflexivity|constructor]|].
  destruct IH as [t' [Et Ht]]; [intros k' v' Hin; apply Hall with (k := k'); right; exact Hin|].
  destruct (Hall k v (or_introl eq_refl)) as [HgV Hcomp]. cbn [map_res].
  destruct (str_mem k exclude) eqn:Ex.
  { cbn [bind]. rewrite Et. cbn [bind]. eexists. split; [reflexivity|]. constructor; [|exact Ht]. cbn [fst snd]. rewrite Ex. cbn [orb]. tauto. }
  destruct (String.eqb name k) eqn:Ek.
  { cbn [orb bind]. rewrite Et. cbn [bind]. eexists. split; [reflexivity|]. constructor; [|exact Ht]. cbn [fst snd]. rewrite Ex, Ek. cbn [orb]. tauto. }
  cbn [orb]. destruct (Z.eqb_spec (zlen (nv_dims v)) 0) as [Hz|Hz].
  { cbn [bind]. rewrite Et. cbn [bind]. eexists. split; [reflexivity|]. constructor; [|exact Ht]. cbn [fst snd]. rewrite Ex, Ek. cbn [orb].
    split; [reflexivity|]. split; [reflexivity|]. split; [reflexivity|]. split; [reflexivity|].
    intros [n [_ Hn]]. unfold nv_names in Hn. destruct (nv_dims v); [destruct Hn|]. rewrite zlen_cons in Hz. pose proof (zlen_nonneg l). lia. }
  pose proof HgV as [HnV _]. destruct (mapping_ok (nv_names source) (nv_names v) HnV) as [sm [Em [Hsm Hnd]]]. rewrite Em. cbn [bind].
  destruct sm as [|pq sm].
  - pose proof (proj1 (mapping_nil _ _ HnV) Em) as Hno. rewrite Et. cbn [bind]. eexists. split; [reflexivity|]. constructor; [|exact Ht]. cbn [fst snd]. rewrite Ex, Ek. cbn [orb].
    split; [reflexivity|]. split; [reflexivity|]. split; [reflexivity|]. split; [reflexivity|].
    intros [n [H1 H2]]. exfalso. apply (Hno n H1 H2).
  - assert (Hsh : ~ forall n, In n (nv_names source) -> ~ In n (nv_names v)).
    { intros H. apply (mapping_nil _ _ HnV) in H. congruence. }
    destruct (nv_mask source) as [ms|] eqn:Ems.
    + destruct (set_mask_by_variable_spec source v ms update HgS HgV Ems Hcomp) as [v' [E [H1 [H2 [_ H4]]]]].
      rewrite E. cbn [bind]. rewrite Et. cbn [bind]. eexists. split; [reflexivity|]. constructor; [|exact Ht]. cbn [fst snd]. rewrite Ex, Ek. cbn [orb].
      split; [reflexivity|]. unfold Cascaded. split; [exact H1|]. split; [exact H2|]. split; [tauto|]. intros _. rewrite Ems. exact H4.
    + unfold set_mask_by_variable at 1. rewrite Ems. cbn [bind]. rewrite Et. cbn [bind]. eexists. split; [reflexivity|]. constructor; [|exact Ht]. cbn [fst snd]. rewrite Ex, Ek. cbn [orb].
      split; [reflexivity|]. unfold Cascaded. split; [reflexivity|]. split; [reflexivity|]. split; [tauto|]. intros _. rewrite Ems. reflexivity.
Qed.

(** ** C16 *)
Lemma find_seq (p : nat -> bool) : forall n k,
  match find p (seq k n) with
  | Some i => (k <= i < k + n)%nat /\ p i = true /\ forall j, (k <= j < i)%nat -> p j = false
  | None => forall j, (k <= j < k + n)%nat -> p j = false
  end.
Proof.
  induction n as [|n IH]; intros k; cbn [seq find]; [intros j Hj; lia|].
  destruct (p k) eqn:E; [split; [lia|]; split; [exact E|]; intros j Hj; lia|].
  specialize (IH (S k)). destruct (find p (seq (S k) n)) as [i|].
  - destruct IH as [H1 [H2 H3]]. split; [lia|]. split; [exact H2|]. intros j Hj. destruct (Nat.eq_dec j k) as [->|]; [exact E|apply H3; lia].
  - intros j Hj. destruct (Nat.eq_dec j k) as [->|]; [exact E|apply IH; lia].
Qed.

Lemma first_not_spec p n : (exists i, (i < n)%nat /\ p i = false) ->
  (first_not p n < n)%nat /\ p (first_not p n) = false /\ forall j, (j < n)%nat -> p j = false -> (first_not p n <= j)%nat.
Proof.
  intros [i [Hi Hp]]. unfold first_not. pose proof (find_seq (fun i => negb (p i)) n 0) as H.
  destruct (find (fun i => negb (p i)) (seq 0 n)) as [k|].
  - destruct H as [H1 [H2 H3]]. split; [lia|]. split; [destruct (p k); [discriminate|reflexivity]|].
    intros j Hj Hpj. destruct (Nat.lt_ge_cases j k) as [Hlt|]; [|assumption]. specialize (H3 j ltac:(lia)). rewrite Hpj in H3. discriminate.
  - specialize (H i ltac:(lia)). rewrite Hp in H. discriminate.
Qed.

Lemma last_not_spec p n : (exists i, (i < n)%nat /\ p i = false) ->
  (0 < last_not p n <= n)%nat /\ p (last_not p n - 1)%nat = false /\ forall j, (j < n)%nat -> p j = false -> (j < last_not p n)%nat.
Proof.
  intros [i [Hi Hp]]. unfold last_not. pose proof (find_seq (fun i => negb (p (n - (i + 1))%nat)) n 0) as H.
  destruct (find (fun i => negb (p (n - (i + 1))%nat)) (seq 0 n)) as [k|].
  - destruct H as [H1 [H2 H3]]. split; [lia|]. split; [rewrite Nat.add_sub; destruct (p (n - (k + 1))%nat); [discriminate|reflexivity]|].
    intros j Hj Hpj. destruct (Nat.lt_ge_cases j (n - (k + 1) + 1)) as [Hlt|Hge]; [assumption|].
    specialize (H3 (n - (j + 1))%nat ltac:(lia)). replace (n - (n - (j + 1) + 1))%nat with j in H3 by lia. rewrite Hpj in H3. discriminate.
  - specialize (H (n - (i + 1))%nat ltac:(lia)). replace (n - (n - (i + 1) + 1))%nat with i in H by lia. rewrite Hp in H. discriminate.
Qed.

Lemma forallb_id_false (l : list bool) : forallb (fun b => b) l = false <-> exists j, nth_error l j = Some false.
Proof.
  induction l as [|b t IH]; cbn [forallb].
  - split; [discriminate|intros [[|j] H]; discriminate].
  - destruct b; cbn [andb].
    + rewrite IH. split; [intros [j H]; exists (S j); exact H|intros [[|j] H]; [discriminate|exists j; exact H]].
    + split; [intros _; exists O; reflexivity|reflexivity].
Qed.

Lemma row_all_false mask i : row_all mask i = false <-> exists j, cell mask i j = Some false.
Proof.
  unfold row_all, cell. destruct (nth_error mask i) as [row|] eqn:E.
  - rewrite (nth_error_nth mask i [] E). apply forallb_id_false.
  - rewrite nth_overflow by (apply nth_error_None; exact E). cbn. split; [discriminate|intros [j H]; discriminate].
Qed.

Lemma col_all_false mask j : col_all mask j = false <-> exists i, cell mask i j = Some false.
Proof.
  unfold col_all, cell. induction mask as [|row t IH]; cbn [forallb].
  - split; [discriminate|intros [[|i] H]; discriminate].
  - destruct (nth j row true) eqn:E; cbn [andb].
    + rewrite IH. split; [intros [i H]; exists (S i); exact H|].
      intros [[|i] H]; [|exists i; exact H]. cbn [nth_error] in H. rewrite (nth_error_nth row j true H) in E. discriminate.
    + split; [|reflexivity]. intros _. exists O. cbn [nth_error]. destruct (nth_error row j) as [b|] eqn:En.
      * rewrite (nth_error_nth row j true En) in E. congruence.
      * rewrite nth_overflow in E by (apply nth_error_None; exact En). discriminate.
Qed.

Lemma nth_error_cut {A} (l : list A) a b k : nth_error (firstn (b - a) (skipn a l)) k = if Nat.ltb k (b - a) then nth_error l (a + k) else None.
Proof.
  destruct (Nat.ltb_spec k (b - a)) as [H|H].
  - rewrite <- (firstn_skipn a l) at 2. revert k b l H. intros k b l H.
    assert (E : nth_error (firstn (b - a) (skipn a l)) k = nth_error (skipn a l) k).
    { clear -H. revert k H. generalize (b - a)%nat as n. generalize (skipn a l) as u. induction u as [|x u IH]; intros n k H; [rewrite firstn_nil; reflexivity|].
      destruct n as [|n]; [lia|]. destruct k as [|k]; [reflexivity|]. cbn [firstn nth_error]. apply IH; lia. }
    rewrite E. rewrite firstn_skipn. clear. revert l. induction a as [|a IH]; intros l; [reflexivity|]. destruct l as [|x l]; [rewrite skipn_nil; destruct k; reflexivity|]. cbn [skipn plus nth_error]. apply IH.
  - apply nth_error_None. rewrite firstn_length. lia.
Qed.

Lemma cell_cut {A} (m : list (list A)) r0 r1 c0 c1 i j :
  cell (cut2 m ((r0, r1), (c0, c1))) i j = if (Nat.ltb i (r1 - r0) && Nat.ltb j (c1 - c0))%bool then cell m (r0 + i) (c0 + j) else None.
Proof.
  unfold cell, cut2. rewrite nth_error_map, nth_error_cut. destruct (Nat.ltb i (r1 - r0)); cbn [andb option_map]; [|reflexivity].
  destruct (nth_error m (r0 + i)) as [row|]; cbn [option_map]; [|destruct (Nat.ltb j (c1 - c0)); reflexivity].
  rewrite nth_error_cut. reflexivity.
Qed.

Theorem trimmed_spec {A} (values : list (list A)) mask ncol :
  Forall (fun row => List.length row = ncol) mask ->
  (exists i j, cell mask i j = Some false) ->
  exists r0 r1 c0 c1, 
    get_trimmed_array_by_mask values mask ncol = Ok (cut2 values ((r0, r1), (c0, c1)), cut2 mask ((r0, r1), (c0, c1)), ((r0, r1), (c0, c1))) /\
    (r0 < r1 <= List.length mask)%nat /\ (c0 < c1 <= ncol)%nat /\
    (forall i j, cell mask i j = Some false -> (r0 <= i < r1)%nat /\ (c0 <= j < c1)%nat) /\
    (exists j, cell mask r0 j = Some false) /\ (exists j, cell mask (r1 - 1) j = Some false) /\
    (exists i, cell mask i c0 = Some false) /\ (exists i, cell mask i (c1 - 1) = Some false) /\
    forall i j, (i < r1 - r0)%nat -> (j < c1 - c0)%nat -> 
      cell (cut2 values ((r0, r1), (c0, c1))) i j = cell values (r0 + i) (c0 + j) /\
      cell (cut2 mask ((r0, r1), (c0, c1))) i j = cell mask (r0 + i) (c0 + j).
Proof.
  intros Hrect Hex. unfold get_trimmed_array_by_mask, trim_slices.
  assert (Hall : forallb (fun row => forallb (fun b => b) row) mask = false).
  { destruct Hex as [i [j H]]. destruct (forallb _ mask) eqn:E; [|reflexivity]. rewrite forallb_forall in E.
    unfold cell in H. destruct (nth_error mask i) as [row|] eqn:Er; [|discriminate]. specialize (E row (nth_error_In _ _ Er)).
    assert (forallb (fun b => b) row = false) by (apply forallb_id_false; exists j; exact H). congruence. }
  rewrite Hall. cbn [bind].
  assert (Hrange : forall i j, cell mask i j = Some false -> (i < List.length mask)%nat /\ (j < ncol)%nat).
  { intros i j H. unfold cell in H. destruct (nth_error mask i) as [row|] eqn:Er; [|discriminate]. split; [apply nth_error_Some; congruence|].
    rewrite Forall_forall in Hrect. rewrite <- (Hrect row (nth_error_In _ _ Er)). apply nth_error_Some; congruence. }
  assert (Hr : exists i, (i < List.length mask)%nat /\ row_all mask i = false).
  { destruct Hex as [i [j H]]. exists i. split; [apply (Hrange i j H)|apply row_all_false; exists j; exact H]. }
  assert (Hc : exists j, (j < ncol)%nat /\ col_all mask j = false).
  { destruct Hex as [i [j H]]. exists j. split; [apply (Hrange i j H)|apply col_all_false; exists i; exact H]. }
  destruct (first_not_spec _ _ Hr) as [R1 [R2 R3]]. destruct (last_not_spec _ _ Hr) as [S1 [S2 S3]].
  destruct (first_not_spec _ _ Hc) as [C1 [C2 C3]]. destruct (last_not_spec _ _ Hc) as [D1 [D2 D3]].
  set (r0 := first_not (row_all mask) (List.length mask)) in *. set (r1 := last_not (row_all mask) (List.length mask)) in *.
  set (c0 := first_not (col_all mask) ncol) in *. set (c1 := last_not (col_all mask) ncol) in *.
  exists r0, r1, c0, c1. split; [reflexivity|].
  split; [split; [apply S3; assumption|lia]|]. split; [split; [apply D3; assumption|lia]|].
  split.
  { intros i j H. destruct (Hrange i j H) as [Hi Hj].
    assert (Hi' : row_all mask i = false) by (apply row_all_false; exists j; exact H).
    assert (Hj' : col_all mask j = false) by (apply col_all_false; exists i; exact H).
    split; split; [apply R3|apply S3|apply C3|apply D3]; assumption. }
  split; [apply row_all_false; exact R2|]. split; [apply row_all_false; exact S2|].
  split; [apply col_all_false; exact C2|]. split; [apply col_all_false; exact D2|].
  intros i j Hi Hj. rewrite !cell_cut.
  replace (Nat.ltb i (r1 - r0)) with true by (symmetry; apply Nat.ltb_lt; exact Hi).
  replace (Nat.ltb j (c1 - c0)) with true by (symmetry; apply Nat.ltb_lt; exact Hj). split; reflexivity.
Qed.

Theorem trimmed_raises {A} (values : list (list A)) mask ncol :
  (forall i j, cell mask i j <> Some false) -> get_trimmed_array_by_mask values mask ncol = Err AllElementsMaskedError.
Proof.
  intros H. unfold get_trimmed_array_by_mask, trim_slices.
  assert (Hall : forallb (fun row => forallb (fun b => b) row) mask = true).
  { apply forallb_forall. intros row Hrow. apply In_nth_error in Hrow. destruct Hrow as [i Ei].
    destruct (forallb (fun b => b) row) eqn:E; [reflexivity|]. apply forallb_id_false in E. destruct E as [j Ej].
    exfalso. apply (H i j). unfold cell. rewrite Ei. exact Ej. }
  rewrite Hall. reflexivity.
Qed.

Theorem trimmed_1d_spec mask : (exists i, nth_error mask i = Some false) ->
  exists a b, trim_slices_1d mask = Ok (a, b) /\ (a < b <= List.length mask)%nat /\
    (forall i, nth_error mask i = Some false -> (a <= i < b)%nat) /\ nth_error mask a = Some false /\ nth_error mask (b - 1) = Some false.
Proof.
  intros Hex. unfold trim_slices_1d.
  assert (Hall : forallb (fun b => b) mask = false) by (apply forallb_id_false; exact Hex). rewrite Hall.
  assert (Hp : forall i, (i < List.length mask)%nat /\ nth i mask true = false <-> nth_error mask i = Some false).
  { intros i. split.
    - intros [H1 H2]. rewrite (nth_error_nth' mask true H1). congruence.
    - intros H. split; [apply nth_error_Some; congruence|]. apply (nth_error_nth mask i true H). }
  assert (Hx : exists i, (i < List.length mask)%nat /\ nth i mask true = false) by (destruct Hex as [i Hi]; exists i; apply Hp; exact Hi).
  destruct (first_not_spec (fun i => nth i mask true) _ Hx) as [R1 [R2 R3]]. destruct (last_not_spec (fun i => nth i mask true) _ Hx) as [S1 [S2 S3]].
  eexists _, _. split; [reflexivity|]. split; [split; [apply S3; assumption|lia]|]. split.
  - intros i Hi. apply Hp in Hi. split; [apply R3; tauto|apply S3; tauto].
  - split; apply Hp; split; try assumption; lia.
Qed.
