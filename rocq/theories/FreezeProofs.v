(** C29: proofs about freeze-thaw events. *)
From Verif Require Import Py Lib Spec PicksLib NdModel TimeModel TimeProofs SeasonProofs CalcModel CalcSpec CalcProofs.
From Coq Require Import Sorted Lqa.

Lemma first_index_some {A} (p : A -> bool) : forall l k w x, first_index p k l = Some (w, x) ->
  k <= w /\ nth_error l (Z.to_nat (w - k)) = Some x /\ p x = true /\
  forall j, k <= j < w -> exists y, nth_error l (Z.to_nat (j - k)) = Some y /\ p y = false.
Proof.
  induction l as [|a l IH]; intros k w x H; [discriminate|]. cbn [first_index] in H. destruct (p a) eqn:E.
  - injection H as <- <-. replace (Z.to_nat (k - k)) with 0%nat by lia. split; [lia|]. split; [reflexivity|]. split; [exact E|].
    intros. lia.
  - apply IH in H. destruct H as (H1 & H2 & H3 & H4). split; [lia|]. split; [|split; [exact H3|]].
    + replace (Z.to_nat (w - k)) with (S (Z.to_nat (w - (k + 1)))) by lia. exact H2.
    + intros j Hj. destruct (Z.eq_dec j k) as [->|].
      * exists a. replace (Z.to_nat (k - k)) with 0%nat by lia. split; [reflexivity|exact E].
      * destruct (H4 j ltac:(lia)) as (y & Hy & Hp). exists y.
        replace (Z.to_nat (j - k)) with (S (Z.to_nat (j - (k + 1)))) by lia. split; assumption.
Qed.
Lemma first_index_none {A} (p : A -> bool) : forall l k, first_index p k l = None -> forall x, In x l -> p x = false.
Proof.
  induction l as [|a l IH]; intros k H x Hx; [contradiction|]. cbn [first_index] in H. destruct (p a) eqn:E; [discriminate|].
  destruct Hx as [<-|Hx]; [exact E|]. eapply IH; eassumption.
Qed.

Lemma cumsum_length : forall l acc, List.length (cumsum acc l) = List.length l.
Proof. induction l; intros; cbn; auto. Qed.
Lemma cumsum_nth : forall l acc i q, nth_error (cumsum acc l) i = Some q -> (q == acc + qsum (firstn (S i) l))%Q.
Proof.
  induction l as [|x l IH]; intros acc i q H; [destruct i; discriminate|]. cbn [cumsum] in H. destruct i as [|i].
  - cbn in H. injection H as <-. cbn. lra.
  - cbn [nth_error] in H. apply IH in H. rewrite H. change (firstn (S (S i)) (x :: l)) with (x :: firstn (S i) l). cbn [qsum]. lra.
Qed.
Lemma qsum_app : forall a b, (qsum (a ++ b) == qsum a + qsum b)%Q.
Proof. induction a as [|x a IH]; intros b; cbn; [lra|]. rewrite IH. lra. Qed.
Lemma firstn_split {A} (l : list A) a b : (a <= b)%nat -> firstn b l = firstn a l ++ firstn (b - a) (skipn a l).
Proof.
  revert a b. induction l as [|x l IH]; intros a b H.
  - rewrite skipn_nil, !firstn_nil. reflexivity.
  - destruct a as [|a]; [cbn [firstn skipn app]; rewrite Nat.sub_0_r; reflexivity|]. destruct b as [|b]; [lia|].
    cbn [firstn skipn app]. f_equal. apply (IH a b). lia.
Qed.

Section FT.
Variables (temps : list Q) (threshold : Q).
Hypothesis Hthr : (0 < threshold)%Q.
Let n := zlen temps.
Let cx := cumsum 0 (0%Q :: temps).

Lemma cx_nth i q : nth_error cx i = Some q -> (q == qsum (firstn i temps))%Q.
Proof. intros H. apply cumsum_nth in H. rewrite H. change (firstn (S i) (0%Q :: temps)) with (0%Q :: firstn i temps). cbn [qsum]. lra. Qed.
Lemma cx_len : List.length cx = S (List.length temps).
Proof. unfold cx. rewrite cumsum_length. reflexivity. Qed.
Lemma cx_diff c q a b : 0 <= c <= q -> nth_error cx (Z.to_nat c) = Some a -> nth_error cx (Z.to_nat q) = Some b ->
  (b - a == degree_days temps c q)%Q.
Proof.
  intros H Ha Hb. apply cx_nth in Ha. apply cx_nth in Hb. rewrite Ha, Hb. unfold degree_days.
  rewrite (firstn_split temps (Z.to_nat c) (Z.to_nat q)) by lia. rewrite qsum_app.
  replace (Z.to_nat (q - c)) with (Z.to_nat q - Z.to_nat c)%nat by lia. lra.
Qed.

(** The differences looked at from [c] on. *)
Definition dlist (c : Z) (base : Q) : list Q := map (fun v => v - base)%Q (skipn (Z.to_nat c) cx).
Lemma dlist_nth c base j v : 0 <= c -> 0 <= j -> nth_error cx (Z.to_nat c) = Some base ->
  nth_error (dlist c base) (Z.to_nat j) = Some v -> c + j <= n /\ (v == degree_days temps c (c + j))%Q.
Proof.
  intros Hc Hj Hb H. unfold dlist in H. rewrite nth_error_map, nth_error_skipn' in H.
  replace (Z.to_nat c + Z.to_nat j)%nat with (Z.to_nat (c + j)) in H by lia.
  destruct (nth_error cx (Z.to_nat (c + j))) as [b|] eqn:E; [|discriminate]. cbn in H. injection H as <-. split.
  - assert (Z.to_nat (c + j) < List.length cx)%nat by (apply nth_error_Some; congruence). rewrite cx_len in *. unfold n, zlen. lia.
  - apply cx_diff; [lia|exact Hb|exact E].
Qed.
Lemma dlist_at c base j : 0 <= c -> 0 <= j -> c + j <= n -> exists v, nth_error (dlist c base) (Z.to_nat j) = Some v.
Proof.
  intros Hc Hj H. unfold dlist. rewrite nth_error_map, nth_error_skipn'.
  destruct (nth_error cx (Z.to_nat c + Z.to_nat j)) as [b|] eqn:E; [eexists; reflexivity|].
  apply nth_error_None in E. rewrite cx_len in E. unfold n, zlen in H. lia.
Qed.

Lemma qsign_pos q : (0 < q)%Q -> qsign q = 1.
Proof. unfold qsign, Qlt. cbn. intros H. apply Z.sgn_pos. lia. Qed.
Lemma qsign_neg q : (q < 0)%Q -> qsign q = -1.
Proof. unfold qsign, Qlt. cbn. intros H. apply Z.sgn_neg. lia. Qed.

Lemma reach_unique c p s p' s' : FirstReach temps threshold c p s -> FirstReach temps threshold c p' s' -> p = p' /\ s = s'.
Proof.
  intros (H1 & H2 & H3 & H4) (H1' & H2' & H3' & H4').
  assert (p = p').
  { destruct (Z.lt_trichotomy p p') as [H|[H|H]]; [|exact H|].
    - specialize (H3' p ltac:(lia)). lra.
    - specialize (H3 p' ltac:(lia)). lra. }
  subst p'. split; [reflexivity|]. destruct H4 as [[-> H4]|[-> H4]], H4' as [[-> H4']|[-> H4']]; try reflexivity; lra.
Qed.

Lemma find_reach c base w dw : 0 <= c <= n -> nth_error cx (Z.to_nat c) = Some base ->
  first_index (fun v => Qle_bool threshold (Qabs v)) 0 (dlist c base) = Some (w, dw) ->
  FirstReach temps threshold c (w + c) (qsign dw) /\ 0 < w + c.
Proof.
  intros Hc Hb H. apply first_index_some in H. destruct H as (H1 & H2 & H3 & H4).
  rewrite Z.sub_0_r in H2. apply Qle_bool_iff in H3.
  destruct (dlist_nth c base w dw) as [Hle Hd]; [lia|lia|exact Hb|exact H2|].
  assert (Hw : w <> 0).
  { intros ->. unfold degree_days in Hd. replace (Z.to_nat (c + 0 - c)) with 0%nat in Hd by lia. cbn in Hd.
    rewrite Hd in H3. cbn in H3. lra. }
  split; [|lia]. replace (w + c) with (c + w) by lia. unfold FirstReach. fold n. split; [lia|]. split; [rewrite <- Hd; exact H3|]. split.
  - intros q Hq. destruct (H4 (q - c) ltac:(lia)) as (y & Hy & Hp). rewrite Z.sub_0_r in Hy.
    destruct (dlist_nth c base (q - c) y) as [_ Hd']; [lia|lia|exact Hb|exact Hy|].
    replace (c + (q - c)) with q in Hd' by lia. rewrite <- Hd'. apply Qnot_le_lt. rewrite <- Qle_bool_iff. congruence.
  - destruct (Qlt_le_dec 0 dw).
    + left. rewrite <- Hd. split; [apply qsign_pos|]; assumption.
    + assert (dw < 0)%Q. { apply Qle_lteq in q. destruct q as [q|q]; [exact q|]. rewrite q in H3. cbn in H3. lra. }
      right. rewrite <- Hd. split; [apply qsign_neg|]; assumption.
Qed.

Lemma find_none c base p s : 0 <= c <= n -> nth_error cx (Z.to_nat c) = Some base ->
  first_index (fun v => Qle_bool threshold (Qabs v)) 0 (dlist c base) = None -> ~ FirstReach temps threshold c p s.
Proof.
  intros Hc Hb H (H1 & H2 & _). fold n in H1.
  destruct (dlist_at c base (p - c)) as (v & Hv); [lia|lia|lia|].
  pose proof (nth_error_In _ _ Hv) as Hin. apply (first_index_none _ _ _ H) in Hin.
  destruct (dlist_nth c base (p - c) v) as [_ Hd]; [lia|lia|exact Hb|exact Hv|]. replace (c + (p - c)) with p in Hd by lia.
  rewrite <- Hd in H2. apply Qle_bool_iff in H2. congruence.
Qed.

Definition code (e : event) : Z := ev_sign e * ev_at e.
Definition cycles_of (events : list event) : list Z := map code (rev events) ++ [0].

Definition Good (events : list event) : Prop :=
  forall e, In e events -> Crossing temps (ev_from e) /\ FirstReach temps threshold (ev_from e) (ev_at e) (ev_sign e) /\ 0 <= ev_from e.
Definition Chain (events : list event) : Prop :=
  forall pre e e' post, events = pre ++ e :: e' :: post -> ev_sign e' = - ev_sign e /\ ev_at e <= ev_from e'.
Definition Covered (events : list event) (c : Z) : Prop :=
  forall p s, FirstReach temps threshold c p s ->
     exists pre e post, events = pre ++ e :: post /\ ev_from e <= c /\ (forall e', In e' post -> c < ev_from e') /\
       (c < ev_at e \/ ev_sign e = s).

Lemma chain_snoc events e : Chain events ->
  (forall pre last, events = pre ++ [last] -> ev_sign e = - ev_sign last /\ ev_at last <= ev_from e) -> Chain (events ++ [e]).
Proof.
  intros Hc Hl pre a b post E. destruct post as [|x post] using rev_ind.
  - change (pre ++ [a; b]) with (pre ++ [a] ++ [b]) in E. rewrite app_assoc in E. apply app_inj_tail in E. destruct E as [E1 E2].
    subst b. apply (Hl pre a). exact E1.
  - clear IHpost. replace (pre ++ a :: b :: post ++ [x]) with ((pre ++ a :: b :: post) ++ [x]) in E by (rewrite <- app_assoc; reflexivity).
    apply app_inj_tail in E. destruct E as [E _]. apply (Hc pre a b post). exact E.
Qed.

(** The loop. *)
Lemma ft_loop : forall cross done events,
  (forall c, In c cross -> Crossing temps c /\ 0 <= c <= n) ->
  StronglySorted Z.le (done ++ cross) ->
  Good events -> Chain events -> (forall e, In e events -> In (ev_from e) done) -> (forall c, In c done -> Covered events c) ->
  exists events', fold_res (ft_step threshold cx) cross (cycles_of events) = Ok (cycles_of events') /\
    Good events' /\ Chain events' /\ (forall c, In c (done ++ cross) -> Covered events' c).
Proof.
  induction cross as [|c cross IH]; intros done events Hcr Hso Hg Hch Hfrom Hcov.
  - exists events. cbn [fold_res]. rewrite app_nil_r. auto.
  - assert (Hsnoc : done ++ c :: cross = (done ++ [c]) ++ cross) by (rewrite <- app_assoc; reflexivity).
    rewrite Hsnoc in Hso.
    destruct (Hcr c (or_introl eq_refl)) as [Hcc Hcn].
    assert (Hle : forall d, In d done -> d <= c).
    { intros d Hd. clear -Hso Hd. rewrite <- app_assoc in Hso. cbn in Hso. induction done as [|x done IHd]; [contradiction|].
      cbn in Hso. inversion Hso as [|? ? Hs Hf]; subst. destruct Hd as [<-|Hd]; [|apply IHd; assumption].
      rewrite Forall_forall in Hf. apply Hf. apply in_or_app. right. left. reflexivity. }
    assert (Hstep : exists events1, ft_step threshold cx (cycles_of events) c = Ok (cycles_of events1) /\
      Good events1 /\ Chain events1 /\ (forall e, In e events1 -> In (ev_from e) (done ++ [c])) /\
      (forall d, In d (done ++ [c]) -> Covered events1 d)).
    { destruct (nth_error cx (Z.to_nat c)) as [base|] eqn:Eb.
      2:{ apply nth_error_None in Eb. rewrite cx_len in Eb. unfold n, zlen in Hcn. lia. }
      assert (Epi : py_index cx c = Ok base).
      { unfold py_index. destruct (Z.ltb_spec c 0); [lia|]. unfold zlen. rewrite cx_len. unfold n, zlen in Hcn.
        replace ((c <? 0) || _) with false by lia. rewrite Eb. reflexivity. }
      assert (Hkeep : Covered events c -> exists events1, Ok (cycles_of events) = Ok (cycles_of events1) /\
        Good events1 /\ Chain events1 /\ (forall e, In e events1 -> In (ev_from e) (done ++ [c])) /\
        (forall d, In d (done ++ [c]) -> Covered events1 d)).
      { intros Hc. exists events. split; [reflexivity|]. split; [exact Hg|]. split; [exact Hch|]. split.
        - intros e He. apply in_or_app. left. apply Hfrom. exact He.
        - intros d Hd. apply in_app_or in Hd. destruct Hd as [Hd|[<-|[]]]; [apply Hcov; exact Hd|exact Hc]. }
      destruct events as [|last events0 _] using rev_ind.
      - (* no event yet *)
        unfold cycles_of. cbn [rev map app]. unfold ft_step. cbn [Z.abs]. destruct (Z.ltb_spec c 0); [lia|].
        rewrite Epi. cbn [bind]. fold (dlist c base).
        destruct (first_index _ 0 (dlist c base)) as [[w dw]|] eqn:Ef.
        + destruct (find_reach c base w dw) as [Hr Hpos]; [lia|exact Eb|exact Ef|].
          destruct Hr as (Hr1 & Hr2 & Hr3 & Hr4). assert (Hs : qsign dw =? Z.sgn 0 = false) by (destruct Hr4 as [[-> _]|[-> _]]; reflexivity).
          rewrite Hs. exists [mkevent c (w + c) (qsign dw)]. split; [reflexivity|].
          split; [|split; [|split]].
          * intros e [<-|[]]. cbn. split; [exact Hcc|]. split; [exact (conj Hr1 (conj Hr2 (conj Hr3 Hr4)))|lia].
          * intros pre e e' post E. destruct pre as [|? [|? pre]]; discriminate.
          * intros e [<-|[]]. cbn. apply in_or_app. right. left. reflexivity.
          * intros d Hd p s Hps. destruct (Z.eq_dec d c) as [->|Hne].
            -- exists [], (mkevent c (w + c) (qsign dw)), []. split; [reflexivity|]. cbn. split; [lia|]. split; [intros ? []|]. left. lia.
            -- exfalso. apply in_app_or in Hd. destruct Hd as [Hd|[<-|[]]]; [|congruence].
               destruct (Hcov d Hd p s Hps) as (pre & e & post & E & _). destruct pre; discriminate.
        + apply Hkeep. intros p s Hps. exfalso. apply (find_none c base p s); [lia|exact Eb|exact Ef|exact Hps].
      - (* a last event *)
        assert (Hlast : In last (events0 ++ [last])) by (apply in_or_app; right; left; reflexivity).
        destruct (Hg last Hlast) as (Hlc & Hlr & Hl0).
        pose proof Hlr as (Hlr1 & Hlr2 & Hlr3 & Hlr4).
        assert (Hsg : ev_sign last = 1 \/ ev_sign last = -1) by (destruct Hlr4 as [[? _]|[? _]]; auto).
        assert (Hlp : 0 < ev_at last) by lia.
        pose proof (Hle _ (Hfrom _ Hlast)) as Hlf.
        assert (Ecy : cycles_of (events0 ++ [last]) = code last :: cycles_of events0).
        { unfold cycles_of. rewrite rev_unit. reflexivity. }
        assert (Eabs : Z.abs (code last) = ev_at last) by (unfold code; destruct Hsg as [-> | ->]; lia).
        assert (Esgn : Z.sgn (code last) = ev_sign last) by (unfold code; destruct Hsg as [-> | ->]; lia).
        rewrite Ecy in Hkeep |- *. unfold ft_step. rewrite Eabs, Esgn.
        destruct (Z.ltb_spec c (ev_at last)).
        + apply Hkeep. intros p s Hps. exists events0, last, []. split; [reflexivity|]. split; [exact Hlf|]. split; [intros ? []|]. left. assumption.
        + rewrite Epi. cbn [bind]. fold (dlist c base).
          destruct (first_index _ 0 (dlist c base)) as [[w dw]|] eqn:Ef.
          * destruct (find_reach c base w dw) as [Hr Hpos]; [lia|exact Eb|exact Ef|].
            pose proof Hr as (Hr1 & Hr2 & Hr3 & Hr4).
            destruct (Z.eqb_spec (qsign dw) (ev_sign last)) as [Hes|Hes].
            -- apply Hkeep. intros p s Hps. destruct (reach_unique _ _ _ _ _ Hr Hps) as [_ <-].
               exists events0, last, []. split; [reflexivity|]. split; [exact Hlf|]. split; [intros ? []|]. right. symmetry. exact Hes.
            -- set (new := mkevent c (w + c) (qsign dw)).
               assert (Hns : ev_sign new = - ev_sign last) by (cbn; destruct Hr4 as [[E1 _]|[E1 _]], Hsg as [E2|E2]; rewrite E1, E2 in *; lia).
               exists ((events0 ++ [last]) ++ [new]). split; [|split; [|split; [|split]]].
               ++ rewrite <- Ecy. unfold cycles_of at 2. rewrite rev_unit. reflexivity.
               ++ intros e He. apply in_app_or in He. destruct He as [He|[<-|[]]]; [apply Hg; exact He|]. cbn. split; [exact Hcc|]. split; [exact Hr|lia].
               ++ apply chain_snoc; [exact Hch|]. intros pre l E. apply app_inj_tail in E. destruct E as [_ <-]. split; [exact Hns|cbn; lia].
               ++ intros e He. apply in_or_app. apply in_app_or in He. destruct He as [He|[<-|[]]]; [left; apply Hfrom; exact He|]. right. left. reflexivity.
               ++ intros d Hd p s Hps. destruct (Z.eq_dec d c) as [->|Hne].
                  ** exists (events0 ++ [last]), new, []. split; [reflexivity|]. cbn. split; [lia|]. split; [intros ? []|]. left. lia.
                  ** apply in_app_or in Hd. destruct Hd as [Hd|[<-|[]]]; [|congruence].
                     destruct (Hcov d Hd p s Hps) as (pre & e & post & E & H1 & H2 & H3).
                     exists pre, e, (post ++ [new]). split; [rewrite E, <- app_assoc; reflexivity|]. split; [exact H1|]. split; [|exact H3].
                     intros e' He'. apply in_app_or in He'. destruct He' as [He'|[<-|[]]]; [apply H2; exact He'|]. cbn. pose proof (Hle _ Hd). lia.
          * apply Hkeep. intros p s Hps. exfalso. apply (find_none c base p s); [lia|exact Eb|exact Ef|exact Hps]. }
    destruct Hstep as (events1 & E1 & Hg1 & Hch1 & Hfrom1 & Hcov1).
    destruct (IH (done ++ [c]) events1) as (events' & E' & Hg' & Hch' & Hcov'); try assumption.
    { intros d Hd. apply Hcr. right. exact Hd. }
    exists events'. cbn [fold_res]. rewrite E1. cbn [bind]. split; [exact E'|]. split; [exact Hg'|]. split; [exact Hch'|].
    rewrite Hsnoc. exact Hcov'.
Qed.

(** The crossings. *)
Lemma in_switches over c : In c (switches over) <->
  0 <= c /\ exists a b, nth_error over (Z.to_nat c) = Some a /\ nth_error over (Z.to_nat (c + 1)) = Some b /\ a <> b.
Proof.
  unfold switches.
  assert (H : forall over lo, In c (bool_select (adjacent xorb over) (zrange lo (lo + zlen over))) <->
    lo <= c /\ exists a b, nth_error over (Z.to_nat (c - lo)) = Some a /\ nth_error over (Z.to_nat (c + 1 - lo)) = Some b /\ a <> b).
  { clear. induction over as [|x t IH]; intros lo.
    - split; [intros []|]. intros (_ & a & b & H & _). destruct (Z.to_nat (c - lo)); discriminate.
    - rewrite zlen_cons. pose proof (zlen_nonneg t). rewrite zrange_cons by lia. specialize (IH (lo + 1)).
      replace (lo + (1 + zlen t)) with (lo + 1 + zlen t) by lia. cbn [adjacent]. destruct t as [|y t].
      + split; [intros []|]. intros (Hlo0 & a & b & _ & H2 & _). destruct (Z.to_nat (c + 1 - lo)) as [|[|k]] eqn:E; try discriminate. exfalso. lia.
      + cbn [bool_select].
        assert (Hc : c <> lo -> (In c (bool_select (adjacent xorb (y :: t)) (zrange (lo + 1) (lo + 1 + zlen (y :: t)))) <->
          lo <= c /\ exists a b, nth_error (x :: y :: t) (Z.to_nat (c - lo)) = Some a /\ nth_error (x :: y :: t) (Z.to_nat (c + 1 - lo)) = Some b /\ a <> b)).
        { intros Hne. rewrite IH. split.
          - intros (H1 & a & b & H2 & H3 & H4). split; [lia|]. exists a, b.
            replace (Z.to_nat (c - lo)) with (S (Z.to_nat (c - (lo + 1)))) by lia.
            replace (Z.to_nat (c + 1 - lo)) with (S (Z.to_nat (c + 1 - (lo + 1)))) by lia. auto.
          - intros (H1 & a & b & H2 & H3 & H4). split; [lia|]. exists a, b.
            replace (Z.to_nat (c - lo)) with (S (Z.to_nat (c - (lo + 1)))) in H2 by lia.
            replace (Z.to_nat (c + 1 - lo)) with (S (Z.to_nat (c + 1 - (lo + 1)))) in H3 by lia. auto. }
        assert (Hlo : ~ In lo (bool_select (adjacent xorb (y :: t)) (zrange (lo + 1) (lo + 1 + zlen (y :: t))))).
        { intros Hin. apply bool_select_in in Hin. destruct Hin as (k & _ & Hk). apply nth_error_In in Hk. apply in_zrange in Hk. lia. }
        destruct (Z.eq_dec c lo) as [->|Hne].
        * replace (Z.to_nat (lo - lo)) with 0%nat by lia. replace (Z.to_nat (lo + 1 - lo)) with 1%nat by lia. cbn [nth_error].
          destruct (xorb x y) eqn:Ex.
          -- split; [|left; reflexivity]. intros _. split; [lia|]. exists x, y. split; [reflexivity|]. split; [reflexivity|]. intros ->. destruct y; discriminate.
          -- split; [intros Hin; contradiction|]. intros (_ & a & b & Ha & Hb & Hab). injection Ha as <-. injection Hb as <-. destruct x, y; cbn in Ex; congruence.
        * destruct (xorb x y); [|apply Hc; exact Hne]. rewrite <- Hc by exact Hne. split; [intros [?|?]; [congruence|assumption]|intros; right; assumption]. }
  specialize (H over 0). rewrite !Z.add_0_l in H. rewrite H. rewrite !Z.sub_0_r. reflexivity.
Qed.

Lemma qle_bool_diff a b : Qle_bool 0 a <> Qle_bool 0 b <-> ((0 <= a /\ b < 0) \/ (a < 0 /\ 0 <= b))%Q.
Proof.
  destruct (Qle_bool 0 a) eqn:Ea, (Qle_bool 0 b) eqn:Eb.
  - apply Qle_bool_iff in Ea, Eb. split; [congruence|lra].
  - apply Qle_bool_iff in Ea. assert (b < 0)%Q by (apply Qnot_le_lt; rewrite <- Qle_bool_iff; congruence). split; [intros _; lra|congruence].
  - apply Qle_bool_iff in Eb. assert (a < 0)%Q by (apply Qnot_le_lt; rewrite <- Qle_bool_iff; congruence). split; [intros _; lra|congruence].
  - assert (a < 0)%Q by (apply Qnot_le_lt; rewrite <- Qle_bool_iff; congruence). assert (b < 0)%Q by (apply Qnot_le_lt; rewrite <- Qle_bool_iff; congruence).
    split; [congruence|lra].
Qed.

Let cross := 0 :: switches (map (Qle_bool 0) (0%Q :: temps)).
Lemma cross_spec c : In c cross <-> Crossing temps c.
Proof.
  unfold cross, Crossing. cbn [In]. rewrite in_switches. split.
  - intros [<-|(H0 & a & b & Ha & Hb & Hne)]; [left; reflexivity|].
    destruct (Z.eq_dec c 0) as [->|]; [left; reflexivity|]. right. split; [lia|].
    replace (Z.to_nat c) with (S (Z.to_nat (c - 1))) in Ha by lia. replace (Z.to_nat (c + 1)) with (S (Z.to_nat c)) in Hb by lia.
    cbn [map nth_error] in Ha, Hb. rewrite nth_error_map in Ha, Hb.
    destruct (nth_error temps (Z.to_nat (c - 1))) as [u|]; [|discriminate]. destruct (nth_error temps (Z.to_nat c)) as [v|]; [|discriminate].
    cbn in Ha, Hb. injection Ha as <-. injection Hb as <-. exists u, v. split; [reflexivity|]. split; [reflexivity|]. apply qle_bool_diff. exact Hne.
  - intros [->|(H1 & u & v & Hu & Hv & Hd)]; [left; reflexivity|]. right. split; [lia|].
    exists (Qle_bool 0 u), (Qle_bool 0 v).
    replace (Z.to_nat c) with (S (Z.to_nat (c - 1))) at 1 by lia. replace (Z.to_nat (c + 1)) with (S (Z.to_nat c)) by lia.
    cbn [map nth_error]. rewrite !nth_error_map, Hu, Hv. split; [reflexivity|]. split; [reflexivity|]. apply qle_bool_diff. exact Hd.
Qed.
Lemma crossing_range c : Crossing temps c -> 0 <= c <= n.
Proof.
  pose proof (zlen_nonneg temps). intros [->|(H1 & u & v & Hu & Hv & _)]; [unfold n; lia|].
  assert (Z.to_nat c < List.length temps)%nat by (apply nth_error_Some; congruence). unfold n, zlen. lia.
Qed.
Lemma sorted_bool_select : forall m l, StronglySorted Z.lt l -> StronglySorted Z.le (bool_select m l).
Proof.
  induction m as [|b m IH]; intros [|z l] H; cbn; try constructor. inversion H; subst. destruct b; [|apply IH; assumption].
  constructor; [apply IH; assumption|]. rewrite Forall_forall in *. intros x Hx. apply bool_select_in in Hx. destruct Hx as (k & _ & Hk).
  apply nth_error_In in Hk. specialize (H3 _ Hk). lia.
Qed.
Lemma sorted_zrange lo hi : StronglySorted Z.lt (zrange lo hi).
Proof.
  unfold zrange. generalize (Z.to_nat (hi - lo)). intros k. 
  assert (H : forall k s, StronglySorted Z.lt (map (fun k => lo + Z.of_nat k) (seq s k))).
  { clear. induction k as [|k IH]; intros s; cbn; constructor; [apply IH|]. rewrite Forall_map, Forall_forall. intros x Hx. apply in_seq in Hx. lia. }
  apply H.
Qed.
Lemma cross_sorted : StronglySorted Z.le cross.
Proof.
  unfold cross. constructor; [apply sorted_bool_select; apply sorted_zrange|]. rewrite Forall_forall. intros x Hx. apply in_switches in Hx. lia.
Qed.

Lemma ft_events : exists events, fold_res (ft_step threshold cx) cross [0] = Ok (cycles_of events) /\ FreezeThawEvents temps threshold events.
Proof.
  destruct (ft_loop cross [] []) as (events & E & Hg & Hch & Hcov).
  - intros c Hc. apply cross_spec in Hc. split; [exact Hc|apply crossing_range; exact Hc].
  - exact cross_sorted.
  - intros e [].
  - intros pre e e' post H. destruct pre; discriminate.
  - intros e [].
  - intros c [].
  - exists events. split; [exact E|]. split; [|split].
    + intros e He. destruct (Hg e He) as (H1 & H2 & _). auto.
    + exact Hch.
    + intros c p s Hc Hr. refine (Hcov c _ p s Hr). cbn [app]. apply cross_spec. exact Hc.
Qed.
End FT.

Theorem freezethaw_spec : forall x threshold, (0 < threshold)%Q -> forallb fst x = false ->
  exists events, FreezeThawEvents (map snd (filter (fun c => negb (fst c)) x)) threshold events /\
    freezethaw1d x threshold = Ok (Some (zlen events - 1)).
Proof.
  intros x thr Ht Hx. destruct (ft_events (map snd (filter (fun c => negb (fst c)) x)) thr Ht) as (events & E & He).
  exists events. split; [exact He|]. unfold freezethaw1d. rewrite Hx. rewrite E. cbn [bind]. do 2 f_equal.
  unfold cycles_of. rewrite zlen_app, zlen_map. unfold zlen. rewrite rev_length. cbn. lia.
Qed.

Theorem freezethaw_masked : forall x threshold, forallb fst x = true -> freezethaw1d x threshold = Ok None.
Proof. intros x thr H. unfold freezethaw1d. rewrite H. reflexivity. Qed.
