(** Proofs for C21. *)
From Verif Require Import Py Lib Spec PicksLib BetweenModel BetweenSpec.
From Coq Require Import Lqa.

Lemma qle_spec x y : qle x y = true <-> (x <= y)%Q.
Proof. apply Qle_bool_iff. Qed.
Lemma qge_spec x y : qge x y = true <-> (y <= x)%Q.
Proof. apply Qle_bool_iff. Qed.
Lemma qgt_spec x y : qgt x y = true <-> (y < x)%Q.
Proof.
  unfold qgt. rewrite negb_true_iff. split; intros H.
  - apply Qnot_le_lt. intros H'. apply Qle_bool_iff in H'. congruence.
  - destruct (Qle_bool x y) eqn:E; [|reflexivity]. apply Qle_bool_iff in E. exfalso. lra.
Qed.
Lemma qlt_spec x y : qlt x y = true <-> (x < y)%Q.
Proof. apply (qgt_spec y x). Qed.

Ltac qbool := repeat rewrite ?andb_true_iff, ?orb_true_iff, ?qle_spec, ?qge_spec, ?qgt_spec, ?qlt_spec.

Lemma qle_total x y : (x <= y)%Q \/ (y < x)%Q.
Proof. destruct (Qlt_le_dec y x); tauto. Qed.

(** The three rules. *)
Lemma rule_closed a b lower upper : (lower < upper)%Q ->
  ((qgt a lower || qgt b lower) && (qlt a upper || qlt b upper) = true <-> exists x, InRange true lower upper x /\ InCell (a, b) x).
Proof.
  intros Hlu. qbool. unfold InRange, InCell; cbn [fst snd].
  assert (H : forall p q, (p <= q -> lower < q -> p < upper -> exists x, (lower < x /\ x < upper) /\ (p <= x /\ x <= q))%Q).
  { intros p q Hpq H1 H2. destruct (qle_total p lower) as [Hp|Hp]; [|exists p; lra].
    destruct (qle_total q upper) as [Hq|Hq]; [exists ((lower + q) * (1 # 2))%Q|exists ((lower + upper) * (1 # 2))%Q]; lra. }
  split.
  - intros [H1 H2]. destruct (qle_total a b) as [Hab|Hab].
    + destruct (H a b Hab) as [x Hx]; [lra|lra|]. exists x. tauto.
    + destruct (H b a) as [x Hx]; [lra|lra|lra|]. exists x. tauto.
  - intros [x [[H1 H2] [[H3 H4]|[H3 H4]]]]; lra.
Qed.

Lemma rule_open a b lower upper : (lower <= upper)%Q ->
  ((qge a lower || qge b lower) && (qle a upper || qle b upper) = true <-> exists x, InRange false lower upper x /\ InCell (a, b) x).
Proof.
  intros Hlu. qbool. unfold InRange, InCell; cbn [fst snd].
  assert (H : forall p q, (p <= q -> lower <= q -> p <= upper -> exists x, (lower <= x /\ x <= upper) /\ (p <= x /\ x <= q))%Q).
  { intros p q Hpq H1 H2. destruct (qle_total p lower) as [Hp|Hp]; [exists lower; lra|exists p; lra]. }
  split.
  - intros [H1 H2]. destruct (qle_total a b) as [Hab|Hab].
    + destruct (H a b Hab) as [x Hx]; [lra|lra|]. exists x. tauto.
    + destruct (H b a) as [x Hx]; [lra|lra|lra|]. exists x. tauto.
  - intros [x [[H1 H2] [[H3 H4]|[H3 H4]]]]; lra.
Qed.

Lemma rule_contiguous a b lower upper : (lower <= upper)%Q -> (a <= b)%Q ->
  ((qge a lower || qgt b lower) && (qle a upper || qlt b upper) = true <-> exists x, InRange false lower upper x /\ InCellLower (a, b) x).
Proof.
  intros Hlu Hab. qbool. unfold InRange, InCellLower; cbn [fst snd]. split.
  - intros [H1 H2]. destruct (qle_total b a) as [Hba|Hba].
    + exists a. split; [lra|]. right; right. lra.
    + destruct (qle_total a lower) as [Hp|Hp]; [exists lower|exists a]; (split; [lra|]); left; lra.
  - intros [x [[H1 H2] [[H3 H4]|[[H3 H4]|[H3 H4]]]]]; lra.
Qed.

Lemma in_cell_sym a b x : InCell (a, b) x <-> InCell (b, a) x.
Proof. unfold InCell; cbn [fst snd]; tauto. Qed.
Lemma in_cell_lower_sym a b x : InCellLower (a, b) x <-> InCellLower (b, a) x.
Proof. unfold InCellLower; cbn [fst snd]; tauto. Qed.

Lemma contiguous_spec b : b <> [] -> exists c, is_contiguous b = Ok c /\ (c = true <-> Contiguous b).
Proof.
  destruct b as [|[p q] [|[r s] t]]; intros H; [congruence|exists false|eexists]; (split; [reflexivity|]); cbn [Contiguous].
  - split; [discriminate|tauto].
  - rewrite !orb_true_iff, !Qeq_bool_iff. unfold Share; cbn [fst snd]. tauto.
Qed.

Lemma orient_nth b k : nth_error (orient b) k = option_map (fun r => match b with (a, c) :: _ => if qle a c then r else (snd r, fst r) | [] => r end) (nth_error b k).
Proof.
  unfold orient. destruct b as [|[a c] t]; [destruct k; reflexivity|]. destruct (qle a c).
  - destruct (nth_error ((a, c) :: t) k); reflexivity.
  - rewrite nth_error_map. reflexivity.
Qed.

Lemma orient_length b : List.length (orient b) = List.length b.
Proof. unfold orient. destruct b as [|[a c] t]; [reflexivity|]. destruct (qle a c); [reflexivity|apply map_length]. Qed.

Lemma between_select_spec values bounds lower upper closed ub n :
  (lower <= upper)%Q -> List.length values = n ->
  match bounds with Some b => List.length b = n /\ b <> [] /\
    (ub = true -> closed = true -> (lower < upper)%Q) /\ (ub = true -> closed = false -> Contiguous b -> SameOrder b) | None => True end ->
  exists sel, between_select values bounds lower upper closed ub = Ok sel /\ List.length sel = n /\
    forall k, nth_error sel k = Some true <-> MeetsRange values bounds lower upper closed ub k.
Proof.
  intros Hlu Hlen Hb. unfold between_select.
  assert (Hvals : exists sel, Ok (map (fun v => if closed then qgt v lower && qlt v upper else qge v lower && qle v upper) values) = Ok sel /\ List.length sel = n /\
    forall k, nth_error sel k = Some true <-> exists v, nth_error values k = Some v /\ InRange closed lower upper v).
  { eexists. split; [reflexivity|]. split; [rewrite map_length; exact Hlen|]. intros k. rewrite nth_error_map.
    destruct (nth_error values k) as [v|]; cbn [option_map].
    - assert (E : (if closed then qgt v lower && qlt v upper else qge v lower && qle v upper) = true <-> InRange closed lower upper v)
        by (unfold InRange; destruct closed; qbool; tauto).
      split.
      + intros H. injection H as H. exists v. split; [reflexivity|apply E; exact H].
      + intros [v' [E' H]]. injection E' as <-. f_equal. apply E; exact H.
    - split; [discriminate|intros [v [E _]]; discriminate]. }
  destruct bounds as [b|]; [|cbn [bind]; exact Hvals]. destruct Hb as [Hbl [Hne [Hcl Hord]]].
  destruct (contiguous_spec b Hne) as [c [Ec Hc]]. rewrite Ec. cbn [bind]. destruct ub; [|exact Hvals].
  eexists. split; [reflexivity|]. split; [rewrite map_length, orient_length; exact Hbl|]. intros k.
  rewrite nth_error_map, orient_nth. unfold MeetsRange. destruct (nth_error b k) as [[p q]|] eqn:Ek; cbn [option_map].
  2: { split; [discriminate|intros [r [x [E _]]]; discriminate]. }
  set (flip := match b with (a, d) :: _ => if qle a d then false else true | [] => false end).
  assert (Eo : (match b with (a, d) :: _ => if qle a d then (p, q) else (snd (p, q), fst (p, q)) | [] => (p, q) end) = if flip then (q, p) else (p, q))
    by (unfold flip; destruct b as [|[a d] t]; [reflexivity|destruct (qle a d); reflexivity]).
  rewrite Eo. clear Eo.
  assert (Hfin : forall (P : bool) (InC : Q -> Prop), (P = true <-> exists x, InRange closed lower upper x /\ InC x) ->
    (forall x, InC x <-> (closed = false /\ Contiguous b -> InCellLower (p, q) x) /\ (closed = true \/ ~ Contiguous b -> InCell (p, q) x)) ->
    (Some P = Some true <-> exists r x, Some (p, q) = Some r /\ InRange closed lower upper x /\
      ((closed = false /\ Contiguous b -> InCellLower r x) /\ (closed = true \/ ~ Contiguous b -> InCell r x)))).
  { intros P InC HP HI. split.
    - intros H. injection H as H. apply HP in H. destruct H as [x [H1 H2]]. exists (p, q), x. split; [reflexivity|]. split; [exact H1|apply HI; exact H2].
    - intros [r [x [E [H1 H2]]]]. injection E as <-. f_equal. apply HP. exists x. split; [exact H1|apply HI; exact H2]. }
  destruct closed; [|destruct c].
  - apply (Hfin _ (InCell (p, q))).
    + destruct flip; [|apply rule_closed; auto]. rewrite rule_closed by auto. split; intros [x [H1 H2]]; exists x; (split; [exact H1|apply in_cell_sym; exact H2]).
    + intros x. split; [intros H; split; [intros [H' _]; discriminate|intros _; exact H]|intros [_ H]; apply H; left; reflexivity].
  - assert (HC : Contiguous b) by (apply Hc; reflexivity). specialize (Hord eq_refl eq_refl HC).
    apply (Hfin _ (InCellLower (p, q))).
    + assert (Hf : if flip then (q <= p)%Q else (p <= q)%Q).
      { unfold flip. destruct Hord as [HF|[HF [r [t [-> Hr]]]]].
        - destruct b as [|[a d] t]; [congruence|]. assert (Hq : qle a d = true) by (apply qle_spec; inversion HF; subst; assumption). rewrite Hq.
          rewrite Forall_forall in HF. apply (HF (p, q)). eapply nth_error_In; exact Ek.
        - destruct r as [a d]. cbn [fst snd] in Hr. assert (Hq : qle a d = false) by (destruct (qle a d) eqn:E; [apply qle_spec in E; exfalso; lra|reflexivity]). rewrite Hq.
          rewrite Forall_forall in HF. apply (HF (p, q)). eapply nth_error_In; exact Ek. }
      destruct flip; [|apply rule_contiguous; auto]. rewrite rule_contiguous by auto. split; intros [x [H1 H2]]; exists x; (split; [exact H1|apply in_cell_lower_sym; exact H2]).
    + intros x. split; [intros H; split; [intros _; exact H|intros [H'|H']; [discriminate|tauto]]|intros [H _]; apply H; tauto].
  - assert (HC : ~ Contiguous b) by (intros H; apply Hc in H; discriminate).
    apply (Hfin _ (InCell (p, q))).
    + destruct flip; [|apply rule_open; auto]. rewrite rule_open by auto. split; intros [x [H1 H2]]; exists x; (split; [exact H1|apply in_cell_sym; exact H2]).
    + intros x. split; [intros H; split; [tauto|intros _; exact H]|intros [_ H]; apply H; right; exact HC].
Qed.

(** ** Runs *)
Lemma clumps_bounds : forall l k, Forall (fun p => k <= fst p < snd p /\ snd p <= k + zlen l) (clumps k l).
Proof.
  induction l as [|b t IH]; intros k; cbn [clumps]; [constructor|]. rewrite zlen_cons. specialize (IH (k + 1)).
  assert (H : Forall (fun p => k <= fst p < snd p /\ snd p <= k + (1 + zlen t)) (clumps (k + 1) t)).
  { eapply Forall_impl; [|exact IH]. intros p Hp. cbn beta in *. lia. }
  pose proof (zlen_nonneg t). destruct b; [|exact H].
  destruct (clumps (k + 1) t) as [|[p q] r]; [constructor; [cbn [fst snd]; lia|constructor]|].
  inversion H as [|? ? H1 H2]; subst. cbn [fst snd] in H1. destruct (Z.eqb_spec p (k + 1)); constructor; cbn [fst snd]; try lia; assumption.
Qed.

Definition run_of {A} (items : list A) (k : Z) (p : Z * Z) : list A :=
  firstn (Z.to_nat (snd p - fst p)) (skipn (Z.to_nat (fst p - k)) items).

Lemma clumps_select {A} : forall l (items : list A) k, List.length l = List.length items ->
  bool_select l items = flat_map (run_of items k) (clumps k l).
Proof.
  induction l as [|b t IH]; intros [|x items] k H; try discriminate; [reflexivity|]. injection H as H. cbn [bool_select clumps].
  specialize (IH items (k + 1) H).
  assert (Hsh : forall r, Forall (fun p => k + 1 <= fst p) r -> flat_map (run_of items (k + 1)) r = flat_map (run_of (x :: items) k) r).
  { induction r as [|[p q] r IHr]; intros HF; [reflexivity|]. inversion HF as [|? ? H1 H2]; subst. cbn [fst] in H1. cbn [flat_map]. rewrite IHr by assumption. f_equal.
    unfold run_of; cbn [fst snd]. replace (Z.to_nat (p - k)) with (S (Z.to_nat (p - (k + 1)))) by lia. reflexivity. }
  pose proof (clumps_bounds t (k + 1)) as HB.
  assert (HB' : Forall (fun p => k + 1 <= fst p) (clumps (k + 1) t)) by (eapply Forall_impl; [|exact HB]; cbn beta; lia).
  destruct b.
  - destruct (clumps (k + 1) t) as [|[p q] r] eqn:E.
    + rewrite IH. cbn [flat_map]. unfold run_of; cbn [fst snd]. replace (k - k) with 0 by lia. replace (k + 1 - k) with 1 by lia. cbn. reflexivity.
    + rewrite IH. inversion HB' as [|? ? H1 H2]; subst. inversion HB as [|? ? H3 H4]; subst. cbn [fst snd] in *.
      destruct (Z.eqb_spec p (k + 1)) as [->|Hne]; cbn [flat_map].
      * rewrite (Hsh r H2). unfold run_of at 1 3; cbn [fst snd]. replace (k + 1 - (k + 1)) with 0 by lia. replace (k - k) with 0 by lia. cbn [Z.to_nat skipn].
        replace (Z.to_nat (q - k)) with (S (Z.to_nat (q - (k + 1)))) by lia. reflexivity.
      * rewrite (Hsh r H2). unfold run_of at 1 3 4; cbn [fst snd]. replace (k - k) with 0 by lia. replace (Z.to_nat (k + 1 - k)) with 1%nat by lia. cbn [Z.to_nat skipn firstn app].
        replace (Z.to_nat (p - k)) with (S (Z.to_nat (p - (k + 1)))) by lia. reflexivity.
  - rewrite IH. apply Hsh. exact HB'.
Qed.

Lemma single_run {A} l (items : list A) a b : List.length l = List.length items -> clumps 0 l = [(a, b)] ->
  py_slice items (slice_of a b) = bool_select l items.
Proof.
  intros Hl E. rewrite (clumps_select l items 0 Hl), E. cbn [flat_map]. rewrite app_nil_r. unfold run_of, py_slice; cbn [fst snd].
  pose proof (clumps_bounds l 0) as HB. rewrite E in HB. inversion HB as [|? ? H1 H2]; subst. cbn [fst snd] in H1.
  unfold slice_bounds, slice_of, clip_end; cbn [sl_start sl_stop].
  assert (zlen l = zlen items) by (unfold zlen; lia).
  destruct (Z.ltb_spec a 0); [lia|]. destruct (Z.ltb_spec b 0); [lia|]. rewrite !Z.min_l by lia. replace (a - 0) with a by lia. reflexivity.
Qed.

Lemma clumps_true : forall l k, existsb (fun b => b) l = true -> clumps k l <> [].
Proof.
  induction l as [|b t IH]; intros k H; cbn [clumps existsb] in *; [discriminate|]. destruct b.
  - destruct (clumps (k + 1) t) as [|[p q] r]; [discriminate|]. destruct (p =? k + 1); discriminate.
  - apply IH. exact H.
Qed.

Lemma bool_select_nil {A} : forall l (items : list A), List.length l = List.length items -> bool_select l items = [] -> existsb (fun b => b) l = false.
Proof.
  induction l as [|b t IH]; intros [|x items] H E; try discriminate; [reflexivity|]. injection H as H. cbn [bool_select existsb] in *.
  destruct b; [discriminate|]. apply (IH items H E).
Qed.

Theorem get_between_spec {A} (items : list A) values bounds lower upper closed ub :
  (lower <= upper)%Q -> List.length values = List.length items ->
  match bounds with Some b => List.length b = List.length items /\ b <> [] /\
    (ub = true -> closed = true -> (lower < upper)%Q) /\ (ub = true -> closed = false -> Contiguous b -> SameOrder b) | None => True end ->
  let Meets := MeetsRange values bounds lower upper closed ub in
  (exists r, get_between items values bounds lower upper false closed ub = Ok (r, None) /\ r <> [] /\ Picks Meets items r) \/
  (get_between items values bounds lower upper false closed ub = Err EmptySubsetError /\ forall k, ~ Meets k).
Proof.
  intros Hlu Hlen Hb Meets. destruct (between_select_spec values bounds lower upper closed ub (List.length items) Hlu Hlen Hb) as [sel [E [Hl Hs]]].
  unfold get_between. rewrite (proj2 (qle_spec lower upper) Hlu). cbn [negb]. rewrite E. cbn [bind].
  destruct (existsb (fun b => b) sel) eqn:Ex; cbn [negb].
  - left. assert (Hr : var_getitem items (match clumps 0 sel with [(a, b)] => SelSlice (slice_of a b) | _ => SelBools sel end) = bool_select sel items).
    { destruct (clumps 0 sel) as [|[a b] [|? ?]] eqn:Ec; [reflexivity| |reflexivity]. apply single_run; assumption. }
    rewrite Hr. exists (bool_select sel items). split; [reflexivity|]. split.
    + intros H. apply (bool_select_nil _ _ Hl) in H. congruence.
    + eapply picks_ext; [apply picks_bool_select; exact Hl|]. intros k _. apply Hs.
  - right. split; [reflexivity|]. intros k Hk. apply Hs in Hk. apply nth_error_In in Hk.
    assert (existsb (fun b => b) sel = true) by (apply existsb_exists; exists true; tauto). congruence.
Qed.

(** With [return_indices] the positions are returned as well, but only if the
    selection is not a single run. *)
Theorem get_between_indices {A} (items : list A) values bounds lower upper closed ub :
  (lower <= upper)%Q -> List.length values = List.length items ->
  match bounds with Some b => List.length b = List.length items /\ b <> [] /\
    (ub = true -> closed = true -> (lower < upper)%Q) /\ (ub = true -> closed = false -> Contiguous b -> SameOrder b) | None => True end ->
  let Meets := MeetsRange values bounds lower upper closed ub in
  forall r i, get_between items values bounds lower upper true closed ub = Ok (r, i) ->
  Picks Meets items r /\ exists ks, i = Some ks /\ Picks Meets (zrange 0 (zlen items)) ks.
Proof.
  intros Hlu Hlen Hb Meets r i H. destruct (between_select_spec values bounds lower upper closed ub (List.length items) Hlu Hlen Hb) as [sel [E [Hl Hs]]].
  unfold get_between in H. rewrite (proj2 (qle_spec lower upper) Hlu) in H. cbn [negb] in H. rewrite E in H. cbn [bind] in H.
  destruct (existsb (fun b => b) sel) eqn:Ex; cbn [negb] in H; [|discriminate].
  assert (Hsel : clumps 0 sel = [] \/ (exists p q t, clumps 0 sel = p :: q :: t) \/ exists a b, clumps 0 sel = [(a, b)]).
  { destruct (clumps 0 sel) as [|[a b] [|q t]]; [left; reflexivity|right; right; exists a, b; reflexivity|right; left; exists (a, b), q, t; reflexivity]. }
  assert (Hgen : Ok (var_getitem items (SelBools sel), Some (bool_select sel (zrange 0 (zlen sel)))) = Ok (r, i)).
  { destruct Hsel as [Ec|[[[p p'] [q [t Ec]]]|[a [b Ec]]]]; rewrite Ec in H; cbn in H; [exact H|exact H|discriminate]. }
  injection Hgen as <- <-. cbn [var_getitem]. split.
  - eapply picks_ext; [apply picks_bool_select; exact Hl|]. intros k _. apply Hs.
  - eexists. split; [reflexivity|]. assert (Ez : zlen sel = zlen items) by (unfold zlen; lia). rewrite Ez.
    eapply picks_ext; [apply picks_bool_select; rewrite zrange_length; unfold zlen; lia|]. intros k _. apply Hs.
Qed.

Theorem get_between_wrong_order {A} (items : list A) values bounds lower upper ri closed ub :
  (upper < lower)%Q -> get_between items values bounds lower upper ri closed ub = Err AssertionError.
Proof.
  intros H. unfold get_between. assert (E : qle lower upper = false) by (destruct (qle lower upper) eqn:E; [apply qle_spec in E; exfalso; lra|reflexivity]).
  rewrite E. reflexivity.
Qed.
