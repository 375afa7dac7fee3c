(** Proofs for C49, C50, C55, C60. *)
From Coq Require Import QArith Ascii Sorted Permutation.
From Verif Require Import Py Lib Spec NdProofs TimeModel TimeSpec TimeProofs CalcModel PercentileProofs OpsModel OpsSpec.
From Verif Require CalcSpec.
Local Open Scope string_scope.
Local Open Scope Z_scope.

(** ** Environment *)

(** The value last assigned since the last reset. *)
Definition last_set (h : list eevent) (n : string) : option pv :=
  fold_left (fun c e => match e with EReset _ => None | ESet m w => if String.eqb m n then Some w else c end) h None.

Lemma last_set_snoc h e n : last_set (h ++ [e]) n =
  match e with EReset _ => None | ESet m w => if String.eqb m n then Some w else last_set h n end.
Proof. unfold last_set. rewrite fold_left_app. reflexivity. Qed.

Lemma last_set_explicit h n v : Explicit h n v -> last_set h n = Some v.
Proof.
  intros (h1 & h2 & -> & Hr & Hs). induction h2 as [|e h2 IH] using rev_ind.
  - rewrite last_set_snoc, String.eqb_refl. reflexivity.
  - change (h1 ++ ESet n v :: h2 ++ [e])%list with (h1 ++ (ESet n v :: h2) ++ [e])%list. rewrite app_assoc, last_set_snoc.
    destruct e as [m w|os].
    + destruct (String.eqb_spec m n) as [->|Hm]; [destruct (Hs w); apply in_or_app; right; left; reflexivity|].
      apply IH; [intros os X; apply (Hr os); apply in_or_app; left; exact X|intros u X; apply (Hs u); apply in_or_app; left; exact X].
    + destruct (Hr os). apply in_or_app. right. left. reflexivity.
Qed.

Lemma last_set_unset h n : Unset h n -> last_set h n = None.
Proof.
  induction h as [|e h IH] using rev_ind; [reflexivity|]. intros H. rewrite last_set_snoc. destruct e as [m w|os]; [|reflexivity].
  destruct (String.eqb_spec m n) as [->|Hm].
  - destruct (H h [] w eq_refl) as (os & []).
  - apply IH. intros h1 h2 v E. destruct (H h1 (h2 ++ [ESet m w])%list v) as (os & X).
    + rewrite E. rewrite <- app_assoc. reflexivity.
    + exists os. apply in_app_or in X. destruct X as [X|[X|[]]]; [exact X|discriminate].
Qed.

Lemma not_direct su p : GoodSetup su -> In p (su_table su) -> is_direct (ep_name p) = false.
Proof.
  intros [_ H] Hp. destruct (H p Hp) as [H1 H2]. unfold is_direct. apply orb_false_iff. split; [apply String.eqb_neq; exact H1|].
  destruct (ep_name p) as [|c t] eqn:E; [reflexivity|]. destruct (ascii_dec c "_"%char) as [->|Hc]; [destruct (H2 t eq_refl)|].
  destruct c as [[] [] [] [] [] [] [] []]; try reflexivity. congruence.
Qed.

Lemma not_computed' su p : (forall q, In q (su_computed su) -> ep_name q <> ep_name p) -> find_computed su (ep_name p) = None.
Proof.
  intros H. unfold find_computed. destruct (find _ _) as [q|] eqn:E; [|reflexivity].
  apply find_some in E. destruct E as [Hq E]. apply String.eqb_eq in E. destruct (H q Hq E).
Qed.

Lemma not_computed su p : PlainParameter su p -> find_computed su (ep_name p) = None.
Proof. intros (_ & H & _). apply not_computed'. exact H. Qed.

Lemma env_set_other su st m v n : m <> n -> dget String.eqb (en_parms (fst (env_set su st m v))) n = dget String.eqb (en_parms st) n.
Proof.
  intros H. unfold env_set. destruct (is_direct m); [reflexivity|]. destruct (find_computed su m); [reflexivity|].
  destruct (dget String.eqb (en_parms st) m); [|reflexivity]. cbn [fst en_parms].
  apply (dget_dset_other String.eqb String.eqb_spec). congruence.
Qed.

Lemma env_set_same su st p v q : GoodSetup su -> PlainParameter su p -> dget String.eqb (en_parms st) (ep_name p) = Some q ->
  env_set su st (ep_name p) v = (mkenv (dset String.eqb (en_parms st) (ep_name p) (with_value q v)) (en_plain st), None).
Proof.
  intros Hg Hp Hq. unfold env_set. rewrite (not_direct su p Hg (proj1 Hp)), (not_computed su p Hp), Hq. reflexivity.
Qed.

Lemma table_other l : forall d n, ~ In n (map ep_name l) ->
  dget String.eqb (fold_left (fun d p => dset String.eqb d (ep_name p) (with_value p use_env)) l d) n = dget String.eqb d n.
Proof.
  induction l as [|q l IH]; intros d n H; [reflexivity|]. cbn [fold_left]. rewrite IH by (intros X; apply H; right; exact X).
  apply (dget_dset_other String.eqb String.eqb_spec). intros ->. apply H. left. reflexivity.
Qed.

Lemma table_get l : forall d p, NoDup (map ep_name l) -> In p l ->
  dget String.eqb (fold_left (fun d p => dset String.eqb d (ep_name p) (with_value p use_env)) l d) (ep_name p) = Some (with_value p use_env).
Proof.
  induction l as [|q l IH]; intros d p Hn Hp; [destruct Hp|]. cbn [fold_left]. inversion Hn as [|? ? Hq Hl]; subst.
  destruct Hp as [->|Hp].
  - rewrite table_other by exact Hq. apply (dget_dset_same String.eqb String.eqb_spec).
  - apply IH; assumption.
Qed.

Lemma detect_other su os l : forall st n, (forall v, ~ In (n, v) l) ->
  dget String.eqb (en_parms (fst (env_detect su os st l))) n = dget String.eqb (en_parms st) n.
Proof.
  induction l as [|[m v] l IH]; intros st n H; [reflexivity|]. cbn [env_detect].
  assert (Hm : m <> n) by (intros ->; apply (H v); left; reflexivity).
  assert (Hl : forall w, ~ In (n, w) l) by (intros w X; apply (H w); right; exact X).
  destruct (env_get su os st m) as [[]|e]; try reflexivity; rewrite ?IH by exact Hl; try reflexivity.
  apply env_set_other. exact Hm.
Qed.

Lemma init_get su os st p : GoodSetup su -> PlainParameter su p ->
  dget String.eqb (en_parms (fst (env_init su os st))) (ep_name p) = Some (with_value p use_env).
Proof.
  intros Hg (Hp & Hc & Hd). unfold env_init. cbv zeta.
  set (st1 := mkenv _ _).
  assert (E : dget String.eqb (en_parms (fst (env_detect su os st1 (su_detect su)))) (ep_name p) = Some (with_value p use_env)).
  { rewrite detect_other by exact Hd. apply table_get; [exact (proj1 Hg)|exact Hp]. }
  destruct (env_detect su os st1 (su_detect su)) as [st2 [e|]]; exact E.
Qed.

Lemma run_get su os0 h p : GoodSetup su -> PlainParameter su p ->
  dget String.eqb (en_parms (env_run su os0 h)) (ep_name p) =
  Some (with_value p (match last_set h (ep_name p) with Some v => v | None => use_env end)).
Proof.
  intros Hg Hp. unfold env_run. induction h as [|e h IH] using rev_ind.
  - cbn [fold_left last_set]. apply init_get; assumption.
  - rewrite fold_left_app, last_set_snoc. cbn [fold_left]. set (st := fold_left _ h _) in *. destruct e as [m w|os]; cbn [env_step].
    + destruct (String.eqb_spec m (ep_name p)) as [->|Hm].
      * rewrite (env_set_same su st p w _ Hg Hp IH). cbn [fst en_parms]. rewrite (dget_dset_same String.eqb String.eqb_spec). reflexivity.
      * rewrite env_set_other by exact Hm. exact IH.
    + apply init_get; assumption.
Qed.

Lemma run_value su os0 h os p : GoodSetup su -> PlainParameter su p ->
  env_get su os (env_run su os0 h) (ep_name p) =
  match last_set h (ep_name p) with
  | Some v => if py_eq v use_env then from_process os p else Ok v
  | None => from_process os p
  end.
Proof.
  intros Hg Hp. unfold env_get. rewrite (not_computed su p Hp), (run_get su os0 h p Hg Hp). unfold parm_value, from_process.
  destruct (last_set h (ep_name p)) as [v|]; cbn [with_value ep_value ep_name ep_default ep_format].
  - destruct (py_eq v use_env); [|reflexivity]. destruct (os _); reflexivity.
  - cbn [py_eq use_env]. rewrite String.eqb_refl. destruct (os _); reflexivity.
Qed.

(** The same for the parameters fixed at start, once they are assigned. *)
Lemma detect_keep su os l p : GoodSetup su -> In p (su_table su) -> (forall q, In q (su_computed su) -> ep_name q <> ep_name p) ->
  forall st w, dget String.eqb (en_parms st) (ep_name p) = Some (with_value p w) ->
  exists w', dget String.eqb (en_parms (fst (env_detect su os st l))) (ep_name p) = Some (with_value p w').
Proof.
  intros Hg Hp Hc. induction l as [|[m v] l IH]; intros st w H; [exists w; exact H|]. cbn [env_detect].
  destruct (env_get su os st m) as [[]|e]; try (eapply IH; exact H); [|exists w; exact H].
  destruct (string_dec m (ep_name p)) as [->|Hm].
  - apply (IH _ v). unfold env_set. rewrite (not_direct su p Hg Hp), (not_computed' su p Hc), H. cbn [fst en_parms].
    rewrite (dget_dset_same String.eqb String.eqb_spec). reflexivity.
  - apply (IH _ w). rewrite env_set_other by exact Hm. exact H.
Qed.

Lemma run_any su os0 h p : GoodSetup su -> In p (su_table su) -> (forall q, In q (su_computed su) -> ep_name q <> ep_name p) ->
  exists w, dget String.eqb (en_parms (env_run su os0 h)) (ep_name p) = Some (with_value p w) /\
    forall v, last_set h (ep_name p) = Some v -> w = v.
Proof.
  intros Hg Hp Hc. unfold env_run.
  assert (Hi : forall os st, exists w, dget String.eqb (en_parms (fst (env_init su os st))) (ep_name p) = Some (with_value p w)).
  { intros os st. unfold env_init. cbv zeta. set (st1 := mkenv _ _).
    destruct (detect_keep su os (su_detect su) p Hg Hp Hc st1 use_env) as (w & E).
    { apply table_get; [exact (proj1 Hg)|exact Hp]. }
    exists w. destruct (env_detect su os st1 (su_detect su)) as [st2 [e|]]; exact E. }
  induction h as [|e h IH] using rev_ind.
  - destruct (Hi os0 (mkenv [] [])) as (w & E). exists w. split; [exact E|discriminate].
  - rewrite fold_left_app, last_set_snoc. cbn [fold_left]. set (st := fold_left _ h _) in *. destruct e as [m u|os]; cbn [env_step].
    + destruct IH as (w & E & Hw). destruct (String.eqb_spec m (ep_name p)) as [->|Hm].
      * exists u. split; [|intros v Hv; congruence]. unfold env_set. rewrite (not_direct su p Hg Hp), (not_computed' su p Hc), E. cbn [fst en_parms].
        rewrite (dget_dset_same String.eqb String.eqb_spec). reflexivity.
      * exists w. split; [rewrite env_set_other by exact Hm; exact E|exact Hw].
    + destruct (Hi os st) as (w & E). exists w. split; [exact E|discriminate].
Qed.

Lemma env_explicit su os0 h os p v : GoodSetup su -> In p (su_table su) -> (forall q, In q (su_computed su) -> ep_name q <> ep_name p) ->
  Explicit h (ep_name p) v -> v <> PStr "use_env" ->
  env_get su os (env_run su os0 h) (ep_name p) = Ok v.
Proof.
  intros Hg Hp Hc He Hv. destruct (run_any su os0 h p Hg Hp Hc) as (w & E & Hw). specialize (Hw v (last_set_explicit _ _ _ He)). subst w.
  unfold env_get. rewrite (not_computed' su p Hc), E. unfold parm_value. cbn [with_value ep_value].
  destruct (py_eq v use_env) eqn:Eq; [|reflexivity]. destruct v; try discriminate. cbn in Eq. apply String.eqb_eq in Eq. congruence.
Qed.

Lemma env_unset su os0 h os p : GoodSetup su -> PlainParameter su p -> Unset h (ep_name p) ->
  env_get su os (env_run su os0 h) (ep_name p) = from_process os p.
Proof. intros Hg Hp Hu. rewrite run_value by assumption. rewrite (last_set_unset _ _ Hu). reflexivity. Qed.

(** ** Padded integers *)

Lemma digits_ok f : forall n, (0 < f)%nat -> 0 <= n < 10 ^ Z.of_nat f -> Forall Digit (digits f n) /\ denotes (digits f n) = n /\
  (forall k, (1 <= k)%nat -> n < 10 ^ Z.of_nat k -> (List.length (digits f n) <= k)%nat) /\
  (0 < n -> forall k, 10 ^ Z.of_nat k <= n -> (k < List.length (digits f n))%nat).
Proof.
  induction f as [|f IH]; intros n Hf Hn; [lia|]. cbn [digits]. destruct (n <? 10) eqn:E.
  - split; [constructor; [unfold Digit; lia|constructor]|]. split; [change (denotes [48 + n]) with (10 * 0 + (48 + n - 48)); lia|]. split; [cbn [List.length]; lia|].
    intros Hp k Hk. cbn. destruct k; [lia|]. rewrite Nat2Z.inj_succ, Z.pow_succ_r in Hk by lia.
    assert (1 <= 10 ^ Z.of_nat k) by (assert (0 < 10 ^ Z.of_nat k) by (apply Z.pow_pos_nonneg; lia); lia). lia.
  - rewrite Nat2Z.inj_succ, Z.pow_succ_r in Hn by lia.
    destruct (IH (n / 10)) as (H1 & H2 & H3 & H4).
    { destruct f; [cbn in Hn; lia|lia]. }
    { split; [lia|]. apply Z.div_lt_upper_bound; lia. }
    split; [apply Forall_app; split; [exact H1|constructor; [unfold Digit; lia|constructor]]|]. split; [|split].
    + unfold denotes in *. rewrite fold_left_app, H2. cbn [fold_left]. lia.
    + intros k Hk Hlt. rewrite app_length. cbn [List.length]. destruct k as [|k]; [lia|].
      rewrite Nat2Z.inj_succ, Z.pow_succ_r in Hlt by lia. destruct k as [|k]; [cbn in Hlt; lia|].
      specialize (H3 (S k) ltac:(lia)). rewrite Nat2Z.inj_succ, Z.pow_succ_r in H3, Hlt by lia.
      assert (n / 10 < 10 * 10 ^ Z.of_nat k) by (apply Z.div_lt_upper_bound; lia). lia.
    + intros Hp k Hk. rewrite app_length. cbn [List.length]. destruct k as [|k]; [lia|].
      rewrite Nat2Z.inj_succ, Z.pow_succ_r in Hk by lia. specialize (H4 ltac:(lia) k).
      assert (10 ^ Z.of_nat k <= n / 10) by (apply Z.div_le_lower_bound; lia). lia.
Qed.

Lemma log2_bound n : 0 <= n -> n < 10 ^ Z.of_nat (S (Z.to_nat (Z.log2 n))).
Proof.
  intros H. rewrite Nat2Z.inj_succ, Z2Nat.id by apply Z.log2_nonneg.
  assert (L : n < 2 ^ Z.succ (Z.log2 n)).
  { destruct (Z.eq_dec n 0) as [->|Hn]; [reflexivity|]. apply Z.log2_spec. lia. }
  eapply Z.lt_le_trans; [exact L|]. apply Z.pow_le_mono_l. lia.
Qed.

Lemma str_nonneg n : 0 <= n -> Forall Digit (str_of_int n) /\ denotes (str_of_int n) = n /\
  (forall k, 1 <= k -> n < 10 ^ k -> zlen (str_of_int n) <= k).
Proof.
  intros H. unfold str_of_int. replace (n <? 0) with false by lia.
  destruct (digits_ok (S (Z.to_nat (Z.log2 n))) n) as (H1 & H2 & H3 & _); [lia|split; [exact H|apply log2_bound; exact H]|].
  split; [exact H1|]. split; [exact H2|]. intros k Hk Hlt. specialize (H3 (Z.to_nat k) ltac:(lia)). rewrite Z2Nat.id in H3 by lia.
  specialize (H3 Hlt). unfold zlen. lia.
Qed.

Lemma denotes_app a b : denotes (a ++ b) = denotes a * 10 ^ zlen b + denotes b.
Proof.
  unfold denotes. rewrite fold_left_app. generalize (fold_left (fun acc c => 10 * acc + (c - 48)) a 0) as x.
  induction b as [|c b IH] using rev_ind; intros x; [cbn; lia|]. rewrite !fold_left_app. cbn [fold_left]. rewrite IH.
  rewrite zlen_app. replace (zlen [c]) with 1 by reflexivity. rewrite Z.pow_add_r by (pose proof (zlen_nonneg b); lia). lia.
Qed.

Lemma denotes_zeros k : denotes (repeat 48 k) = 0.
Proof. unfold denotes. induction k as [|k IH]; [reflexivity|]. cbn [repeat fold_left]. exact IH. Qed.

Lemma denotes_bound l : Forall Digit l -> 0 <= denotes l < 10 ^ zlen l.
Proof.
  induction l as [|c l IH] using rev_ind; intros H; [cbn; lia|]. apply Forall_app in H. destruct H as [H1 H2].
  inversion H2 as [|? ? Hc _]; subst. specialize (IH H1). rewrite denotes_app, zlen_app.
  replace (zlen [c]) with 1 by reflexivity. rewrite Z.pow_add_r by (pose proof (zlen_nonneg l); lia).
  unfold Digit in Hc. replace (denotes [c]) with (c - 48) by (unfold denotes; cbn; lia). lia.
Qed.

Lemma denotes_cons c l : denotes (c :: l) = (c - 48) * 10 ^ zlen l + denotes l.
Proof. change (c :: l) with ([c] ++ l)%list. rewrite denotes_app. unfold denotes at 1. cbn [fold_left]. lia. Qed.

(** Texts of digits of the same width are ordered like the numbers. *)
Lemma text_order a : forall b, Forall Digit a -> Forall Digit b -> List.length a = List.length b -> (TextLt a b <-> denotes a < denotes b).
Proof.
  induction a as [|x a IH]; intros [|y b] Ha Hb Hl; try discriminate.
  - split; [intros H; inversion H|unfold denotes; cbn; lia].
  - inversion Ha as [|? ? Hx Ha']; subst. inversion Hb as [|? ? Hy Hb']; subst. injection Hl as Hl.
    rewrite !denotes_cons. unfold zlen. rewrite <- Hl. pose proof (denotes_bound a Ha') as Ba. pose proof (denotes_bound b Hb') as Bb.
    unfold zlen in Ba, Bb. rewrite <- Hl in Bb. set (P := 10 ^ Z.of_nat (List.length a)) in *. unfold Digit in Hx, Hy.
    specialize (IH b Ha' Hb' Hl). split.
    + intros H. inversion H; subst; [nia|]. apply IH in H1. lia.
    + intros H. destruct (Z.lt_trichotomy x y) as [L|[->|L]]; [apply text_less; exact L|apply text_same; apply IH; lia|nia].
Qed.

Lemma padded n w : 0 <= n < 10 ^ w -> 1 <= w ->
  let s := create_zero_padded_integer n w in zlen s = w /\ Forall Digit s /\ denotes s = n.
Proof.
  intros Hn Hw. cbv zeta. destruct (str_nonneg n ltac:(lia)) as (H1 & H2 & H3). specialize (H3 w Hw ltac:(lia)).
  unfold create_zero_padded_integer. cbv zeta. destruct (w - zlen (str_of_int n) <=? 0) eqn:E.
  - split; [lia|]. split; assumption.
  - split; [rewrite zlen_app; unfold zlen at 1; rewrite repeat_length; lia|]. split.
    + apply Forall_app. split; [|exact H1]. apply Forall_forall. intros x Hx. apply repeat_spec in Hx. subst x. unfold Digit. lia.
    + rewrite denotes_app, denotes_zeros, H2. lia.
Qed.

Lemma padded_order a b w : 0 <= a < 10 ^ w -> 0 <= b < 10 ^ w -> 1 <= w ->
  (TextLt (create_zero_padded_integer a w) (create_zero_padded_integer b w) <-> a < b) /\
  (create_zero_padded_integer a w = create_zero_padded_integer b w <-> a = b).
Proof.
  intros Ha Hb Hw. destruct (padded a w Ha Hw) as (A1 & A2 & A3). destruct (padded b w Hb Hw) as (B1 & B2 & B3). split.
  - rewrite text_order by (auto; unfold zlen in A1, B1; lia). rewrite A3, B3. reflexivity.
  - split; [intros H; rewrite <- A3, <- B3, H; reflexivity|intros ->; reflexivity].
Qed.

Lemma padded_wide n w : 1 <= w -> 10 ^ w <= n ->
  let s := create_zero_padded_integer n w in w < zlen s /\ Forall Digit s /\ denotes s = n.
Proof.
  intros Hw Hn. cbv zeta. assert (Hpos : 0 < 10 ^ w) by (apply Z.pow_pos_nonneg; lia). destruct (str_nonneg n ltac:(lia)) as (H1 & H2 & _).
  assert (L : w < zlen (str_of_int n)).
  { pose proof (denotes_bound _ H1) as B. rewrite H2 in B. destruct (Z.lt_ge_cases w (zlen (str_of_int n))) as [L|L]; [exact L|].
    assert (10 ^ zlen (str_of_int n) <= 10 ^ w) by (apply Z.pow_le_mono_r; lia). lia. }
  unfold create_zero_padded_integer. cbv zeta. replace (w - zlen (str_of_int n) <=? 0) with true by lia. auto.
Qed.

(** ** Sorting datasets *)

Lemma sort_insert_perm x l : Permutation (sort_insert x l) (x :: l).
Proof.
  induction l as [|y l IH]; cbn; [reflexivity|]. destruct (x <=? y); [reflexivity|].
  rewrite IH. apply perm_swap.
Qed.
Lemma py_sorted_perm l : Permutation (py_sorted l) l.
Proof. induction l as [|x l IH]; [constructor|]. cbn. rewrite sort_insert_perm. apply perm_skip. exact IH. Qed.
Lemma sort_insert_sorted x l : StronglySorted Z.le l -> StronglySorted Z.le (sort_insert x l).
Proof.
  induction 1 as [|y l Hs IH Hf]; cbn; [constructor; constructor|]. destruct (x <=? y) eqn:E.
  - constructor; [constructor; assumption|]. constructor; [lia|]. rewrite Forall_forall in *. intros z Hz. specialize (Hf z Hz). lia.
  - constructor; [exact IH|]. rewrite Forall_forall in *. intros z Hz.
    apply (Permutation_in _ (sort_insert_perm x l)) in Hz. destruct Hz as [<-|Hz]; [lia|apply Hf; exact Hz].
Qed.
Lemma py_sorted_sorted l : StronglySorted Z.le (py_sorted l).
Proof. induction l as [|x l IH]; [constructor|]. cbn. apply sort_insert_sorted. exact IH. Qed.

Lemma sorted_strict l : NoDup l -> StronglySorted Z.le l -> StronglySorted Z.lt l.
Proof.
  intros Hn H. induction H as [|x l Hs IH Hf]; [constructor|]. inversion Hn as [|? ? Hx Hl]; subst. constructor; [apply IH; exact Hl|].
  rewrite Forall_forall in *. intros y Hy. specialize (Hf y Hy). assert (x <> y) by (intros ->; contradiction). lia.
Qed.

Section Uris.
  Context {U : Type} (time : U -> Z).

  Definition collect (uris : list U) : list (Z * U) := fold_left (fun d u => dset Z.eqb d (time u) u) uris [].

  Lemma collect_ok uris : forall d, fold_res (fun d uri => do t <- Ok (time uri); Ok (dset Z.eqb d t uri)) uris d =
    Ok (fold_left (fun d u => dset Z.eqb d (time u) u) uris d).
  Proof. induction uris as [|u uris IH]; intros d; [reflexivity|]. cbn. apply IH. Qed.

  Definition LastAt (uris : list U) (u : U) : Prop :=
    exists l1 l2, uris = (l1 ++ u :: l2)%list /\ Forall (fun w => time w <> time u) l2.

  Lemma collect_get uris : NoDup (map fst (collect uris)) /\
    (forall t u, dget Z.eqb (collect uris) t = Some u <-> time u = t /\ LastAt uris u).
  Proof.
    induction uris as [|u uris [IH1 IH2]] using rev_ind.
    - split; [constructor|]. intros t u. split; [discriminate|]. intros (_ & l1 & l2 & E & _). destruct l1; discriminate.
    - unfold collect in *. rewrite fold_left_app. cbn [fold_left]. split; [apply (dset_nodup Z.eqb Z.eqb_spec); exact IH1|].
      intros t w. assert (S : LastAt (uris ++ [u]) w <-> w = u \/ (time u <> time w /\ LastAt uris w)).
      { split.
        - intros (l1 & l2 & E & Hf). destruct l2 as [|x l2] using rev_ind.
          + apply app_inj_tail in E. left. symmetry. apply E.
          + clear IHl2. change (l1 ++ w :: l2 ++ [x])%list with (l1 ++ (w :: l2) ++ [x])%list in E. rewrite app_assoc in E.
            apply app_inj_tail in E. destruct E as [E ->]. right. apply Forall_app in Hf. destruct Hf as [Hf Hx]. inversion Hx; subst.
            split; [assumption|]. exists l1, l2. split; [reflexivity|exact Hf].
        - intros [->|(Hd & l1 & l2 & -> & Hf)].
          + exists uris, []. split; [reflexivity|constructor].
          + exists l1, (l2 ++ [u])%list. split; [rewrite <- app_assoc; reflexivity|]. apply Forall_app. split; [exact Hf|]. constructor; [exact Hd|constructor]. }
      rewrite S. destruct (Z.eq_dec t (time u)) as [->|Ht].
      + rewrite (dget_dset_same Z.eqb Z.eqb_spec). split.
        * intros H. injection H as <-. auto.
        * intros (E & [->|(Hd & _)]); [reflexivity|congruence].
      + rewrite (dget_dset_other Z.eqb Z.eqb_spec) by exact Ht. rewrite IH2. split.
        * intros (<- & H). split; [reflexivity|]. right. split; [congruence|exact H].
        * intros (<- & [->|(_ & H)]); [congruence|auto].
  Qed.

  Lemma sorted_uris uris : exists r, get_sorted_uris_by_time_dimension (fun u => Ok (time u)) uris = Ok r /\
    StronglySorted (fun u v => time u < time v) r /\ (forall u, In u r <-> LastAt uris u).
  Proof.
    unfold get_sorted_uris_by_time_dimension. rewrite collect_ok. cbn [bind]. fold (collect uris).
    destruct (collect_get uris) as [Hn Hg].
    assert (Hk : forall t, In t (map fst (collect uris)) <-> exists u, dget Z.eqb (collect uris) t = Some u).
    { intros t. destruct (dget Z.eqb (collect uris) t) as [u|] eqn:E.
      - split; [eauto|]. intros _. apply (dget_in Z.eqb Z.eqb_spec) in E. apply in_map_iff. exists (t, u). auto.
      - apply (dget_none Z.eqb Z.eqb_spec) in E. split; [tauto|intros (u & H); discriminate]. }
    set (keys := py_sorted (map fst (collect uris))).
    assert (Hp : Permutation keys (map fst (collect uris))) by apply py_sorted_perm.
    assert (Hs : StronglySorted Z.lt keys).
    { apply sorted_strict; [eapply Permutation_NoDup; [apply Permutation_sym; exact Hp|exact Hn]|apply py_sorted_sorted]. }
    assert (Hall : forall t, In t keys -> exists u, dget Z.eqb (collect uris) t = Some u).
    { intros t Ht. apply Hk. eapply Permutation_in; [exact Hp|exact Ht]. }
    assert (G : exists r, map_res (fun sk => match dget Z.eqb (collect uris) sk with Some u => Ok u | None => Err KeyError end) keys = Ok r /\ map time r = keys /\
       forall u, In u r <-> In (time u) keys /\ dget Z.eqb (collect uris) (time u) = Some u).
    { clear Hp Hs. induction keys as [|k keys IH].
      - exists []. split; [reflexivity|]. split; [reflexivity|]. intros u. cbn. tauto.
      - destruct IH as (r & E & Em & Hr); [intros t Ht; apply Hall; right; exact Ht|].
        destruct (Hall k (or_introl eq_refl)) as (u & Eu). exists (u :: r). cbn [map_res]. rewrite Eu. cbn [bind]. rewrite E. cbn [bind].
        assert (Tu : time u = k) by (apply Hg in Eu; tauto).
        split; [reflexivity|]. split; [cbn; congruence|]. intros w. cbn [In]. rewrite Hr. split.
        + intros [<-|[H1 H2]]; [split; [left; congruence|congruence]|auto].
        + intros [[H1|H1] H2]; [left; congruence|auto]. }
    destruct G as (r & E & Em & Hr). exists r. split; [exact E|]. split.
    - rewrite <- Em in Hs. clear - Hs. induction r as [|u r IH]; [constructor|]. cbn in Hs. inversion Hs as [|? ? H1 H2]; subst.
      constructor; [apply IH; exact H1|]. rewrite Forall_map in H2. exact H2.
    - intros u. rewrite Hr, Hg. split; [tauto|]. intros H. split; [|auto].
      eapply Permutation_in; [apply Permutation_sym; exact Hp|]. apply Hk. exists u. apply Hg. auto.
  Qed.

  Lemma sorted_distinct uris : NoDup (map time uris) -> exists r, get_sorted_uris_by_time_dimension (fun u => Ok (time u)) uris = Ok r /\
    StronglySorted (fun u v => time u < time v) r /\ Permutation r uris.
  Proof.
    intros Hn. destruct (sorted_uris uris) as (r & E & Hs & Hr). exists r. split; [exact E|]. split; [exact Hs|].
    apply NoDup_Permutation.
    - clear - Hs. induction Hs as [|u r _ IH Hf]; constructor; [|exact IH]. intros X. rewrite Forall_forall in Hf. specialize (Hf u X). lia.
    - eapply NoDup_map_inv. exact Hn.
    - intros u. rewrite Hr. split.
      + intros (l1 & l2 & -> & _). apply in_or_app. right. left. reflexivity.
      + intros H. apply in_split in H. destruct H as (l1 & l2 & ->). exists l1, l2. split; [reflexivity|].
        rewrite map_app in Hn. cbn in Hn. apply NoDup_remove_2 in Hn. apply Forall_forall. intros w Hw X. apply Hn.
        apply in_or_app. right. rewrite <- X. apply in_map. exact Hw.
  Qed.
End Uris.

(** ** Time subsets *)

Lemma fold_min_spec l : forall x, let m := fold_left Z.min l x in In m (x :: l) /\ forall y, In y (x :: l) -> m <= y.
Proof.
  induction l as [|z l IH]; intros x; cbv zeta.
  - split; [left; reflexivity|]. intros y [<-|[]]. cbn. lia.
  - cbn [fold_left]. destruct (IH (Z.min x z)) as [H1 H2]. split.
    + destruct H1 as [<-|H1]; [|right; right; exact H1]. destruct (Z.min_spec x z) as [[_ ->]|[_ ->]]; [left|right; left]; reflexivity.
    + intros y [<-|[<-|Hy]]; [specialize (H2 (Z.min x z) (or_introl eq_refl)); lia|specialize (H2 (Z.min x z) (or_introl eq_refl)); lia|apply H2; right; exact Hy].
Qed.
Lemma fold_max_spec l : forall x, let m := fold_left Z.max l x in In m (x :: l) /\ forall y, In y (x :: l) -> y <= m.
Proof.
  induction l as [|z l IH]; intros x; cbv zeta.
  - split; [left; reflexivity|]. intros y [<-|[]]. cbn. lia.
  - cbn [fold_left]. destruct (IH (Z.max x z)) as [H1 H2]. split.
    + destruct H1 as [<-|H1]; [|right; right; exact H1]. destruct (Z.max_spec x z) as [[_ ->]|[_ ->]]; [right; left|left]; reflexivity.
    + intros y [<-|[<-|Hy]]; [specialize (H2 (Z.max x z) (or_introl eq_refl)); lia|specialize (H2 (Z.max x z) (or_introl eq_refl)); lia|apply H2; right; exact Hy].
Qed.

Lemma entry_bounds_spec l : l <> [] -> exists a b, entry_bounds (Some l) = Ok (a, b) /\ In a l /\ In b l /\ forall y, In y l -> a <= y <= b.
Proof.
  destruct l as [|x l]; [congruence|]. intros _. destruct (fold_min_spec l x) as [A1 A2]. destruct (fold_max_spec l x) as [B1 B2].
  eexists _, _. cbn [entry_bounds zs_min zs_max bind]. split; [reflexivity|]. split; [exact A1|]. split; [exact B1|].
  intros y Hy. split; [apply A2|apply B2]; exact Hy.
Qed.

Lemma seconds_in_range d : CalcSpec.ValidDate d -> seconds_of d + month_delta <= max_seconds.
Proof.
  intros (Hy & Hm & Hd & H1 & H2 & H3). unfold seconds_of, ordinal.
  assert (B : days_before_month (dt_year d) (dt_month d) + dt_day d <= 372).
  { assert (L : forall y m, days_in_month y m <= 31).
    { intros y m. unfold days_in_month. destruct (m =? 2); [destruct (is_leap y); lia|]. destruct (_ || _); lia. }
    assert (M : forall y l, zsum (map (days_in_month y) l) <= 31 * zlen l).
    { intros y l. induction l as [|x l IH]; [cbn; lia|]. cbn [map]. rewrite zlen_cons. specialize (L y x).
      rewrite zsum_cons. lia. }
    unfold days_before_month. specialize (M (dt_year d) (zrange 1 (dt_month d))). rewrite zrange_zlen in M. specialize (L (dt_year d) (dt_month d)). lia. }
  assert (Y : days_before_year (dt_year d) <= 3651329).
  { unfold days_before_year. cbv zeta. lia. }
  change max_seconds with 315537983999. unfold month_delta. lia.
Qed.

Lemma collect_months_ok fuel : forall c last ms, last + month_delta <= max_seconds -> last < c + (Z.of_nat fuel - 1) * month_delta -> (0 < fuel)%nat ->
  exists r, collect_months fuel c last ms = Ok r.
Proof.
  induction fuel as [|f IH]; intros c last ms H1 H2 Hf; [lia|]. cbn [collect_months]. unfold month_delta in *.
  destruct (c <=? last) eqn:E; [|eauto]. cbv zeta. replace (max_seconds <? c + (29 * 86400 + 12 * 3600)) with false by lia.
  destruct (zlen _ =? 12); [eauto|]. apply IH; lia.
Qed.

Lemma validate_months t0 t1 : CalcSpec.ValidDate t1 ->
  exists r, collect_months (S (S (Z.to_nat ((seconds_of t1 - seconds_of t0) / month_delta)))) (seconds_of t0) (seconds_of t1) [] = Ok r.
Proof.
  intros H. apply collect_months_ok; [apply seconds_in_range; exact H| |lia].
  set (a := seconds_of t0). set (b := seconds_of t1). clearbody a b. unfold month_delta. lia.
Qed.

(** A date of the given year in the range. *)
Lemma date_in_year t0 t1 y : CalcSpec.ValidDate t0 -> CalcSpec.ValidDate t1 -> DateLe t0 t1 -> dt_year t0 <= y <= dt_year t1 ->
  exists d, DateIn t0 t1 d /\ dt_year d = y.
Proof.
  intros H0 H1 Hle Hy. destruct (Z.eq_dec y (dt_year t0)) as [->|N0].
  - exists t0. split; [|reflexivity]. split; [exact H0|]. split; [unfold DateLe, DateLt; lia|exact Hle].
  - destruct (Z.eq_dec y (dt_year t1)) as [->|N1].
    + exists t1. split; [|reflexivity]. split; [exact H1|]. split; [exact Hle|unfold DateLe, DateLt; lia].
    + exists (mkdate y 1 1 0 0 0). split; [|reflexivity]. unfold CalcSpec.ValidDate in *. split; [|split].
      * unfold CalcSpec.ValidDate. cbn [dt_year dt_month dt_day dt_hour dt_minute dt_second]. change (days_in_month y 1) with 31. lia.
      * unfold DateLe, DateLt. cbn [dt_year]. lia.
      * unfold DateLe, DateLt. cbn [dt_year]. lia.
Qed.

Lemma year_of_date t0 t1 d : DateIn t0 t1 d -> dt_year t0 <= dt_year d <= dt_year t1.
Proof. intros (_ & H1 & H2). unfold DateLe, DateLt in *. lia. Qed.

Lemma validate_years t0 t1 l : CalcSpec.ValidDate t0 -> CalcSpec.ValidDate t1 -> DateLe t0 t1 -> l <> [] ->
  exists b, validate_time_subset (Some (t0, t1)) (Some (None, Some l)) = Ok b /\
  (b = true <-> forall y, In y l -> exists d, DateIn t0 t1 d /\ MeetsRegion None (Some [y]) d).
Proof.
  intros H0 H1 Hle Hl. cbn [validate_time_subset]. cbv zeta. destruct (validate_months t0 t1 H1) as (ms & ->). cbn [bind].
  destruct (entry_bounds_spec l Hl) as (a & b & -> & Ha & Hb & Hin). cbn [bind]. eexists. split; [reflexivity|].
  unfold check_years. cbn [fst snd]. split.
  - intros H y Hy. specialize (Hin y Hy). destruct (date_in_year t0 t1 y H0 H1 Hle ltac:(lia)) as (d & Hd & E). exists d. split; [exact Hd|].
    split; [discriminate|]. intros l' E'. injection E' as <-. left. symmetry. exact E.
  - intros H. assert (R : forall y, In y l -> dt_year t0 <= y <= dt_year t1).
    { intros y Hy. destruct (H y Hy) as (d & Hd & _ & Hm). apply year_of_date in Hd. destruct (Hm [y] eq_refl) as [E|[]]. lia. }
    pose proof (R a Ha). pose proof (R b Hb). lia.
Qed.

Lemma unlimited a b : validate_time_subset None b = Ok true /\ validate_time_subset a None = Ok true.
Proof. split; [reflexivity|]. destruct a as [[t0 t1]|]; reflexivity. Qed.

Lemma years_sound t0 t1 l : CalcSpec.ValidDate t0 -> CalcSpec.ValidDate t1 -> DateLe t0 t1 ->
  validate_time_subset (Some (t0, t1)) (Some (None, Some l)) = Ok true -> exists d, DateIn t0 t1 d /\ MeetsRegion None (Some l) d.
Proof.
  intros H0 H1 Hle H. destruct l as [|y l].
  - cbn [validate_time_subset] in H. cbv zeta in H. destruct (validate_months t0 t1 H1) as (ms & E). rewrite E in H. discriminate.
  - destruct (validate_years t0 t1 (y :: l) H0 H1 Hle ltac:(discriminate)) as (b & E & Hb). rewrite E in H. injection H as ->.
    destruct (proj1 Hb eq_refl y (or_introl eq_refl)) as (d & Hd & Hm & Hy). exists d. split; [exact Hd|]. split; [discriminate|].
    intros l' E'. injection E' as <-. destruct (Hy [y] eq_refl) as [->|[]]. left. reflexivity.
Qed.
