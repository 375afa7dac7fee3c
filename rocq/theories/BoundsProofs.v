(** Interpolated bounds (C44). *)
From Verif Require Import Py Lib Spec TimeProofs CalcModel CoordModel CoordSpec CoordProofs.
From Coq Require Import Lqa.
Local Open Scope Q_scope.

Definition mid (t : dtype) (c : list Q) (k : nat) : Q := store t ((nth k c 0 + nth (S k) c 0) / 2).

Lemma midpoints_map t : forall c, midpoints t c = map (mid t c) (seq 0 (List.length c - 1)).
Proof.
  induction c as [|a [|b c] IH]; [reflexivity | reflexivity|].
  change (midpoints t (a :: b :: c)) with (store t ((a + b) / 2) :: midpoints t (b :: c)). rewrite IH.
  cbn [List.length]. replace (S (S (List.length c)) - 1)%nat with (S (List.length c)) by lia. cbn [seq map]. f_equal.
  rewrite <- seq_shift, map_map. cbn [List.length]. replace (S (List.length c) - 1)%nat with (List.length c) by lia. apply map_ext. intros k. reflexivity.
Qed.
Lemma qsum_diff : forall l x, qsum (np_diff (x :: l)) == last (x :: l) 0 - x.
Proof.
  induction l as [|y l IH]; intros x; [cbn; lra|].
  change (np_diff (x :: y :: l)) with ((y - x) :: np_diff (y :: l)). change (last (x :: y :: l) 0) with (last (y :: l) 0).
  cbn [qsum fold_right]. fold (qsum (np_diff (y :: l))). rewrite IH. lra.
Qed.
Lemma diff_length : forall l, List.length (np_diff l) = (List.length l - 1)%nat.
Proof. induction l as [|a [|b l] IH]; [reflexivity | reflexivity|]. change (np_diff (a :: b :: l)) with ((b - a) :: np_diff (b :: l)). cbn [List.length]. rewrite IH. cbn [List.length]. lia. Qed.
Lemma pair_up_nth t : forall l k, (S k < List.length l)%nat -> nth_error (pair_up t l) k = Some (store t (nth k l 0), store t (nth (S k) l 0)).
Proof.
  induction l as [|a [|b l] IH]; intros k H; [cbn in H; lia | cbn in H; lia|].
  change (pair_up t (a :: b :: l)) with ((store t a, store t b) :: pair_up t (b :: l)). destruct k; [reflexivity|]. cbn [nth_error]. rewrite IH by (cbn in *; lia). reflexivity.
Qed.
Lemma pair_up_length t : forall l, List.length (pair_up t l) = (List.length l - 1)%nat.
Proof. induction l as [|a [|b l] IH]; [reflexivity | reflexivity|]. change (pair_up t (a :: b :: l)) with ((store t a, store t b) :: pair_up t (b :: l)). cbn [List.length]. rewrite IH. cbn [List.length]. lia. Qed.
Lemma last_map_seq {A} (f : nat -> A) n d : last (map f (seq 0 (S n))) d = f n.
Proof. rewrite seq_S, map_app. cbn. apply last_last. Qed.

(** The edges of cell [k] before they are stored. *)
Definition low_edge (t : dtype) (c : list Q) (D : Q) (k : nat) : Q := match k with O => mid t c 0 - D | S j => mid t c j end.
Definition high_edge (t : dtype) (c : list Q) (D : Q) (k : nat) : Q := if (S k =? List.length c)%nat then mid t c (List.length c - 2) + D else mid t c k.

Lemma bounds_closed t c : (2 <= List.length c)%nat -> exists D b, get_bounds_from_1d t c = Ok b /\ List.length b = List.length c /\
  (List.length c = 2%nat -> D = nth 1 c 0 - nth 0 c 0) /\
  ((2 < List.length c)%nat -> D * inject_Z (zlen c - 2) == mid t c (List.length c - 2) - mid t c 0) /\
  forall k, (k < List.length c)%nat -> nth_error b k = Some (store t (low_edge t c D k), store t (high_edge t c D k)).
Proof.
  intros H. set (n := List.length c) in *.
  assert (Hmids : midpoints t c = map (mid t c) (seq 0 (S (n - 2)))) by (rewrite midpoints_map; f_equal; f_equal; fold n; lia).
  set (D := match midpoints t c with [_] => hd 0 (np_diff c) | _ => np_mean (np_diff (midpoints t c)) end).
  unfold get_bounds_from_1d, bounds_vector. destruct (zlen c <? 2)%Z eqn:E; [unfold zlen in E; fold n in E; lia|]. cbn [bind]. cbv zeta. fold D.
  exists D. eexists. split; [reflexivity|].
  assert (Hhd : hd 0 (midpoints t c) = mid t c 0) by (rewrite Hmids; reflexivity).
  assert (Hlast : last (midpoints t c) 0 = mid t c (n - 2)) by (rewrite Hmids; apply last_map_seq).
  assert (Lm : List.length (midpoints t c) = (n - 1)%nat) by (rewrite midpoints_map, map_length, seq_length; reflexivity).
  split; [rewrite pair_up_length; cbn [List.length]; rewrite app_length, Lm; cbn; fold n; lia|].
  split; [|split].
  - intros H2. unfold D. rewrite Hmids, H2. cbn [Nat.sub seq map]. destruct c as [|a [|b c]]; cbn in n; try lia. cbn. reflexivity.
  - intros H2. unfold D. assert (S1 : forall (l : list Q) (A : Type) (u v : A), (2 <= List.length l)%nat -> match l with [_] => u | _ => v end = v).
    { intros [|? [|? l]] A u v X; cbn in X; try lia; reflexivity. }
    rewrite S1 by lia. unfold np_mean. destruct (midpoints t c) as [|m0 ms] eqn:Em; [cbn in Lm; lia|]. cbn in Hhd. subst m0.
    rewrite qsum_diff, Hlast. assert (Lz : zlen (np_diff (mid t c 0 :: ms)) = (zlen c - 2)%Z).
    { unfold zlen. rewrite diff_length, Lm. fold n. lia. }
    rewrite Lz. assert (Hz : ~ inject_Z (zlen c - 2) == 0).
    { unfold zlen. fold n. intros X. unfold Qeq in X. cbn in X. lia. }
    field. exact Hz.
  - intros k Hk. rewrite pair_up_nth by (cbn [List.length]; rewrite app_length, Lm; cbn; lia). f_equal. f_equal; f_equal.
    + destruct k as [|j]; cbn [nth low_edge]; [rewrite Hhd; reflexivity|]. rewrite app_nth1 by lia. rewrite Hmids.
      rewrite (nth_indep _ 0 (mid t c 0)) by (rewrite map_length, seq_length; lia). rewrite map_nth, seq_nth by lia. reflexivity.
    + cbn [nth]. unfold high_edge. fold n. destruct (Nat.eqb_spec (S k) n) as [Ek|Ek].
      * rewrite app_nth2 by lia. replace (k - List.length (midpoints t c))%nat with 0%nat by lia. cbn. rewrite Hlast. reflexivity.
      * rewrite app_nth1 by lia. rewrite Hmids. rewrite (nth_indep _ 0 (mid t c 0)) by (rewrite map_length, seq_length; lia). rewrite map_nth, seq_nth by lia. reflexivity.
Qed.

Lemma bounds_short t c : (List.length c < 2)%nat -> get_bounds_from_1d t c = Err ValueError.
Proof. intros H. unfold get_bounds_from_1d, bounds_vector. destruct (zlen c <? 2)%Z eqn:E; [reflexivity | unfold zlen in E; lia]. Qed.

Lemma bounds_shared t c b : get_bounds_from_1d t c = Ok b -> List.length b = List.length c /\
  forall k x y, nth_error b k = Some x -> nth_error b (S k) = Some y -> snd x = fst y.
Proof.
  intros E. assert (H : (2 <= List.length c)%nat) by (destruct (Nat.lt_ge_cases (List.length c) 2); [rewrite bounds_short in E by lia; discriminate | lia]).
  destruct (bounds_closed t c H) as [D [b' [E' [L [_ [_ N]]]]]]. assert (b' = b) by congruence. subst b'. split; [exact L|].
  intros k x y Hx Hy. assert (Hk : (S k < List.length c)%nat) by (rewrite <- L; apply nth_error_Some; congruence).
  rewrite N in Hx by lia. rewrite N in Hy by lia. assert (X : x = (store t (low_edge t c D k), store t (high_edge t c D k))) by congruence.
  assert (Y : y = (store t (low_edge t c D (S k)), store t (high_edge t c D (S k)))) by congruence. rewrite X, Y. cbn [fst snd low_edge].
  unfold high_edge. destruct (Nat.eqb_spec (S k) (List.length c)); [lia | reflexivity].
Qed.

(** Truncation is monotone and keeps integers. *)
Lemma store_mono t x y : x <= y -> store t x <= store t y.
Proof.
  destruct t; cbn; [auto|]. intros H. rewrite <- Zle_Qle. unfold Qle in H.
  rewrite <- (Z.quot_mul_cancel_r (Qnum x) (Zpos (Qden x)) (Zpos (Qden y))) by lia.
  rewrite <- (Z.quot_mul_cancel_r (Qnum y) (Zpos (Qden y)) (Zpos (Qden x))) by lia.
  rewrite (Z.mul_comm (Zpos (Qden y))). apply Z.quot_le_mono; [lia | exact H].
Qed.
Lemma store_fix t x : (t = Int -> Integral x) -> store t x == x.
Proof. destruct t; cbn; [reflexivity|]. intros H. destruct (H eq_refl) as [z ->]. cbn. rewrite Z.quot_1_r. reflexivity. Qed.

Lemma sandwich t a b : (t = Int -> Integral a /\ Integral b) -> a <= b -> a <= store t ((a + b) / 2) <= b.
Proof.
  intros H L. assert (M : a <= (a + b) / 2 <= b) by (split; [apply Qle_shift_div_l | apply Qle_shift_div_r]; lra).
  assert (Fa := store_fix t a (fun e => proj1 (H e))). assert (Fb := store_fix t b (fun e => proj2 (H e))).
  pose proof (store_mono t _ _ (proj1 M)). pose proof (store_mono t _ _ (proj2 M)). lra.
Qed.
Lemma half_sym a b : (a + b) / 2 == (b + a) / 2. Proof. field. Qed.
Lemma store_eq t x y : x == y -> store t x == store t y.
Proof. intros H. apply Qle_antisym; apply store_mono; lra. Qed.
Lemma sandwich_dec t a b : (t = Int -> Integral a /\ Integral b) -> b <= a -> b <= store t ((a + b) / 2) <= a.
Proof. intros H L. rewrite (store_eq t _ _ (half_sym a b)). apply sandwich; [intros E; destruct (H E); auto | exact L]. Qed.

Lemma store_int t x : t = Int -> Integral (store t x).
Proof. intros ->. exists (Z.quot (Qnum x) (Zpos (Qden x))). reflexivity. Qed.

Lemma nth_in_integral t c k : (t = Int -> Forall Integral c) -> (k < List.length c)%nat -> t = Int -> Integral (nth k c 0).
Proof. intros H Hk E. specialize (H E). rewrite Forall_forall in H. apply H, nth_In, Hk. Qed.

Lemma interior_contains t c b k x cell : (t = Int -> Forall Integral c) -> Ascending c \/ Descending c -> get_bounds_from_1d t c = Ok b ->
  (0 < k)%nat -> (S k < List.length c)%nat -> nth_error c k = Some x -> nth_error b k = Some cell -> InCell cell x.
Proof.
  intros Hi Hm E K1 K2 Hx Hc. destruct (bounds_closed t c ltac:(lia)) as [D [b' [E' [L [_ [_ N]]]]]]. assert (b' = b) by congruence. subst b'.
  rewrite N in Hc by lia. assert (X : cell = (store t (low_edge t c D k), store t (high_edge t c D k))) by congruence. subst cell.
  destruct k as [|j]; [lia|]. unfold high_edge. destruct (Nat.eqb_spec (S (S j)) (List.length c)); [lia|]. cbn [low_edge]. unfold InCell. cbn [fst snd].
  assert (X : x = nth (S j) c 0) by (symmetry; apply nth_error_nth; exact Hx). subst x.
  assert (N1 : nth_error c j = Some (nth j c 0)) by (apply nth_error_nth'; lia). assert (N2 : nth_error c (S (S j)) = Some (nth (S (S j)) c 0)) by (apply nth_error_nth'; lia).
  unfold mid.
  assert (I : forall k, (k < List.length c)%nat -> t = Int -> Integral (nth k c 0)) by (intros; eapply nth_in_integral; eauto).
  set (p := (nth j c 0 + nth (S j) c 0) / 2). set (q := (nth (S j) c 0 + nth (S (S j)) c 0) / 2).
  assert (Sp : store t (store t p) == store t p) by (apply store_fix, store_int). assert (Sq : store t (store t q) == store t q) by (apply store_fix, store_int).
  rewrite Sp, Sq.
  destruct Hm as [Hm|Hm].
  - left. assert (A := Hm j (S j) _ _ ltac:(lia) N1 Hx). assert (B := Hm (S j) (S (S j)) _ _ ltac:(lia) Hx N2).
    pose proof (sandwich t (nth j c 0) (nth (S j) c 0) ltac:(intros; split; apply I; auto; lia) ltac:(lra)).
    pose proof (sandwich t (nth (S j) c 0) (nth (S (S j)) c 0) ltac:(intros; split; apply I; auto; lia) ltac:(lra)). unfold p, q. lra.
  - right. assert (A := Hm j (S j) _ _ ltac:(lia) N1 Hx). assert (B := Hm (S j) (S (S j)) _ _ ltac:(lia) Hx N2).
    pose proof (sandwich_dec t (nth j c 0) (nth (S j) c 0) ltac:(intros; split; apply I; auto; lia) ltac:(lra)).
    pose proof (sandwich_dec t (nth (S j) c 0) (nth (S (S j)) c 0) ltac:(intros; split; apply I; auto; lia) ltac:(lra)). unfold p, q. lra.
Qed.

Lemma half a b : (a + b) / 2 == (1 # 2) * a + (1 # 2) * b. Proof. field. Qed.

(** Two coordinates. *)
Lemma two_cells a b : a < b \/ b < a -> exists b0 b1, get_bounds_from_1d Float [a; b] = Ok [b0; b1] /\ InCell b0 a /\ InCell b1 b.
Proof.
  intros H. do 2 eexists. split; [reflexivity|]. unfold InCell. cbn. rewrite !half. destruct H; split; [left|left|right|right]; lra.
Qed.

(** The first and the last cell of at least three coordinates: they contain their
    coordinate exactly when half the outer gap is at most the mean distance of the
    midpoints. *)
Lemma edge_cells c b : (3 <= List.length c)%nat -> Ascending c -> get_bounds_from_1d Float c = Ok b ->
  exists c0 c1 cm cn b0 bn,
    nth_error c 0 = Some c0 /\ nth_error c 1 = Some c1 /\ nth_error c (List.length c - 2) = Some cm /\ nth_error c (List.length c - 1) = Some cn /\
    nth_error b 0 = Some b0 /\ nth_error b (List.length c - 1) = Some bn /\
    let mean_gap := ((cm + cn) / 2 - (c0 + c1) / 2) / inject_Z (zlen c - 2) in
    (InCell b0 c0 <-> (c1 - c0) / 2 <= mean_gap) /\ (InCell bn cn <-> (cn - cm) / 2 <= mean_gap).
Proof.
  intros H Hm E. destruct (bounds_closed Float c ltac:(lia)) as [D [b' [E' [L [_ [HD N]]]]]]. assert (b' = b) by congruence. subst b'.
  exists (nth 0 c 0), (nth 1 c 0), (nth (List.length c - 2) c 0), (nth (List.length c - 1) c 0), (store Float (low_edge Float c D 0), store Float (high_edge Float c D 0)),
    (store Float (low_edge Float c D (List.length c - 1)), store Float (high_edge Float c D (List.length c - 1))).
  repeat (split; [first [apply nth_error_nth'; lia | apply N; lia]|]). cbv zeta.
  assert (Hz : ~ inject_Z (zlen c - 2) == 0) by (unfold zlen; intros X; unfold Qeq in X; cbn in X; lia).
  assert (ED : ((nth (List.length c - 2) c 0 + nth (List.length c - 1) c 0) / 2 - (nth 0 c 0 + nth 1 c 0) / 2) / inject_Z (zlen c - 2) == D).
  { specialize (HD ltac:(lia)). unfold mid in HD. cbn [store] in HD. replace (S (List.length c - 2)) with (List.length c - 1)%nat in HD by lia. rewrite <- HD. field. exact Hz. }
  rewrite ED. unfold InCell. cbn [fst snd store]. unfold high_edge.
  destruct (Nat.eqb_spec 1 (List.length c)); [lia|]. destruct (Nat.eqb_spec (S (List.length c - 1)) (List.length c)); [|lia].
  destruct (List.length c - 1)%nat as [|j] eqn:Ej; [lia|]. cbn [low_edge]. replace (List.length c - 2)%nat with j in * by lia. unfold mid. cbn [store]. rewrite !half.
  assert (Nt : forall k, (k < List.length c)%nat -> nth_error c k = Some (nth k c 0)) by (intros; apply nth_error_nth'; assumption).
  assert (A : nth 0 c 0 < nth 1 c 0) by (apply (Hm 0%nat 1%nat); [lia | apply Nt; lia | apply Nt; lia]).
  assert (B : nth j c 0 < nth (S j) c 0) by (apply (Hm j (S j)); [lia | apply Nt; lia | apply Nt; lia]).
  assert (H1 : (nth 1 c 0 - nth 0 c 0) / 2 == (1#2) * nth 1 c 0 - (1#2) * nth 0 c 0) by field.
  assert (H2 : (nth (S j) c 0 - nth j c 0) / 2 == (1#2) * nth (S j) c 0 - (1#2) * nth j c 0) by field.
  rewrite H1, H2. split; (split; [intros [X|X]; lra | intros X; left; lra]).
Qed.

(** Regular spacing. *)
Lemma regular_cells a d c b : (2 <= List.length c)%nat -> (forall k x, nth_error c k = Some x -> x == a + inject_Z (Z.of_nat k) * d) ->
  get_bounds_from_1d Float c = Ok b ->
  forall k x cell, nth_error c k = Some x -> nth_error b k = Some cell -> fst cell == x - d / 2 /\ snd cell == x + d / 2.
Proof.
  intros H Hr E k x cell Hx Hc. destruct (bounds_closed Float c H) as [D [b' [E' [L [H2 [H3 N]]]]]]. assert (b' = b) by congruence. subst b'.
  assert (Hk : (k < List.length c)%nat) by (apply nth_error_Some; congruence).
  assert (R : forall j, (j < List.length c)%nat -> nth j c 0 == a + inject_Z (Z.of_nat j) * d) by (intros j Hj; apply Hr, nth_error_nth'; exact Hj).
  assert (M : forall j, (S j < List.length c)%nat -> mid Float c j == a + inject_Z (Z.of_nat j) * d + d / 2).
  { intros j Hj. unfold mid. cbn [store]. rewrite (R j), (R (S j)) by lia. replace (Z.of_nat (S j)) with (Z.of_nat j + 1)%Z by lia. rewrite inject_Z_plus. field. }
  assert (HD : D == d).
  { destruct (Nat.eq_dec (List.length c) 2) as [E2|E2].
    - rewrite (H2 E2), (R 1%nat), (R 0%nat) by lia. cbn. unfold inject_Z. field.
    - specialize (H3 ltac:(lia)). rewrite (M (List.length c - 2)%nat), (M 0%nat) in H3 by lia.
      replace (Z.of_nat (List.length c - 2)) with (zlen c - 2)%Z in H3 by (unfold zlen; lia).
      assert (Hz : ~ inject_Z (zlen c - 2) == 0) by (unfold zlen; intros X; unfold Qeq in X; cbn in X; lia).
      apply (Qmult_inj_r _ _ _ Hz). rewrite H3. change (inject_Z (Z.of_nat 0)) with 0. ring. }
  rewrite N in Hc by lia. assert (X : cell = (store Float (low_edge Float c D k), store Float (high_edge Float c D k))) by congruence. subst cell. cbn [fst snd store].
  rewrite (Hr _ _ Hx). split.
  - destruct k as [|j]; cbn [low_edge].
    + rewrite (M 0%nat) by lia. rewrite HD. change (inject_Z (Z.of_nat 0)) with 0. field.
    + rewrite (M j) by lia. replace (Z.of_nat (S j)) with (Z.of_nat j + 1)%Z by lia. rewrite inject_Z_plus. field.
  - unfold high_edge. destruct (Nat.eqb_spec (S k) (List.length c)) as [Ek|Ek].
    + rewrite (M (List.length c - 2)%nat) by lia. rewrite HD. replace (Z.of_nat k) with (Z.of_nat (List.length c - 2) + 1)%Z by lia. rewrite inject_Z_plus. field.
    + rewrite (M k) by lia. reflexivity.
Qed.
