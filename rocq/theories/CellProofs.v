From Verif Require Import Lib Py PartitionModel NdModel CoordModel EsmfModel CellModel CoordSpec CellSpec CoordProofs BoundsProofs NdProofs.
From Coq Require Import Lqa Sorting.Sorted Qabs.
Local Open Scope Z_scope.

(** ** The closed form of the corners *)
Definition window (arr : nd Q) (i j : Z) : Q :=
  ((at2 (nd_at arr) (i - 1) (j - 1) + at2 (nd_at arr) (i - 1) j + at2 (nd_at arr) i (j - 1) + at2 (nd_at arr) i j) / 4)%Q.
Definition clamp (n k : Z) : Z := Z.max 1 (Z.min k (n - 1)).
Definition outward (n k : Z) : Q := if k =? 0 then (-1)%Q else if k =? n then 1%Q else 0%Q.
Definition signed (l : list Q) : Q := (if qlt (hd 0 l) (last l 0) then mean_step l else - mean_step l)%Q.

Lemma last_default {A} (l : list A) (d d' : A) : l <> [] -> last l d = last l d'.
Proof. induction l as [|a [|b l] IH]; intros H; [congruence | reflexivity|]. change (last (b :: l) d = last (b :: l) d'). apply IH. congruence. Qed.

Lemma is_increasing_ok l : (2 <= List.length l)%nat -> is_increasing l = Ok (qlt (hd 0%Q l) (last l 0%Q)).
Proof.
  destruct l as [|a [|b l]]; cbn [List.length]; try lia. intros _. cbn [is_increasing hd]. rewrite (last_default (a :: b :: l) a 0%Q) by congruence. reflexivity.
Qed.

Lemma first_column_length arr m : List.length (first_column arr m) = Z.to_nat m.
Proof. unfold first_column. rewrite map_length, zrange_length. f_equal. lia. Qed.
Lemma first_row_length arr m : List.length (first_row arr m) = Z.to_nat m.
Proof. unfold first_row. rewrite map_length, zrange_length. f_equal. lia. Qed.

Ltac bool_cases := repeat match goal with |- context [?a =? ?b] => destruct (Z.eqb_spec a b); try lia end;
  repeat match goal with |- context [?a <=? ?b] => destruct (Z.leb_spec a b); try lia end;
  repeat match goal with |- context [?a <? ?b] => destruct (Z.ltb_spec a b); try lia end; cbn [andb orb].

Lemma corners_ok t arr m n : nd_shape arr = [m; n] -> 2 <= m -> 2 <= n ->
  exists e, extrapolated_corners t arr = Ok e /\ nd_shape e = [m + 1; n + 1] /\
  (forall i j, 1 <= i < m -> 1 <= j < n -> nd_at e [i; j] = store t (window arr i j)) /\
  (t = Float -> forall i j, 0 <= i <= m -> 0 <= j <= n ->
     (at2 (nd_at e) i j == window arr (clamp m i) (clamp n j) + outward m i * signed (first_column arr m) + outward n j * signed (first_row arr n))%Q).
Proof.
  intros H Hm Hn. unfold extrapolated_corners. rewrite H. bool_cases.
  rewrite !is_increasing_ok by (rewrite ?first_column_length, ?first_row_length; lia). cbn [bind].
  eexists. split; [reflexivity|]. split; [reflexivity|]. split.
  - intros i j Hi Hj. cbn [nd_at]. unfold corners_outer, corners_ends, corners_sides, corners_inner, row_of, col_of, at2. cbn [nth].
    bool_cases. reflexivity.
  - intros -> i j Hi Hj. unfold at2 at 1. cbn [nd_at]. unfold signed.
    set (ri := qlt (hd 0%Q (first_column arr m)) _). set (ci := qlt (hd 0%Q (first_row arr n)) _).
    set (rd := mean_step (first_column arr m)). set (cd := mean_step (first_row arr n)).
    assert (I : forall a b, 1 <= a < m -> 1 <= b < n -> corners_inner Float m n arr [a; b] = window arr a b).
    { intros a b Ha Hb. unfold corners_inner, row_of, col_of. cbn [nth]. bool_cases. reflexivity. }
    assert (S' : forall a b, 1 <= a < m -> 0 <= b <= n -> (at2 (corners_sides Float m n ci cd (corners_inner Float m n arr)) a b ==
       window arr a (clamp n b) + outward n b * (if ci then cd else - cd))%Q).
    { intros a b Ha Hb. unfold at2 at 1. unfold corners_sides, row_of, col_of, outward, at2. cbn [nth store].
      destruct (Z.eqb_spec b 0); [|destruct (Z.eqb_spec b n)]; bool_cases.
      - rewrite I by lia. replace (clamp n b) with 1 by (unfold clamp; lia). destruct ci; lra.
      - rewrite I by lia. replace (clamp n b) with (n - 1) by (unfold clamp; lia). destruct ci; lra.
      - rewrite I by lia. replace (clamp n b) with b by (unfold clamp; lia). lra. }
    assert (E : forall a b, 0 <= a <= m -> 1 <= b < n -> (at2 (corners_ends Float m n ri rd (corners_sides Float m n ci cd (corners_inner Float m n arr))) a b ==
       window arr (clamp m a) b + outward m a * (if ri then rd else - rd))%Q).
    { intros a b Ha Hb. unfold corners_ends, row_of, col_of, at2. cbn [nth store]. unfold outward at 1.
      assert (B : clamp n b = b) by (unfold clamp; lia). assert (O : outward n b = 0%Q) by (unfold outward; bool_cases; reflexivity).
      destruct (Z.eqb_spec a 0); [|destruct (Z.eqb_spec a m)]; bool_cases.
      - assert (K := S' 1 b ltac:(lia) ltac:(lia)). rewrite B, O in K. replace (clamp m a) with 1 by (unfold clamp; lia). destruct ri; rewrite K; lra.
      - assert (K := S' (m - 1) b ltac:(lia) ltac:(lia)). rewrite B, O in K. replace (clamp m a) with (m - 1) by (unfold clamp; lia). destruct ri; rewrite K; lra.
      - assert (K := S' a b ltac:(lia) ltac:(lia)). rewrite B, O in K. replace (clamp m a) with a by (unfold clamp; lia). rewrite K; lra. }
    assert (Ic : clamp m i = i \/ i = 0 \/ i = m) by (unfold clamp; lia).
    assert (O1 : forall b, outward n b = if b =? 0 then (-1)%Q else if b =? n then 1%Q else 0%Q) by reflexivity.
    assert (O2 : 1 <= i < m -> outward m i = 0%Q) by (intros; unfold outward; bool_cases; reflexivity).
    unfold corners_outer, row_of, col_of, at2. cbn [nth store].
    destruct (Z.eq_dec i 0) as [Zi|Zi]; [|destruct (Z.eq_dec i m) as [Mi|Mi]].
    + destruct (Z.eq_dec j 0) as [Zj|Zj]; [|destruct (Z.eq_dec j n) as [Nj|Nj]]; bool_cases.
      * assert (K := E i 1 ltac:(lia) ltac:(lia)). rewrite O1. bool_cases. replace (clamp n j) with 1 by (unfold clamp; lia). destruct ci; rewrite K; lra.
      * assert (K := E i (n - 1) ltac:(lia) ltac:(lia)). rewrite O1. bool_cases. replace (clamp n j) with (n - 1) by (unfold clamp; lia). destruct ci; rewrite K; lra.
      * assert (K := E i j ltac:(lia) ltac:(lia)). rewrite O1. bool_cases. replace (clamp n j) with j by (unfold clamp; lia). rewrite K; lra.
    + destruct (Z.eq_dec j 0) as [Zj|Zj]; [|destruct (Z.eq_dec j n) as [Nj|Nj]]; bool_cases.
      * assert (K := E i 1 ltac:(lia) ltac:(lia)). rewrite O1. bool_cases. replace (clamp n j) with 1 by (unfold clamp; lia). destruct ci; rewrite K; lra.
      * assert (K := E i (n - 1) ltac:(lia) ltac:(lia)). rewrite O1. bool_cases. replace (clamp n j) with (n - 1) by (unfold clamp; lia). destruct ci; rewrite K; lra.
      * assert (K := E i j ltac:(lia) ltac:(lia)). rewrite O1. bool_cases. replace (clamp n j) with j by (unfold clamp; lia). rewrite K; lra.
    + assert (K := S' i j ltac:(lia) ltac:(lia)). rewrite O2 by lia. replace (clamp m i) with i by (unfold clamp; lia).
      bool_cases; unfold corners_ends, row_of, col_of; cbn [nth]; bool_cases; unfold at2 in K; rewrite K; lra.
Qed.

(** ** The signed mean step *)
Lemma abs_sum_up : forall l x, Sorted Qle (x :: l) -> (qsum (map Qabs (np_diff (x :: l))) == last (x :: l) 0 - x)%Q.
Proof.
  induction l as [|y l IH]; intros x H; [cbn; lra|].
  change (np_diff (x :: y :: l)) with ((y - x)%Q :: np_diff (y :: l)). change (last (x :: y :: l) 0%Q) with (last (y :: l) 0%Q).
  cbn [map]. unfold qsum in *. cbn [fold_right]. inversion H as [|? ? H1 H2]; subst. rewrite IH by exact H1.
  inversion H2; subst. rewrite Qabs_pos by lra. lra.
Qed.
Lemma abs_sum_down : forall l x, Sorted (fun a b => b <= a)%Q (x :: l) -> (qsum (map Qabs (np_diff (x :: l))) == x - last (x :: l) 0)%Q.
Proof.
  induction l as [|y l IH]; intros x H; [cbn; lra|].
  change (np_diff (x :: y :: l)) with ((y - x)%Q :: np_diff (y :: l)). change (last (x :: y :: l) 0%Q) with (last (y :: l) 0%Q).
  cbn [map]. unfold qsum in *. cbn [fold_right]. inversion H as [|? ? H1 H2]; subst. rewrite IH by exact H1.
  inversion H2; subst. rewrite Qabs_neg by lra. lra.
Qed.
Lemma sorted_ends_up : forall l x, Sorted Qle (x :: l) -> (x <= last (x :: l) 0)%Q.
Proof.
  induction l as [|y l IH]; intros x H; [cbn; lra|]. change (last (x :: y :: l) 0%Q) with (last (y :: l) 0%Q).
  inversion H as [|? ? H1 H2]; subst. inversion H2; subst. specialize (IH _ H1). lra.
Qed.
Lemma sorted_ends_down : forall l x, Sorted (fun a b => b <= a)%Q (x :: l) -> (last (x :: l) 0 <= x)%Q.
Proof.
  induction l as [|y l IH]; intros x H; [cbn; lra|]. change (last (x :: y :: l) 0%Q) with (last (y :: l) 0%Q).
  inversion H as [|? ? H1 H2]; subst. inversion H2; subst. specialize (IH _ H1). lra.
Qed.

Definition monotone (l : list Q) : Prop := Sorted Qle l \/ Sorted (fun a b => b <= a)%Q l.

Lemma inject_nonzero z : z <> 0 -> ~ (inject_Z z == 0)%Q.
Proof. intros H E. apply H. unfold Qeq, inject_Z in E. cbn [Qnum Qden] in E. lia. Qed.
Lemma signed_spec l : (2 <= List.length l)%nat -> monotone l -> (signed l * inject_Z (zlen l - 1) == last l 0 - hd 0 l)%Q.
Proof.
  intros L M. destruct l as [|x l]; cbn [List.length] in L; [lia|]. unfold signed, mean_step, np_mean.
  assert (Ll : zlen (map Qabs (np_diff (x :: l))) = zlen (x :: l) - 1) by (unfold zlen; rewrite map_length, diff_length; cbn [List.length]; lia).
  rewrite Ll. assert (P : ~ (inject_Z (zlen (x :: l) - 1) == 0)%Q).
  { apply inject_nonzero. unfold zlen. cbn [List.length]. lia. }
  cbn [hd]. destruct M as [M|M].
  - assert (T := abs_sum_up l x M). assert (E := sorted_ends_up l x M). destruct (qlt_spec x (last (x :: l) 0%Q)) as [G|G]; rewrite T.
    + field; exact P.
    + apply Qnot_lt_le in G. assert (Q0 : (last (x :: l) 0 - x == 0)%Q) by lra. rewrite Q0. field. exact P.
  - assert (T := abs_sum_down l x M). assert (E := sorted_ends_down l x M). destruct (qlt_spec x (last (x :: l) 0%Q)) as [G|G]; rewrite T; [lra|]. field. exact P.
Qed.

Lemma sorted_eq (R : Q -> Q -> Prop) (HR : forall a a' b b', (a == a')%Q -> (b == b')%Q -> R a b -> R a' b') :
  forall l l', Forall2 Qeq l l' -> Sorted R l -> Sorted R l'.
Proof.
  induction 1 as [|a b l l' E F IH]; intros H; [constructor|]. inversion H as [|? ? H1 H2]; subst. constructor; [apply IH, H1|].
  destruct F as [|c d l l' E' F]; [constructor|]. inversion H2; subst. constructor. eapply HR; eassumption.
Qed.
Lemma monotone_eq l l' : Forall2 Qeq l l' -> monotone l -> monotone l'.
Proof. intros F [H|H]; [left|right]; (eapply sorted_eq; [|exact F|exact H]); cbn; intros; lra. Qed.
Lemma last_eq : forall l l', Forall2 Qeq l l' -> (last l 0 == last l' 0)%Q.
Proof. induction 1 as [|a b l l' E F IH]; [reflexivity|]. destruct F as [|c d l l' E' F]; [exact E | exact IH]. Qed.
Lemma hd_eq : forall l l', Forall2 Qeq l l' -> (hd 0 l == hd 0 l')%Q.
Proof. destruct 1; [reflexivity | assumption]. Qed.
Lemma eq_length {A B} (R : A -> B -> Prop) l l' : Forall2 R l l' -> List.length l = List.length l'.
Proof. induction 1; cbn; congruence. Qed.

Lemma signed_eq l c : Forall2 Qeq l c -> (2 <= List.length c)%nat -> monotone c -> (signed l * inject_Z (zlen c - 1) == last c 0 - hd 0 c)%Q.
Proof.
  intros F L M. assert (E := eq_length _ _ _ F). replace (zlen c) with (zlen l) by (unfold zlen; congruence).
  rewrite signed_spec; [rewrite (last_eq _ _ F), (hd_eq _ _ F); reflexivity | lia|].
  apply (monotone_eq c); [|exact M]. clear -F. induction F; constructor; [symmetry; assumption | assumption].
Qed.

Lemma ascending_sorted : forall c, Ascending c -> Sorted Qle c.
Proof.
  induction c as [|a c IH]; intros H; [constructor|]. constructor.
  - apply IH. intros i j x y L X Y. apply (H (S i) (S j) x y); [lia | exact X | exact Y].
  - destruct c as [|b c]; constructor. apply Qlt_le_weak, (H 0%nat 1%nat); [lia | reflexivity | reflexivity].
Qed.
Lemma descending_sorted : forall c, Descending c -> Sorted (fun a b => b <= a)%Q c.
Proof.
  induction c as [|a c IH]; intros H; [constructor|]. constructor.
  - apply IH. intros i j x y L X Y. apply (H (S i) (S j) x y); [lia | exact X | exact Y].
  - destruct c as [|b c]; constructor. apply Qlt_le_weak, (H 0%nat 1%nat); [lia | reflexivity | reflexivity].
Qed.
Lemma strict_monotone c : Ascending c \/ Descending c -> monotone c.
Proof. intros [H|H]; [left; apply ascending_sorted | right; apply descending_sorted]; exact H. Qed.

Lemma forall2_map_zrange (f : Z -> Q) : forall (c : list Q) (lo : Z), (forall i x, nth_error c i = Some x -> (f (lo + Z.of_nat i)%Z == x)%Q) ->
  Forall2 Qeq (map f (zrange lo (lo + zlen c))) c.
Proof.
  induction c as [|a c IH]; intros lo H.
  - unfold zlen. cbn. rewrite Z.add_0_r, zrange_nil by lia. constructor.
  - rewrite zrange_cons by (unfold zlen; cbn [List.length]; lia). cbn [map]. constructor.
    + rewrite <- (H 0%nat a eq_refl). replace (lo + Z.of_nat 0) with lo by lia. reflexivity.
    + replace (lo + zlen (a :: c)) with (lo + 1 + zlen c) by (unfold zlen; cbn [List.length]; lia). apply IH.
      intros i x E. rewrite <- (H (S i) x E). replace (lo + Z.of_nat (S i)) with (lo + 1 + Z.of_nat i) by lia. reflexivity.
Qed.

Lemma constant_signed l x : (2 <= List.length l)%nat -> Forall (fun y => y == x)%Q l -> (signed l == 0)%Q.
Proof.
  intros L F. assert (M : monotone l).
  { left. clear L. induction F as [|a l E F IH]; [constructor|]. constructor; [exact IH|]. destruct F; constructor. lra. }
  assert (S' := signed_spec l L M). assert (E : (last l 0 == hd 0 l)%Q).
  { clear -F L. destruct F as [|a l E F]; [reflexivity|]. cbn [hd]. clear L. revert a E. induction F as [|b l E' F IH]; intros a E; [reflexivity|].
    change (last (a :: b :: l) 0%Q) with (last (b :: l) 0%Q). rewrite (IH b E'). lra. }
  rewrite E in S'. assert (S2 : (signed l * inject_Z (zlen l - 1) == 0)%Q) by lra. apply Qmult_integral in S2. destruct S2 as [S2|S2]; [exact S2|].
  exfalso. revert S2. apply inject_nonzero. unfold zlen. lia.
Qed.

(** ** Coordinates along the rows or the columns *)
Definition edge (c : list Q) (s : Q) (k : Z) : Q :=
  let m := zlen c in
  ((nth (Z.to_nat (clamp m k - 1)) c 0 + nth (Z.to_nat (clamp m k)) c 0) / 2 + outward m k * s)%Q.

Lemma at_nth (c : list Q) (k : Z) : 0 <= k < zlen c -> nth_error c (Z.to_nat k) = Some (nth (Z.to_nat k) c 0%Q).
Proof. intros H. apply nth_error_nth'. unfold zlen in H. lia. Qed.

Lemma rows_closed arr c n : AlongRows arr c n -> (2 <= List.length c)%nat -> 2 <= n -> monotone c ->
  exists e s, extrapolated_corners Float arr = Ok e /\ nd_shape e = [zlen c + 1; n + 1] /\ (s * inject_Z (zlen c - 1) == last c 0 - hd 0 c)%Q /\
  forall i j, 0 <= i <= zlen c -> 0 <= j <= n -> (at2 (nd_at e) i j == edge c s i)%Q.
Proof.
  intros [H A] L Hn M. assert (Hm : 2 <= zlen c) by (unfold zlen; lia).
  destruct (corners_ok Float arr (zlen c) n H Hm Hn) as [e [E [Sh [_ C]]]]. exists e, (signed (first_column arr (zlen c))).
  split; [exact E|]. split; [exact Sh|].
  assert (F : Forall2 Qeq (first_column arr (zlen c)) c).
  { unfold first_column. apply (forall2_map_zrange (fun i => nd_at arr [i; 0]) c 0). intros i x X. apply A; [lia | exact X]. }
  split; [apply signed_eq; assumption|]. intros i j Hi Hj. rewrite (C eq_refl i j Hi Hj). unfold edge.
  assert (Z0 : (signed (first_row arr n) == 0)%Q).
  { apply (constant_signed _ (hd 0%Q c)); [rewrite first_row_length; lia|]. unfold first_row. rewrite Forall_forall. intros y Y. apply in_map_iff in Y.
    destruct Y as [k [<- K]]. apply in_zrange in K. apply (A 0%nat k); [lia|]. destruct c; [cbn in L; lia | reflexivity]. }
  rewrite Z0. assert (W : (window arr (clamp (zlen c) i) (clamp n j) ==
    (nth (Z.to_nat (clamp (zlen c) i - 1)) c 0 + nth (Z.to_nat (clamp (zlen c) i)) c 0) / 2)%Q).
  { assert (Ci : 1 <= clamp (zlen c) i <= zlen c - 1) by (unfold clamp; lia). assert (Cj : 1 <= clamp n j <= n - 1) by (unfold clamp; lia).
    assert (V : forall a b, 0 <= a < zlen c -> 0 <= b < n -> (at2 (nd_at arr) a b == nth (Z.to_nat a) c 0)%Q).
    { intros a b Ha Hb. unfold at2. rewrite <- (A (Z.to_nat a) b _ Hb (at_nth c a Ha)). rewrite Z2Nat.id by lia. reflexivity. }
    unfold window. rewrite !V by lia. field. }
  rewrite W. lra.
Qed.

Lemma columns_closed arr c m : AlongColumns arr c m -> (2 <= List.length c)%nat -> 2 <= m -> monotone c ->
  exists e s, extrapolated_corners Float arr = Ok e /\ nd_shape e = [m + 1; zlen c + 1] /\ (s * inject_Z (zlen c - 1) == last c 0 - hd 0 c)%Q /\
  forall i j, 0 <= i <= m -> 0 <= j <= zlen c -> (at2 (nd_at e) i j == edge c s j)%Q.
Proof.
  intros [H A] L Hn M. assert (Hm : 2 <= zlen c) by (unfold zlen; lia).
  destruct (corners_ok Float arr m (zlen c) H Hn Hm) as [e [E [Sh [_ C]]]]. exists e, (signed (first_row arr (zlen c))).
  split; [exact E|]. split; [exact Sh|].
  assert (F : Forall2 Qeq (first_row arr (zlen c)) c).
  { unfold first_row. apply (forall2_map_zrange (fun i => nd_at arr [0; i]) c 0). intros i x X. apply A; [lia | exact X]. }
  split; [apply signed_eq; assumption|]. intros i j Hi Hj. rewrite (C eq_refl i j Hi Hj). unfold edge.
  assert (Z0 : (signed (first_column arr m) == 0)%Q).
  { apply (constant_signed _ (hd 0%Q c)); [rewrite first_column_length; lia|]. unfold first_column. rewrite Forall_forall. intros y Y. apply in_map_iff in Y.
    destruct Y as [k [<- K]]. apply in_zrange in K. apply (A k 0%nat); [lia|]. destruct c; [cbn in L; lia | reflexivity]. }
  rewrite Z0. assert (W : (window arr (clamp m i) (clamp (zlen c) j) ==
    (nth (Z.to_nat (clamp (zlen c) j - 1)) c 0 + nth (Z.to_nat (clamp (zlen c) j)) c 0) / 2)%Q).
  { assert (Ci : 1 <= clamp (zlen c) j <= zlen c - 1) by (unfold clamp; lia). assert (Cj : 1 <= clamp m i <= m - 1) by (unfold clamp; lia).
    assert (V : forall a b, 0 <= a < m -> 0 <= b < zlen c -> (at2 (nd_at arr) a b == nth (Z.to_nat b) c 0)%Q).
    { intros a b Ha Hb. unfold at2. rewrite <- (A a (Z.to_nat b) _ Ha (at_nth c b Hb)). rewrite Z2Nat.id by lia. reflexivity. }
    unfold window. rewrite !V by lia. field. }
  rewrite W. lra.
Qed.

(** The cells between the edges of a strictly monotone vector. *)
Lemma edge_inner c s k x : Ascending c \/ Descending c -> (0 < k)%nat -> (S k < List.length c)%nat -> nth_error c k = Some x ->
  InCell (edge c s (Z.of_nat k), edge c s (Z.of_nat k + 1)) x.
Proof.
  intros M K1 K2 X. unfold edge, outward.
  assert (C1 : clamp (zlen c) (Z.of_nat k) = Z.of_nat k) by (unfold clamp, zlen; lia).
  assert (C2 : clamp (zlen c) (Z.of_nat k + 1) = Z.of_nat k + 1) by (unfold clamp, zlen; lia).
  rewrite C1, C2. destruct (Z.eqb_spec (Z.of_nat k) 0); [lia|]. destruct (Z.eqb_spec (Z.of_nat k) (zlen c)) as [e|]; [unfold zlen in e; lia|].
  destruct (Z.eqb_spec (Z.of_nat k + 1) 0); [lia|]. destruct (Z.eqb_spec (Z.of_nat k + 1) (zlen c)) as [e|]; [unfold zlen in e; lia|].
  replace (Z.to_nat (Z.of_nat k - 1)) with (k - 1)%nat by lia. replace (Z.to_nat (Z.of_nat k)) with k by lia.
  replace (Z.to_nat (Z.of_nat k + 1 - 1)) with k by lia. replace (Z.to_nat (Z.of_nat k + 1)) with (S k) by lia.
  assert (X' : nth k c 0%Q = x) by (apply nth_error_nth; exact X). rewrite X'.
  assert (P : nth_error c (k - 1) = Some (nth (k - 1) c 0%Q)) by (apply nth_error_nth'; lia).
  assert (N : nth_error c (S k) = Some (nth (S k) c 0%Q)) by (apply nth_error_nth'; lia).
  unfold InCell. cbn [fst snd]. rewrite !half. destruct M as [M|M].
  - left. assert (A1 := M (k - 1)%nat k _ _ ltac:(lia) P X). assert (A2 := M k (S k) _ _ ltac:(lia) X N). lra.
  - right. assert (A1 := M (k - 1)%nat k _ _ ltac:(lia) P X). assert (A2 := M k (S k) _ _ ltac:(lia) X N). lra.
Qed.
