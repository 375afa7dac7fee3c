(** Trigonometry for the properties of SphereProperties.v. *)
From Coq Require Import Reals Lra.
From Verif Require Import Py SphereModel SphereSpec.
Local Open Scope R_scope.
Local Open Scope list_scope.

Lemma tan_minus_pi t : cos t <> 0 -> tan (t - PI) = tan t.
Proof.
  intros C. unfold tan. replace (t - PI) with (- (PI - t)) by ring. rewrite sin_neg, cos_neg.
  rewrite sin_PI_x. replace (PI - t) with (- t + PI) by ring. rewrite neg_cos, cos_neg. field. exact C.
Qed.

Lemma arctan2_polar r t : 0 < r -> - PI < t <= PI -> arctan2 (r * sin t) (r * cos t) = t.
Proof.
  intros R0 [T1 T2]. pose proof PI_RGT_0 as P. unfold arctan2.
  assert (Q : cos t <> 0 -> r * sin t / (r * cos t) = tan t) by (intros C; unfold tan; field; lra).
  destruct (Rlt_dec (-(PI/2)) t) as [A|A].
  - destruct (Rlt_dec t (PI/2)) as [B|B].
    + assert (C : 0 < cos t) by (apply cos_gt_0; lra).
      destruct (Rlt_dec 0 (r * cos t)) as [_|D]; [|destruct D; now apply Rmult_lt_0_compat].
      rewrite Q by lra. apply atan_tan. lra.
    + destruct (Req_dec t (PI/2)) as [->|N].
      * rewrite cos_PI2, sin_PI2, Rmult_0_r, Rmult_1_r.
        destruct (Rlt_dec 0 0); [lra|]. destruct (Rlt_dec 0 r); [reflexivity|lra].
      * assert (C : cos t < 0) by (apply cos_lt_0; lra).
        destruct (Rlt_dec 0 (r * cos t)) as [D|_]; [exfalso; nra|].
        destruct (Rlt_dec (r * cos t) 0) as [_|D]; [|exfalso; nra].
        assert (S0 : 0 <= sin t) by (apply sin_ge_0; lra).
        destruct (Rle_dec 0 (r * sin t)) as [_|D]; [|exfalso; nra].
        rewrite Q by lra. rewrite <- tan_minus_pi by lra. rewrite atan_tan; lra.
  - destruct (Req_dec t (-(PI/2))) as [->|N].
    + rewrite cos_neg, sin_neg, cos_PI2, sin_PI2, Rmult_0_r.
      destruct (Rlt_dec 0 0); [lra|]. destruct (Rlt_dec 0 (r * - (1))); [lra|].
      destruct (Rlt_dec (r * - (1)) 0); [reflexivity|lra].
    + assert (C : cos t < 0) by (rewrite <- cos_neg; apply cos_lt_0; lra).
      destruct (Rlt_dec 0 (r * cos t)) as [D|_]; [exfalso; nra|].
      destruct (Rlt_dec (r * cos t) 0) as [_|D]; [|exfalso; nra].
      assert (S0 : sin t < 0) by (replace t with (- - t) by ring; rewrite sin_neg; assert (0 < sin (- t)) by (apply sin_gt_0; lra); lra).
      destruct (Rle_dec 0 (r * sin t)) as [D|_]; [exfalso; nra|].
      rewrite Q by lra.
      assert (E : tan t = tan (t + PI)).
      { replace t with ((t + PI) - PI) at 1 by ring. apply tan_minus_pi. rewrite neg_cos. lra. }
      rewrite E, atan_tan; lra.
Qed.

Lemma arctan2_bounds y x : - PI < arctan2 y x <= PI.
Proof.
  pose proof PI_RGT_0 as P. unfold arctan2. destruct (atan_bound (y / x)) as [A B].
  destruct (Rlt_dec 0 x); [lra|]. destruct (Rlt_dec x 0) as [X|].
  - destruct (Rle_dec 0 y) as [Y|Y].
    + split; [lra|]. assert (y / x <= 0).
      { unfold Rdiv. assert (/ x < 0) by now apply Rinv_lt_0_compat. nra. }
      assert (atan (y / x) <= 0); [|lra]. destruct (Req_dec (y/x) 0) as [->|N]; [rewrite atan_0; lra|].
      left. rewrite <- atan_0. apply atan_increasing. lra.
    + assert (0 < y / x).
      { unfold Rdiv. assert (/ x < 0) by now apply Rinv_lt_0_compat. nra. }
      assert (0 < atan (y / x)); [|lra]. rewrite <- atan_0. now apply atan_increasing.
  - destruct (Rlt_dec 0 y); [lra|]. destruct (Rlt_dec y 0); lra.
Qed.

Lemma sqrt_ratio x y : x <> 0 -> sqrt (1 + (y / x)²) = sqrt (x ^ 2 + y ^ 2) / Rabs x.
Proof.
  intros X. assert (A : 0 < Rabs x) by now apply Rabs_pos_lt.
  apply Rmult_eq_reg_r with (Rabs x); [|lra]. unfold Rdiv at 2. rewrite Rmult_assoc, Rinv_l, Rmult_1_r by lra.
  rewrite <- sqrt_Rsqr_abs, <- sqrt_mult_alt.
  - f_equal. unfold Rsqr, Rdiv. field. exact X.
  - unfold Rsqr. nra.
Qed.

Lemma hyp_pos x y : x <> 0 -> 0 < sqrt (x ^ 2 + y ^ 2).
Proof. intros X. apply sqrt_lt_R0. nra. Qed.

Lemma arctan2_cos y x : sqrt (x ^ 2 + y ^ 2) * cos (arctan2 y x) = x.
Proof.
  unfold arctan2. destruct (Rlt_dec 0 x) as [X|X].
  - rewrite cos_atan, sqrt_ratio, Rabs_pos_eq by lra. assert (H := hyp_pos x y ltac:(lra)). field. lra.
  - destruct (Rlt_dec x 0) as [X'|X'].
    + assert (H := hyp_pos x y ltac:(lra)).
      assert (C : sqrt (x ^ 2 + y ^ 2) * - cos (atan (y / x)) = x).
      { rewrite cos_atan, sqrt_ratio, Rabs_left by lra. field. lra. }
      destruct (Rle_dec 0 y).
      * rewrite neg_cos. exact C.
      * replace (atan (y / x) - PI) with (- (- atan (y / x) + PI)) by ring. rewrite cos_neg, neg_cos, cos_neg. exact C.
    + assert (x = 0) as -> by lra. destruct (Rlt_dec 0 y); [rewrite cos_PI2; ring|].
      destruct (Rlt_dec y 0); [rewrite cos_neg, cos_PI2; ring|]. assert (y = 0) as -> by lra.
      replace (0 ^ 2 + 0 ^ 2) with 0 by ring. rewrite sqrt_0. ring.
Qed.

Lemma arctan2_sin y x : sqrt (x ^ 2 + y ^ 2) * sin (arctan2 y x) = y.
Proof.
  unfold arctan2. destruct (Rlt_dec 0 x) as [X|X].
  - rewrite sin_atan, sqrt_ratio, Rabs_pos_eq by lra. assert (H := hyp_pos x y ltac:(lra)). field. lra.
  - destruct (Rlt_dec x 0) as [X'|X'].
    + assert (H := hyp_pos x y ltac:(lra)).
      assert (C : sqrt (x ^ 2 + y ^ 2) * - sin (atan (y / x)) = y).
      { rewrite sin_atan, sqrt_ratio, Rabs_left by lra. field. lra. }
      destruct (Rle_dec 0 y).
      * rewrite neg_sin. exact C.
      * replace (atan (y / x) - PI) with (- (- atan (y / x) + PI)) by ring. rewrite sin_neg, neg_sin, sin_neg.
        replace (- - - sin (atan (y / x))) with (- sin (atan (y / x))) by ring. exact C.
    + assert (x = 0) as -> by lra. destruct (Rlt_dec 0 y).
      * rewrite sin_PI2. replace (0 ^ 2 + y ^ 2) with (y ^ 2) by ring. rewrite sqrt_pow2 by lra. ring.
      * destruct (Rlt_dec y 0).
        -- rewrite sin_neg, sin_PI2. replace (0 ^ 2 + y ^ 2) with ((- y) ^ 2) by ring. rewrite sqrt_pow2 by lra. ring.
        -- assert (y = 0) as -> by lra. rewrite sin_0. ring.
Qed.

Lemma radians_degrees a : a * DEG_TO_RAD = radians true a.
Proof. unfold DEG_TO_RAD, radians, half_turn. field. Qed.

Lemma radians_radians a : radians false a = a.
Proof. unfold radians, half_turn. field. apply PI_neq0. Qed.

Lemma degrees_back a : radians true (a * RAD_TO_DEG) = a.
Proof. unfold RAD_TO_DEG, radians, half_turn. field. apply PI_neq0. Qed.

Lemma back_degrees a : radians true a * RAD_TO_DEG = a.
Proof. unfold RAD_TO_DEG, radians, half_turn. field. apply PI_neq0. Qed.

Lemma to_cartesian_place degrees p : to_cartesian degrees p = place degrees p.
Proof.
  unfold to_cartesian, place, turn_about_z, turn_about_y. cbn [p_x p_y p_z].
  destruct degrees; rewrite ?radians_degrees, ?radians_radians; f_equal; ring.
Qed.

Lemma radians_bounds degrees a lo hi : lo * half_turn degrees < a -> a <= hi * half_turn degrees -> lo * PI < radians degrees a /\ radians degrees a <= hi * PI.
Proof.
  pose proof PI_RGT_0 as P. unfold radians, half_turn. destruct degrees; intros A B.
  - split; [|]; unfold Rdiv.
    + replace (lo * PI) with ((lo * 180) * / 180 * PI) by field. apply Rmult_lt_compat_r; [exact P|]. apply Rmult_lt_compat_r; lra.
    + replace (hi * PI) with ((hi * 180) * / 180 * PI) by field. apply Rmult_le_compat_r; [lra|]. apply Rmult_le_compat_r; lra.
  - replace (a / PI * PI) with a by (field; lra). now split.
Qed.

Lemma angle_back (degrees : bool) a : (if degrees then radians degrees a * RAD_TO_DEG else radians degrees a) = a.
Proof. destruct degrees; [apply back_degrees|apply radians_radians]. Qed.

Lemma norm_place degrees p : p_x (place degrees p) ^ 2 + p_y (place degrees p) ^ 2 + p_z (place degrees p) ^ 2 = p_z p ^ 2.
Proof.
  rewrite <- to_cartesian_place. unfold to_cartesian. cbn [p_x p_y p_z].
  set (x := if degrees then p_x p * DEG_TO_RAD else p_x p). set (y := if degrees then p_y p * DEG_TO_RAD else p_y p).
  assert (Cx := sin2_cos2 x). assert (Cy := sin2_cos2 y). unfold Rsqr in *.
  replace ((p_z p * cos y * cos x) ^ 2 + (p_z p * cos y * sin x) ^ 2 + (p_z p * sin y) ^ 2)
    with (p_z p ^ 2 * (cos y * cos y * (sin x * sin x + cos x * cos x) + sin y * sin y)) by ring.
  rewrite Cx. replace (cos y * cos y * 1 + sin y * sin y) with (sin y * sin y + cos y * cos y) by ring. rewrite Cy. ring.
Qed.

Lemma there_and_back degrees p : usual degrees p -> from_cartesian degrees (to_cartesian degrees p) = p.
Proof.
  intros (Z0 & Y0 & X0). pose proof PI_RGT_0 as P.
  destruct (radians_bounds degrees (p_x p) (-1) 1 ltac:(lra) ltac:(lra)) as [Xa Xb].
  assert (Ya : - (PI / 2) < radians degrees (p_y p) < PI / 2).
  { unfold quarter in Y0. destruct (radians_bounds degrees (p_y p) (-(1/2)) (1/2) ltac:(lra) ltac:(lra)) as [A _].
    assert (B : radians degrees (p_y p) < PI / 2); [|lra].
    unfold radians, half_turn in *. destruct degrees.
    - replace (PI / 2) with (90 / 180 * PI) by field. apply Rmult_lt_compat_r; [exact P|]. lra.
    - replace (p_y p / PI * PI) with (p_y p) by (field; lra). lra. }
  unfold from_cartesian. rewrite to_cartesian_place, norm_place. rewrite sqrt_pow2 by lra.
  rewrite <- to_cartesian_place. unfold to_cartesian. cbn [p_x p_y p_z].
  assert (E : forall a, (if degrees then a * DEG_TO_RAD else a) = radians degrees a).
  { intros a. destruct degrees; [apply radians_degrees|now rewrite radians_radians]. }
  rewrite !E. rewrite arctan2_polar; [| |lra].
  - replace (p_z p * sin (radians degrees (p_y p)) / p_z p) with (sin (radians degrees (p_y p))) by (field; lra).
    rewrite asin_sin by lra. destruct p as [x y z]. cbn [p_x p_y p_z].
    assert (H := angle_back degrees). destruct degrees; f_equal; apply H.
  - apply Rmult_lt_0_compat; [exact Z0|]. apply cos_gt_0; lra.
Qed.

Lemma norm_zero x y z : x ^ 2 + y ^ 2 + z ^ 2 = 0 -> x = 0 /\ y = 0 /\ z = 0.
Proof. intros H. repeat split; nra. Qed.

Lemma back_and_there degrees p : p <> origin -> to_cartesian degrees (from_cartesian degrees p) = p.
Proof.
  intros N. destruct p as [x y z]. set (r := sqrt (x ^ 2 + y ^ 2 + z ^ 2)).
  assert (S0 : 0 < x ^ 2 + y ^ 2 + z ^ 2).
  { destruct (Rle_lt_dec (x ^ 2 + y ^ 2 + z ^ 2) 0) as [A|]; [|assumption]. exfalso. apply N.
    destruct (norm_zero x y z) as (-> & -> & ->); [nra|reflexivity]. }
  assert (R0 : 0 < r) by now apply sqrt_lt_R0.
  assert (RR : r * r = x ^ 2 + y ^ 2 + z ^ 2) by (apply sqrt_sqrt; lra).
  assert (B : -1 <= z / r <= 1).
  { assert (- r <= z <= r) by nra. split.
    - apply Rmult_le_reg_r with r; [exact R0|]. unfold Rdiv. rewrite Rmult_assoc, Rinv_l by lra. lra.
    - apply Rmult_le_reg_r with r; [exact R0|]. unfold Rdiv. rewrite Rmult_assoc, Rinv_l by lra. lra. }
  assert (H : forall a b c, to_cartesian degrees (if degrees then mkpoint (a * RAD_TO_DEG) (b * RAD_TO_DEG) c else mkpoint a b c)
    = mkpoint (c * cos b * cos a) (c * cos b * sin a) (c * sin b)).
  { intros a b c. unfold to_cartesian. destruct degrees; cbn [p_x p_y p_z]; [|reflexivity]. now rewrite !radians_degrees, !degrees_back. }
  unfold from_cartesian. cbn [p_x p_y p_z]. fold r. rewrite H.
  assert (C : r * cos (asin (z / r)) = sqrt (x ^ 2 + y ^ 2)).
  { rewrite cos_asin by exact B. rewrite <- (sqrt_square r) at 1 by lra. rewrite <- sqrt_mult_alt by nra. f_equal.
    unfold Rsqr. replace (r * r * (1 - z / r * (z / r))) with (r * r - z * z) by (field; lra). rewrite RR. ring. }
  rewrite C, arctan2_cos, arctan2_sin, sin_asin by exact B. f_equal. field. lra.
Qed.

Lemma from_cartesian_west p : p_x (from_cartesian true p) <= 180.
Proof.
  unfold from_cartesian. cbn [p_x]. pose proof PI_RGT_0 as P. destruct (arctan2_bounds (p_y p) (p_x p)) as [_ B].
  unfold RAD_TO_DEG. replace 180 with (PI * (180 / PI)) at 2 by (field; lra). apply Rmult_le_compat_r; [|exact B].
  unfold Rdiv. apply Rmult_le_pos; [lra|]. left. now apply Rinv_0_lt_compat.
Qed.

Lemma too_far_east_iff l : too_far_east l = true <-> exists p, In p l /\ 180 < p_x p.
Proof.
  unfold too_far_east. rewrite existsb_exists. split; intros (p & I & H); exists p; split; try exact I; destruct (Rlt_dec 180 (p_x p)); easy.
Qed.
