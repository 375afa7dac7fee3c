From Verif Require Import Py Lib TimeModel CalcModel StampModel StampSpec.
From Coq Require Import Lia.
Local Open Scope Z_scope.

(** ** Digits *)

Lemma digits_fuel_enough : forall f1 f2 n, 0 <= n -> n < 2 ^ Z.of_nat f1 -> n < 2 ^ Z.of_nat f2 ->
  digits_fuel f1 n = digits_fuel f2 n.
Proof.
  induction f1 as [|f1 IH]; intros f2 n Hn H1 H2.
  - cbn in H1. assert (n = 0) by lia. subst. destruct f2; reflexivity.
  - destruct f2 as [|f2].
    + cbn in H2. assert (n = 0) by lia. subst. reflexivity.
    + cbn [digits_fuel]. destruct (n <? 10) eqn:E; [reflexivity|]. apply Z.ltb_ge in E.
      rewrite Nat2Z.inj_succ, Z.pow_succ_r in H1, H2 by lia.
      f_equal. apply IH.
      * apply Z.div_pos; lia.
      * apply Z.div_lt_upper_bound; [lia|]. lia.
      * apply Z.div_lt_upper_bound; [lia|]. lia.
Qed.

Lemma log2_fuel : forall n, 0 <= n -> n < 2 ^ Z.of_nat (S (Z.to_nat (Z.log2 n))).
Proof.
  intros n Hn. destruct (Z.eq_dec n 0) as [->|Hz]; [cbn; lia|].
  rewrite Nat2Z.inj_succ, Z2Nat.id by apply Z.log2_nonneg. apply Z.log2_spec. lia.
Qed.

Lemma digits_small : forall n, n < 10 -> digits n = [n].
Proof. intros n H. unfold digits. cbn [digits_fuel]. destruct (Z.ltb_spec n 10); [reflexivity|lia]. Qed.

Lemma digits_step : forall n, 10 <= n -> digits n = digits (n / 10) ++ [n mod 10].
Proof.
  intros n H. unfold digits at 1. cbn [digits_fuel]. destruct (Z.ltb_spec n 10); [lia|]. f_equal.
  pose proof (Z.div_pos n 10 ltac:(lia) ltac:(lia)) as Hp.
  unfold digits. apply digits_fuel_enough; [exact Hp| |apply log2_fuel; exact Hp].
  pose proof (log2_fuel n ltac:(lia)) as Hl. rewrite Nat2Z.inj_succ, Z.pow_succ_r in Hl by lia.
  apply Z.div_lt_upper_bound; [lia|]. lia.
Qed.

Lemma digits_length : forall k n, 0 <= k -> 10 ^ k <= n -> (Z.to_nat k < length (digits n))%nat.
Proof.
  intros k n Hk. revert n. pattern k. apply natlike_ind; [| |exact Hk].
  - intros n H. cbn in H. destruct (Z.ltb_spec n 10) as [L|L].
    + rewrite digits_small by lia. cbn. lia.
    + rewrite digits_step by lia. rewrite app_length. cbn. lia.
  - intros x Hx IH n H. rewrite Z.pow_succ_r in H by lia.
    assert (0 < 10 ^ x) by (apply Z.pow_pos_nonneg; lia).
    rewrite digits_step by lia. rewrite app_length.
    assert (10 ^ x <= n / 10) as H'. { apply Z.div_le_lower_bound; lia. }
    specialize (IH _ H'). rewrite Z2Nat.inj_succ by lia. cbn [length]. lia.
Qed.

Lemma digits_length_le : forall k n, 0 <= k -> 0 <= n < 10 ^ (k + 1) -> (length (digits n) <= S (Z.to_nat k))%nat.
Proof.
  intros k n Hk. revert n. pattern k. apply natlike_ind; [| |exact Hk].
  - intros n H. cbn in H. rewrite digits_small by lia. cbn. lia.
  - intros x Hx IH n H. destruct (Z.ltb_spec n 10) as [L|L].
    + rewrite digits_small by lia. cbn. lia.
    + rewrite digits_step by lia. rewrite app_length.
      assert (0 <= n / 10 < 10 ^ (x + 1)) as H'.
      { split; [apply Z.div_pos; lia|]. apply Z.div_lt_upper_bound; [lia|].
        replace (Z.succ x + 1) with (Z.succ (x + 1)) in H by lia. rewrite Z.pow_succ_r in H by lia. lia. }
      specialize (IH _ H'). rewrite Z2Nat.inj_succ by lia. cbn [length]. lia.
Qed.

Lemma read_digits_map : forall l acc, read_digits acc (map Dig l) = Ok (fold_left (fun a d => 10 * a + d) l acc).
Proof. induction l as [|d t IH]; intros acc; [reflexivity|]. cbn [map read_digits fold_left]. apply IH. Qed.

Lemma digits_nonempty : forall n, digits n <> [].
Proof.
  intros n H. destruct (Z.ltb_spec n 10) as [L|L].
  - rewrite digits_small in H by lia. discriminate.
  - rewrite digits_step in H by lia. apply app_eq_nil in H. destruct H. discriminate.
Qed.

Lemma digits_value : forall n, 0 <= n -> fold_left (fun a d => 10 * a + d) (digits n) 0 = n.
Proof.
  intros n Hn. pattern n. apply Z_lt_induction; [|exact Hn]. clear n Hn. intros n IH.
  destruct (Z.ltb_spec n 0) as [L|L]; [rewrite digits_small by lia; cbn [fold_left]; lia|].
  destruct (Z.ltb_spec n 10) as [L'|L']; [rewrite digits_small by lia; cbn [fold_left]; lia|].
  rewrite digits_step by lia. rewrite fold_left_app. cbn [fold_left].
  rewrite IH. 2: { split; [apply Z.div_pos; lia|apply Z.div_lt; lia]. }
  pose proof (Z.div_mod n 10 ltac:(lia)). lia.
Qed.

Lemma read_int_digits : forall l, l <> [] -> read_int (map Dig l) = Ok (fold_left (fun a d => 10 * a + d) l 0).
Proof.
  intros [|d t] H; [congruence|]. unfold read_int, read_nat. cbn [map]. exact (read_digits_map (d :: t) 0).
Qed.

(** The first four digits of a number with at least four. *)
Lemma first_four : forall n, 1000 <= n -> exists k, 1000 <= k <= 9999 /\ firstn 4 (digits n) = digits k.
Proof.
  intros n Hn. assert (0 <= n) as H0 by lia. revert Hn. pattern n. apply Z_lt_induction; [|exact H0]. clear n H0.
  intros n IH Hn. destruct (Z.ltb_spec n 10000) as [L|L].
  - exists n. split; [lia|]. apply firstn_all2. exact (digits_length_le 3 n ltac:(lia) ltac:(cbn; lia)).
  - assert (1000 <= n / 10) as Hd by (apply Z.div_le_lower_bound; lia).
    destruct (IH (n / 10)) as [k [Hk E]]; [split; [lia|apply Z.div_lt; lia]|exact Hd|].
    exists k. split; [exact Hk|]. rewrite digits_step by lia. rewrite firstn_app.
    pose proof (digits_length 3 (n / 10) ltac:(lia) Hd) as Hl. change (Z.to_nat 3) with 3%nat in Hl.
    replace (4 - length (digits (n / 10)))%nat with 0%nat by lia.
    cbn [firstn]. rewrite app_nil_r. exact E.
Qed.

Lemma digits_eight : forall y m d, 1000 <= y <= 9999 -> 0 <= m <= 99 -> 0 <= d <= 99 ->
  digits (y * 10000 + m * 100 + d) = digits y ++ [m / 10; m mod 10; d / 10; d mod 10].
Proof.
  intros y m d Hy Hm Hd.
  pose proof (Z.div_mod d 10 ltac:(lia)) as Ed. pose proof (Z.mod_pos_bound d 10 ltac:(lia)) as Bd.
  pose proof (Z.div_mod m 10 ltac:(lia)) as Em. pose proof (Z.mod_pos_bound m 10 ltac:(lia)) as Bm.
  set (d1 := d / 10) in *. set (d2 := d mod 10) in *. set (m1 := m / 10) in *. set (m2 := m mod 10) in *.
  assert (forall a b, 0 <= b < 10 -> (a * 10 + b) / 10 = a /\ (a * 10 + b) mod 10 = b) as Hab.
  { intros a b Hb. split.
    - symmetry. apply Z.div_unique with b; lia.
    - symmetry. apply Z.mod_unique with a; lia. }
  assert (forall a b, 1 <= a -> 0 <= b < 10 -> digits (a * 10 + b) = digits a ++ [b]) as Hs.
  { intros a b Ha Hb. rewrite digits_step by lia. destruct (Hab a b Hb) as [-> ->]. reflexivity. }
  replace (y * 10000 + m * 100 + d) with ((((y * 10 + m1) * 10 + m2) * 10 + d1) * 10 + d2) by lia.
  rewrite !Hs by lia. rewrite <- !app_assoc. reflexivity.
Qed.

(** ** One number *)

Lemma quot_written : forall y m d q D, 0 <= y * 10000 + m * 100 + d -> 0 <= q < Zpos D ->
  Z.quot (num (written y m d q D)) (Zpos D) = y * 10000 + m * 100 + d.
Proof.
  intros y m d q D H Hq. cbn [num written]. rewrite Z.quot_div_nonneg; [|nia|lia].
  symmetry. apply Z.div_unique with q; lia.
Qed.

Lemma minutes : forall q D, 0 <= q < Zpos D ->
  MinuteOf q D (Z.quot (24 * q) (Zpos D)) (Z.quot (Z.rem (24 * q) (Zpos D) * 60) (Zpos D)).
Proof.
  intros q D Hq. set (p := Zpos D) in *. assert (0 < p) by (unfold p; lia).
  rewrite (Z.quot_div_nonneg (24 * q)) by lia. rewrite (Z.rem_mod_nonneg (24 * q)) by lia.
  pose proof (Z.div_mod (24 * q) p ltac:(lia)) as E. pose proof (Z.mod_pos_bound (24 * q) p ltac:(lia)) as B.
  set (h := 24 * q / p) in *. set (r := (24 * q) mod p) in *.
  rewrite Z.quot_div_nonneg by lia.
  pose proof (Z.div_mod (r * 60) p ltac:(lia)) as E'. pose proof (Z.mod_pos_bound (r * 60) p ltac:(lia)) as B'.
  set (mi := r * 60 / p) in *. set (s := (r * 60) mod p) in *.
  unfold MinuteOf. assert (0 <= h) by (apply Z.div_pos; lia). assert (0 <= mi) by (apply Z.div_pos; lia).
  assert (h <= 23) by nia. assert (mi <= 59) by nia. fold p. repeat split; try assumption; nia.
Qed.

Lemma minute_unique : forall q D h mi h' mi', MinuteOf q D h mi -> MinuteOf q D h' mi' -> h = h' /\ mi = mi'.
Proof.
  unfold MinuteOf. intros q D h mi h' mi' [A [B C]] [A' [B' C']]. assert (0 < Zpos D) by lia.
  assert (h * 60 + mi = h' * 60 + mi') by nia. lia.
Qed.

Definition choose (prefer : bool) (nct : date -> bool) (x : date) : stamp := (prefer && nct x, x).

Lemma day_bounds : forall y m d, Day y m d -> d <= 31.
Proof.
  intros y m d [_ [_ H]]. unfold days_in_month in H.
  destruct (m =? 2); [destruct (is_leap y); lia|]. destruct ((m =? 4) || (m =? 6) || (m =? 9) || (m =? 11)); lia.
Qed.

Lemma datetime_day : forall prefer nct y m d h mi, y <= 9999 -> Day y m d -> 0 <= h <= 23 -> 0 <= mi <= 59 ->
  datetime_or_netcdftime prefer nct y m d h mi = Ok (choose prefer nct (mkdate y m d h mi 0)).
Proof.
  intros prefer nct y m d h mi Hy [H1 [H2 H3]] Hh Hm.
  assert (py_datetime y m d h mi = Ok (mkdate y m d h mi 0)) as E.
  { unfold py_datetime, make_datetime.
    destruct (Z.leb_spec 1 y); [|lia]. destruct (Z.leb_spec y 9999); [|lia].
    destruct (Z.leb_spec 1 m); [|lia]. destruct (Z.leb_spec m 12); [|lia].
    destruct (Z.leb_spec 1 d); [|lia]. destruct (Z.leb_spec d (days_in_month y m)); [|lia].
    destruct (Z.leb_spec 0 h); [|lia]. destruct (Z.leb_spec h 23); [|lia].
    destruct (Z.leb_spec 0 mi); [|lia]. destruct (Z.leb_spec mi 59); [|lia]. reflexivity. }
  unfold datetime_or_netcdftime, choose. rewrite E. destruct prefer; cbn [andb].
  - destruct (nct (mkdate y m d h mi 0)) eqn:N; reflexivity.
  - reflexivity.
Qed.

Lemma two_value : forall n, 0 <= n <= 99 -> read_int (map Dig [n / 10; n mod 10]) = Ok n.
Proof.
  intros n H. rewrite read_int_digits by discriminate. cbn [fold_left]. f_equal. pose proof (Z.div_mod n 10 ltac:(lia)). lia.
Qed.

Lemma decode_written : forall prefer nct y m d q D, 1000 <= y <= 9999 -> Day y m d -> 0 <= q < Zpos D ->
  exists h mi, MinuteOf q D h mi /\
    decode_stamp prefer nct (written y m d q D) = Ok (choose prefer nct (mkdate y m d h mi 0)).
Proof.
  intros prefer nct y m d q D Hy HD Hq. pose proof (day_bounds _ _ _ HD) as H31.
  destruct HD as [H1 [H2 H3]] eqn:EHD. assert (Day y m d) as HD' by exact HD. clear EHD.
  pose proof (minutes q D Hq) as HM. do 2 eexists. split; [exact HM|].
  unfold decode_stamp. cbn [den written].
  change (mknumber ((y * 10000 + m * 100 + d) * Zpos D + q) D) with (written y m d q D).
  rewrite quot_written by lia. cbn [num written].
  replace ((y * 10000 + m * 100 + d) * Zpos D + q - (y * 10000 + m * 100 + d) * Zpos D) with q by lia.
  unfold str_int. destruct (Z.ltb_spec (y * 10000 + m * 100 + d) 0); [lia|].
  rewrite digits_eight by lia. rewrite map_app.
  assert (length (map Dig (digits y)) = 4%nat) as L4.
  { rewrite map_length. pose proof (digits_length 3 y ltac:(lia) ltac:(cbn; lia)) as A.
    pose proof (digits_length_le 3 y ltac:(lia) ltac:(cbn; lia)) as B.
    change (Z.to_nat 3) with 3%nat in A, B. lia. }
  rewrite <- L4 at 1. rewrite firstn_app, Nat.sub_diag, firstn_all. cbn [firstn]. rewrite app_nil_r.
  rewrite read_int_digits by apply digits_nonempty. rewrite digits_value by lia. cbn [bind].
  assert (forall k rest, skipn (4 + k) (map Dig (digits y) ++ rest) = skipn k rest) as Hk.
  { intros k rest. rewrite skipn_app, L4. rewrite skipn_all2 by lia. replace (4 + k - 4)%nat with k by lia. reflexivity. }
  pose proof (Hk 0%nat) as H4. pose proof (Hk 2%nat) as H6. cbn [Nat.add] in H4, H6. rewrite H4, H6.
  cbn [skipn firstn map].
  pose proof (two_value m ltac:(lia)) as Em. cbn [map] in Em. rewrite Em. cbn [bind].
  pose proof (two_value d ltac:(lia)) as Ed. cbn [map] in Ed. rewrite Ed. cbn [bind].
  apply datetime_day; [lia|exact HD'| |]; apply HM.
Qed.

Lemma decode_right : forall prefer nct x, WritesDate x -> exists s, decode_stamp prefer nct x = Ok s /\ ReadRight x s.
Proof.
  intros prefer nct x [y [m [d [q [Hy [HD [E Hq]]]]]]].
  destruct (decode_written prefer nct y m d q (den x) Hy HD Hq) as [h [mi [HM Hd]]].
  rewrite <- E in Hd. eexists. split; [exact Hd|]. exists y, m, d, q, h, mi. auto.
Qed.

Lemma decode_all : forall prefer nct l, Forall WritesDate l ->
  exists r, map_res (decode_stamp prefer nct) l = Ok r /\ Forall2 ReadRight l r.
Proof.
  induction l as [|x t IH]; intros H.
  - exists []. split; [reflexivity|constructor].
  - inversion H; subst. destruct (decode_right prefer nct x) as [s [E R]]; [assumption|].
    destruct IH as [r [Er Rr]]; [assumption|]. exists (s :: r). cbn [map_res]. rewrite E, Er. split; [reflexivity|].
    constructor; assumption.
Qed.

(** A time stored a little too low is read as the minute before. *)
Lemma decode_rounded : forall prefer nct y m d h mi q D,
  1000 <= y <= 9999 -> Day y m d -> 0 <= h <= 23 -> 0 <= mi <= 59 -> 0 <= q < Zpos D ->
  Z.abs (q * 1440 - (h * 60 + mi) * Zpos D) < Zpos D ->
  exists s, decode_stamp prefer nct (written y m d q D) = Ok s /\
    (snd s = mkdate y m d h mi 0 <-> (h * 60 + mi) * Zpos D <= q * 1440).
Proof.
  intros prefer nct y m d h mi q D Hy HD Hh Hm Hq Hr.
  destruct (decode_written prefer nct y m d q D Hy HD Hq) as [h' [mi' [HM Hd]]].
  eexists. split; [exact Hd|]. cbn [snd choose]. split.
  - intros E. inversion E; subst. apply HM.
  - intros Hle. destruct (minute_unique q D h mi h' mi') as [-> ->]; [|exact HM|reflexivity].
    unfold MinuteOf. repeat split; lia.
Qed.

Lemma nearest_exists_low : forall h, (h mod 3 = 2) -> Nearest (h * 60) (2 ^ 25 * h / 3) (2 ^ 28).
Proof.
  intros h Hm q'. pose proof (Z.div_mod h 3 ltac:(lia)) as E. rewrite Hm in E. set (k := h / 3) in *.
  assert (2 ^ 25 * h / 3 = 2 ^ 25 * k + 22369621) as ->.
  { symmetry. apply Z.div_unique with 1; [lia|]. rewrite E. lia. }
  change (Z.pos (2 ^ 28)) with 268435456. change (2 ^ 25) with 33554432.
  rewrite E. lia.
Qed.

Lemma hour_low : forall prefer nct y m d h, 1000 <= y <= 9999 -> Day y m d -> 0 <= h <= 23 -> h mod 3 = 2 ->
  exists q s, 0 <= q < 2 ^ 28 /\ Nearest (h * 60) q (2 ^ 28) /\
    decode_stamp prefer nct (written y m d q (2 ^ 28)) = Ok s /\ snd s = mkdate y m d (h - 1) 59 0.
Proof.
  intros prefer nct y m d h Hy HD Hh Hm. exists (2 ^ 25 * h / 3).
  pose proof (Z.div_mod h 3 ltac:(lia)) as E. rewrite Hm in E. set (k := h / 3) in *.
  assert (2 ^ 25 * h / 3 = 33554432 * k + 22369621) as Eq.
  { symmetry. apply Z.div_unique with 1; [lia|]. rewrite E. lia. }
  assert (0 <= 2 ^ 25 * h / 3 < Zpos (2 ^ 28)) as Hq by (rewrite Eq; change (Z.pos (2 ^ 28)) with 268435456; lia).
  destruct (decode_written prefer nct y m d _ _ Hy HD Hq) as [h' [mi' [HM Hd]]].
  eexists. split; [exact Hq|]. split; [apply nearest_exists_low; exact Hm|]. split; [exact Hd|]. cbn [snd choose].
  destruct (minute_unique (2 ^ 25 * h / 3) (2 ^ 28) (h - 1) 59 h' mi') as [<- <-]; [|exact HM|reflexivity].
  unfold MinuteOf. rewrite Eq. change (Z.pos (2 ^ 28)) with 268435456. lia.
Qed.

Lemma make_datetime_date : forall prefer nct y m d h mi s, datetime_or_netcdftime prefer nct y m d h mi = Ok s ->
  snd s = mkdate y m d h mi 0.
Proof.
  intros prefer nct y m d h mi s H.
  assert (forall x, py_datetime y m d h mi = Ok x -> x = mkdate y m d h mi 0) as P.
  { intros x E. unfold py_datetime in E. destruct (make_datetime y m d h); [|discriminate]. cbn [bind] in E.
    destruct ((0 <=? mi) && (mi <=? 59)); inversion E; reflexivity. }
  unfold datetime_or_netcdftime in H. destruct prefer.
  - destruct (nct _); [inversion H; reflexivity|]. destruct (py_datetime y m d h mi) as [x|]; [|discriminate].
    cbn [bind] in H. inversion H. cbn [snd]. apply P. reflexivity.
  - destruct (py_datetime y m d h mi) as [x|]; [inversion H; cbn [snd]; apply P; reflexivity|].
    destruct (nct _); [|discriminate]. inversion H; reflexivity.
Qed.

(** Whatever is read from a number that is not negative has a year of four digits. *)
Lemma decode_year : forall prefer nct x s, 0 <= num x -> decode_stamp prefer nct x = Ok s ->
  1000 <= dt_year (snd s) <= 9999.
Proof.
  intros prefer nct x s Hx H. unfold decode_stamp in H.
  set (D := Z.pos (den x)) in *. set (n := Z.quot (num x) D) in *.
  assert (0 <= n) as Hn by (apply Z.quot_pos; unfold D; lia).
  unfold str_int in H. destruct (Z.ltb_spec n 0); [lia|].
  destruct (Z.ltb_spec n 1000) as [L|L].
  - pose proof (digits_length_le 2 n ltac:(lia) ltac:(cbn; lia)) as A. change (Z.to_nat 2) with 2%nat in A.
    rewrite (skipn_all2 (n := 4)) in H by (rewrite map_length; lia). rewrite firstn_nil in H.
    destruct (read_int (firstn 4 (map Dig (digits n)))); cbn [bind read_int read_nat] in H; discriminate.
  - destruct (first_four n L) as [k [Hk E]]. rewrite firstn_map, E in H.
    rewrite read_int_digits in H by apply digits_nonempty. rewrite digits_value in H by lia. cbn [bind] in H.
    destruct (read_int (firstn 2 (skipn 4 (map Dig (digits n))))); [|discriminate]. cbn [bind] in H.
    destruct (read_int (firstn 2 (skipn 6 (map Dig (digits n))))); [|discriminate]. cbn [bind] in H.
    apply make_datetime_date in H. rewrite H. cbn [dt_year]. exact Hk.
Qed.

(** ** Arrays of two dimensions *)

Lemma fill_rows_err : forall prefer nct rows columns l idx r,
  fill_rows prefer nct rows idx columns l = Ok r -> (l = [] \/ idx + length l <= rows)%nat.
Proof.
  induction l as [|x t IH]; intros idx r H; [left; reflexivity|]. right. cbn [fill_rows] in H.
  destruct (decode_stamp prefer nct x); [|discriminate]. cbn [bind] in H.
  destruct (Nat.ltb_spec idx rows); [|discriminate].
  destruct (fill_rows prefer nct rows (S idx) columns t) eqn:E; [|discriminate].
  apply IH in E. cbn [length]. destruct E as [->|E]; cbn [length]; lia.
Qed.

Lemma concat_two : forall {A} (l : list (list A)), Forall (fun r => length r = 2%nat) l -> length (concat l) = (2 * length l)%nat.
Proof.
  induction l as [|r t IH]; intros H; [reflexivity|]. inversion H; subst. cbn [concat length]. rewrite app_length, IH by assumption. lia.
Qed.

Lemma bounds_fail : forall prefer nct l, l <> [] -> Forall (fun r => length r = 2%nat) l ->
  is_ok (set_time_value prefer nct true TemplateUnits (Rows l)) = false.
Proof.
  intros prefer nct l Hl H2. cbn [set_time_value decode_template].
  destruct l as [|[|a row] t]; [congruence| |].
  - inversion H2; subst. discriminate.
  - destruct (fill_rows prefer nct (length ((a :: row) :: t)) 0 (length (a :: row)) (concat ((a :: row) :: t))) eqn:E; [|reflexivity].
    apply fill_rows_err in E. pose proof (concat_two _ H2) as C. cbn [length] in *. destruct E as [E|E].
    + cbn [concat app] in E. discriminate.
    + lia.
Qed.
