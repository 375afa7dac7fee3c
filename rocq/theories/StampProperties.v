(** C153 and C154: times written as YYYYMMDD.fraction, and units of months. *)
From Verif Require Import Py TimeModel CalcModel StampModel StampSpec StampProofs StampMore.
From Coq Require Import Lia.
Local Open Scope Z_scope.

(** C153.  Time values written as YYYYMMDD.fraction are read as the dates that they write, to
    the minute; the number and the order of the values are kept and the units become the
    default ones. *)
Theorem C153_times_partial : forall prefer nct l, Forall WritesDate l ->
  exists r, set_time_value prefer nct true TemplateUnits (Flat l) = Ok (DefaultUnits, StoredStamps (FlatStamps r)) /\
            Forall2 ReadRight l r.
Proof.
  intros prefer nct l H. destruct (decode_all prefer nct l H) as [r [E R]]. exists r. split; [|exact R].
  cbn [set_time_value decode_template]. rewrite E. reflexivity.
Qed.
Print Assumptions C153_times_partial.

Definition noon_and_later : list number := [written 1971 1 3 15 16; written 2000 2 29 1 2; written 9999 12 31 0 1].
Example C153_case : Forall WritesDate noon_and_later /\
  set_time_value false (fun _ => true) true TemplateUnits (Flat noon_and_later) =
    Ok (DefaultUnits, StoredStamps (FlatStamps [(false, mkdate 1971 1 3 22 30 0); (false, mkdate 2000 2 29 12 0 0);
                                                (false, mkdate 9999 12 31 0 0 0)])).
Proof.
  split; [|vm_compute; reflexivity]. repeat constructor.
  - exists 1971, 1, 3, 15. vm_compute. repeat split; congruence.
  - exists 2000, 2, 29, 1. vm_compute. repeat split; congruence.
  - exists 9999, 12, 31, 0. vm_compute. repeat split; congruence.
Qed.

(** The date has the class of netcdftime exactly if that is preferred and accepts the date. *)
Theorem C153_class : forall prefer nct x s, WritesDate x -> decode_stamp prefer nct x = Ok s ->
  fst s = prefer && nct (snd s).
Proof.
  intros prefer nct x s [y [m [d [q [Hy [HD [E Hq]]]]]]] H.
  destruct (decode_written prefer nct y m d q (den x) Hy HD Hq) as [h [mi [HM Hd]]].
  rewrite <- E, H in Hd. inversion Hd; subst. reflexivity.
Qed.
Print Assumptions C153_class.
Example C153_class_case :
  decode_stamp true (fun _ => true) (written 2000 2 29 1 2) = Ok (true, mkdate 2000 2 29 12 0 0) /\
  decode_stamp true (fun _ => false) (written 2000 2 29 1 2) = Ok (false, mkdate 2000 2 29 12 0 0).
Proof. vm_compute. split; reflexivity. Qed.

(** A time of day stored as a number less than a minute off is read back exactly if the
    stored number is not below the time: the fraction is cut, not rounded. *)
Theorem C153_rounding : forall prefer nct y m d h mi q D,
  1000 <= y <= 9999 -> Day y m d -> 0 <= h <= 23 -> 0 <= mi <= 59 -> 0 <= q < Zpos D ->
  Z.abs (q * 1440 - (h * 60 + mi) * Zpos D) < Zpos D ->
  exists s, decode_stamp prefer nct (written y m d q D) = Ok s /\
    (snd s = mkdate y m d h mi 0 <-> (h * 60 + mi) * Zpos D <= q * 1440).
Proof. exact decode_rounded. Qed.
Print Assumptions C153_rounding.
Example C153_rounding_case :
  Z.abs (11184811 * 1440 - (1 * 60 + 0) * Zpos (2 ^ 28)) < Zpos (2 ^ 28) /\
  decode_stamp false (fun _ => true) (written 2000 1 1 11184811 (2 ^ 28)) = Ok (false, mkdate 2000 1 1 1 0 0).
Proof. vm_compute. split; reflexivity. Qed.

(** So times that are not binary fractions of the day are read wrong: with the numbers of
    double precision of the years 1678 to 3355 (multiples of 2^-28), one third of the hours,
    02:00, 05:00, ..., 23:00, are read as the last minute of the hour before. *)
Theorem C153_hours_refuted : forall prefer nct y m d h, 1000 <= y <= 9999 -> Day y m d -> 0 <= h <= 23 -> h mod 3 = 2 ->
  exists q s, 0 <= q < 2 ^ 28 /\ Nearest (h * 60) q (2 ^ 28) /\
    decode_stamp prefer nct (written y m d q (2 ^ 28)) = Ok s /\ snd s = mkdate y m d (h - 1) 59 0.
Proof. exact hour_low. Qed.
Print Assumptions C153_hours_refuted.
Example C153_hours_case : Day 2000 1 1 /\ 2 mod 3 = 2 /\
  decode_stamp false (fun _ => true) (written 2000 1 1 22369621 (2 ^ 28)) = Ok (false, mkdate 2000 1 1 1 59 0).
Proof. vm_compute. repeat split; congruence. Qed.

(** No date of a year before 1000 or after 9999 is read right, whether the reading raises or not. *)
Theorem C153_years_refuted : forall prefer nct y m d q D s, 0 <= y -> ~ 1000 <= y <= 9999 -> 1 <= m -> 1 <= d -> 0 <= q ->
  decode_stamp prefer nct (written y m d q D) = Ok s -> dt_year (snd s) <> y.
Proof.
  intros prefer nct y m d q D s Hy Hn Hm Hd Hq H E. apply decode_year in H; [lia|]. cbn [num written]. nia.
Qed.
Print Assumptions C153_years_refuted.
Example C153_years_case :
  decode_stamp false (fun _ => false) (written 850 1 12 0 1) = Ok (false, mkdate 8500 11 2 0 0 0) /\
  decode_stamp false (fun _ => false) (written 850 12 31 0 1) = Err ValueError /\
  decode_stamp false (fun _ => false) (written 20001 1 15 0 1) = Ok (false, mkdate 2000 10 11 0 0 0).
Proof. vm_compute. repeat split. Qed.

(** Bounds cannot be read at all, *)
Theorem C153_bounds_refuted : forall prefer nct l, l <> [] -> Forall (fun r => length r = 2%nat) l ->
  is_ok (set_time_value prefer nct true TemplateUnits (Rows l)) = false.
Proof. exact bounds_fail. Qed.
Print Assumptions C153_bounds_refuted.
Example C153_bounds_case :
  set_time_value false (fun _ => true) true TemplateUnits
    (Rows [[written 2000 1 1 0 1; written 2000 1 2 0 1]]) = Err IndexError.
Proof. vm_compute. reflexivity. Qed.

(** and neither can a time variable be made before its values are loaded, as it is for every
    field read from a file. *)
Theorem C153_not_loaded_refuted : forall prefer nct, set_time_value prefer nct true TemplateUnits NoValue = Err AttributeError.
Proof. reflexivity. Qed.
Print Assumptions C153_not_loaded_refuted.

(** Other units, and times that are not to be formatted, are left alone. *)
Theorem C153_others_untouched : forall prefer nct format u v, u <> TemplateUnits \/ format = false ->
  set_time_value prefer nct format u v = Ok (u, StoredRaw v).
Proof. intros prefer nct format u v [H| ->]; destruct u; try destruct format; try reflexivity; congruence. Qed.
Print Assumptions C153_others_untouched.

(** C154.  The origin of units of months is read exactly from the texts "YYYY-MM" and
    "YYYY-MM-DD HH" (with one digit or two), and is the date that they write. *)
Theorem C154_origin_partial : forall python3 w1 w2 text x, Word w1 -> Word w2 -> Wellformed text ->
  (months_origin python3 (w1 ++ Blank :: w2 ++ Blank :: text) = Ok x <-> Writing text x /\ HourOfDay x).
Proof.
  intros python3 w1 w2 text x H1 H2 W. split.
  - apply read_sound; assumption.
  - intros [A B]. apply read_complete; assumption.
Qed.
Print Assumptions C154_origin_partial.

Definition months_since : list chr :=                                       (* "months since " *)
  [Other 109; Other 111; Other 110; Other 116; Other 104; Other 115] ++ Blank :: [Other 115; Other 105; Other 110; Other 99; Other 101] ++ [Blank].
Example C154_case :
  months_origin true (months_since ++ four 1978 ++ [Dash] ++ two 12) = Ok (mkdate 1978 12 1 0 0 0) /\
  months_origin true (months_since ++ four 1979 ++ [Dash; Dig 1; Dash; Dig 3; Blank] ++ two 7) = Ok (mkdate 1979 1 3 7 0 0) /\
  Writing (four 1978 ++ [Dash] ++ two 12) (mkdate 1978 12 1 0 0 0) /\ HourOfDay (mkdate 1978 12 1 0 0 0).
Proof.
  split; [vm_compute; reflexivity|]. split; [vm_compute; reflexivity|]. split.
  - apply month_writing. apply two_digits. lia.
  - vm_compute. repeat split; congruence.
Qed.

(** The writings of the CF conventions are refused: a date without an hour, *)
Theorem C154_date_refuted : forall python3 w1 w2 y m d, Word w1 -> Word w2 -> 0 <= y <= 9999 -> 1 <= m <= 12 -> 1 <= d <= 31 ->
  months_origin python3 (w1 ++ Blank :: w2 ++ Blank :: four y ++ [Dash] ++ two m ++ [Dash] ++ two d) =
    Err (if python3 then NameError else ValueError).
Proof.
  intros python3 w1 w2 y m d H1 H2 Hy Hm Hd. apply refused; [exact H1|exact H2| |].
  - intros k Hk. rewrite !in_app_iff in Hk. cbn [four two In] in Hk.
    assert (forall a b, a = b mod 10 -> 0 <= a <= 9) as K by (intros a b ->; pose proof (Z.mod_pos_bound b 10 ltac:(lia)); lia).
    assert (forall n, 0 <= n <= 99 -> 0 <= n / 10 <= 9) as T by (intros n Hn; split; [apply Z.div_pos; lia|apply Z.lt_succ_r; apply Z.div_lt_upper_bound; lia]).
    assert (0 <= y / 1000 <= 9) as Y by (split; [apply Z.div_pos; lia|apply Z.lt_succ_r; apply Z.div_lt_upper_bound; lia]).
    pose proof (T m ltac:(lia)) as Tm. pose proof (T d ltac:(lia)) as Td.
    repeat match goal with H : _ \/ _ |- _ => destruct H as [H|H] end; try contradiction; try discriminate; inversion Hk; subst;
      first [assumption | eapply K; reflexivity].
  - intros x. apply (day_only y m d); constructor; lia.
Qed.
Print Assumptions C154_date_refuted.
Example C154_date_case : months_origin false (months_since ++ four 1979 ++ [Dash] ++ two 1 ++ [Dash] ++ two 1) = Err ValueError.
Proof. vm_compute. reflexivity. Qed.

(** and every text with a colon (or any other character than digits, '-' and blanks). *)
Theorem C154_colon_refuted : forall python3 w1 w2 text k, Word w1 -> Word w2 -> Wellformed text -> In (Other k) text ->
  months_origin python3 (w1 ++ Blank :: w2 ++ Blank :: text) = Err (if python3 then NameError else ValueError).
Proof.
  intros python3 w1 w2 text k H1 H2 W Hk. apply refused; [exact H1|exact H2|exact W|].
  intros x Hx. exact (writing_chars text x (Other k) Hx Hk k eq_refl).
Qed.
Print Assumptions C154_colon_refuted.
Example C154_colon_case :
  months_origin true (months_since ++ four 1979 ++ [Dash] ++ two 1 ++ [Dash] ++ two 1 ++ [Blank] ++ two 0 ++ [Other 58] ++ two 0) = Err NameError.
Proof. vm_compute. reflexivity. Qed.
