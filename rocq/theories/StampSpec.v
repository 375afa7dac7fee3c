(** What it means that a number or a text writes a date, without reference to how it is read. *)
From Verif Require Import Py TimeModel CalcModel StampModel.
Local Open Scope Z_scope.

(** A day of the calendar. *)
Definition Day (y m d : Z) : Prop := 1 <= y /\ 1 <= m <= 12 /\ 1 <= d <= days_in_month y m.

(** The number YYYYMMDD plus the fraction [q / D] of the day. *)
Definition written (y m d q : Z) (D : positive) : number :=
  mknumber ((y * 10000 + m * 100 + d) * Zpos D + q) D.

(** The start of the minute in which the fraction [q / D] of the day lies. *)
Definition MinuteOf (q : Z) (D : positive) (h mi : Z) : Prop :=
  0 <= h <= 23 /\ 0 <= mi <= 59 /\
  (h * 60 + mi) * Zpos D <= q * 1440 < (h * 60 + mi + 1) * Zpos D.

(** A number is read right: some date and fraction that it writes, and the start of that minute. *)
Definition ReadRight (x : number) (s : stamp) : Prop := exists y m d q h mi,
  Day y m d /\ x = written y m d q (den x) /\ 0 <= q < Zpos (den x) /\
  MinuteOf q (den x) h mi /\ snd s = mkdate y m d h mi 0.

(** Numbers that write a date of a year of four digits. *)
Definition WritesDate (x : number) : Prop := exists y m d q,
  1000 <= y <= 9999 /\ Day y m d /\ x = written y m d q (den x) /\ 0 <= q < Zpos (den x).

(** [q] is the multiple of [1 / D] nearest to the fraction [n / 1440] of a day. *)
Definition Nearest (n q : Z) (D : positive) : Prop :=
  forall q', Z.abs (q * 1440 - n * Zpos D) <= Z.abs (q' * 1440 - n * Zpos D).

(** Numbers written with two and with four digits. *)
Definition two (n : Z) : list chr := [Dig (n / 10); Dig (n mod 10)].
Definition four (n : Z) : list chr := [Dig (n / 1000); Dig (n / 100 mod 10); Dig (n / 10 mod 10); Dig (n mod 10)].

(** A number of one or two digits. *)
Inductive OneOrTwo : Z -> list chr -> Prop :=
| two_digits n : 0 <= n < 100 -> OneOrTwo n (two n)
| one_digit n : 0 <= n < 10 -> OneOrTwo n [Dig n].

(** The day of a month may have a blank for its first digit. *)
Definition DayText (d : Z) (l : list chr) : Prop := OneOrTwo d l \/ (0 <= d < 10 /\ l = [Blank; Dig d]).

(** The writings of a date that are read: year and month, or year, month, day and hour. *)
Inductive Writing : list chr -> date -> Prop :=
| month_writing y m lm : OneOrTwo m lm ->
    Writing (four y ++ [Dash] ++ lm) (mkdate y m 1 0 0 0)
| hour_writing y m d h lm ld lh blanks : OneOrTwo m lm -> DayText d ld -> OneOrTwo h lh ->
    blanks <> [] -> Forall (eq Blank) blanks ->
    Writing (four y ++ [Dash] ++ lm ++ [Dash] ++ ld ++ blanks ++ lh) (mkdate y m d h 0 0).

(** An hour of the calendar, in the years that Python's dates have. *)
Definition HourOfDay (x : date) : Prop :=
  dt_year x <= 9999 /\ Day (dt_year x) (dt_month x) (dt_day x) /\ 0 <= dt_hour x <= 23.

(** Characters as they are: digits are digits. *)
Definition Wellformed (l : list chr) : Prop := forall d, In (Dig d) l -> 0 <= d <= 9.
(** A word: no blank in it. *)
Definition Word (l : list chr) : Prop := ~ In Blank l.
