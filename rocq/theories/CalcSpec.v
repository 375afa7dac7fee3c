(** Vocabulary of C27-C29, C51 and C57. *)
From Verif Require Import Py Spec TimeModel CalcModel.
From Coq Require Sorted.

(** ** C27 *)
(** The steps at most [h] away from step [t]. *)
Definition NearStep (h : Z) (t : nat) (j : nat) : Prop := Z.abs (Z.of_nat j - Z.of_nat t) <= h.

(** ** C28 *)
(** [[i, j)] is a maximal run of steps at which the condition holds. *)
Definition HoldsAt (vec : list bool) (k : Z) : Prop := 0 <= k /\ nth_error vec (Z.to_nat k) = Some true.
Definition MaximalRun (vec : list bool) (r : Z * Z) : Prop :=
  0 <= fst r < snd r /\ (forall k, fst r <= k < snd r -> HoldsAt vec k) /\ ~ HoldsAt vec (fst r - 1) /\ ~ HoldsAt vec (snd r).
(** All maximal runs, in order, each once. *)
Definition RunsOf (vec : list bool) (runs : list (Z * Z)) : Prop :=
  Sorted.StronglySorted (fun a b => snd a < fst b) runs /\ forall r, In r runs <-> MaximalRun vec r.
Definition run_length (r : Z * Z) : Z := snd r - fst r.

(** What an operation on a value and a threshold means. *)
Definition Satisfies (op : cmp) (threshold v : Q) : Prop :=
  match op with
  | Gt => (threshold < v)%Q | Lt => (v < threshold)%Q
  | Gte => (threshold <= v)%Q | Lte => (v <= threshold)%Q
  | OtherOp => False
  end.
Definition ConditionVec (op : cmp) (threshold : Q) (values : list Q) (vec : list bool) : Prop :=
  Forall2 (fun v b => b = true <-> Satisfies op threshold v) values vec.

(** How often [x] occurs in a list. *)
Definition occurrences (x : Z) (l : list Z) : Z := zlen (filter (Z.eqb x) l).

(** ** C29 *)
(** The sum of the temperatures of the steps [c], ..., [p - 1]. *)
Fixpoint qsum (l : list Q) : Q := match l with [] => 0%Q | x :: t => (x + qsum t)%Q end.
Definition degree_days (temps : list Q) (c p : Z) : Q := qsum (firstn (Z.to_nat (p - c)) (skipn (Z.to_nat c) temps)).
(** The series starts at 0 (above freezing), and crosses the freezing point at [c]
    if the steps [c - 1] and [c] are on different sides of it. *)
Definition Crossing (temps : list Q) (c : Z) : Prop :=
  c = 0 \/ (1 <= c /\ exists a b, nth_error temps (Z.to_nat (c - 1)) = Some a /\ nth_error temps (Z.to_nat c) = Some b /\
            ((0 <= a /\ b < 0) \/ (a < 0 /\ 0 <= b))%Q).
(** After step [p - 1] the degree days accumulated since [c] reach the threshold for
    the first time, from above ([s = 1]) or from below ([s = -1]). *)
Definition FirstReach (temps : list Q) (threshold : Q) (c p s : Z) : Prop :=
  c < p <= zlen temps /\ (threshold <= Qabs (degree_days temps c p))%Q /\
  (forall q, c <= q < p -> (Qabs (degree_days temps c q) < threshold)%Q) /\
  ((s = 1 /\ (0 < degree_days temps c p)%Q) \/ (s = -1 /\ (degree_days temps c p < 0)%Q)).
(** An event: the crossing it is counted from, when it happens, thaw or freeze. *)
Record event := mkevent { ev_from : Z; ev_at : Z; ev_sign : Z }.
Definition FreezeThawEvents (temps : list Q) (threshold : Q) (events : list event) : Prop :=
  (* every event is a crossing after which the threshold is reached *)
  (forall e, In e events -> Crossing temps (ev_from e) /\ FirstReach temps threshold (ev_from e) (ev_at e) (ev_sign e)) /\
  (* consecutive events have opposite signs, and the later one is counted from a
     crossing not before the earlier one *)
  (forall pre e e' post, events = pre ++ e :: e' :: post -> ev_sign e' = - ev_sign e /\ ev_at e <= ev_from e') /\
  (* no change is missed: a crossing after which the threshold is reached lies in
     the course of an event, or belongs to the state the last event led to *)
  (forall c p s, Crossing temps c -> FirstReach temps threshold c p s ->
     exists pre e post, events = pre ++ e :: post /\ ev_from e <= c /\ (forall e', In e' post -> c < ev_from e') /\
       (c < ev_at e \/ ev_sign e = s)).

(** ** C51 *)
Definition ValidDate (d : date) : Prop :=
  2 <= dt_year d <= 9998 /\ 1 <= dt_month d <= 12 /\ 1 <= dt_day d <= days_in_month (dt_year d) (dt_month d) /\
  0 <= dt_hour d <= 23 /\ 0 <= dt_minute d <= 59 /\ 0 <= dt_second d <= 59.
(** A calendar day that exists in some year. *)
Definition CalendarDay (m dd : Z) : Prop := 1 <= m <= 12 /\ exists y, 1 <= dd <= days_in_month y m.
(** The date is less than [h + 1] days away from hour [hour] of the given day; for a
    date at that time of the day this means at most [h] days. *)
Definition WithinDays (h : Z) (d : date) (y m dd hour : Z) : Prop :=
  Z.abs (seconds_of d - seconds_of (mkdate y m dd hour 0 0)) < (h + 1) * 86400.
(** Does the date take part in the basis of the calendar day?  The 29th of February
    is looked for in leap years only; in other years it is the gap between the 28th
    of February and the 1st of March, with [h] days on each side, or not there at all
    if only leap years count. *)
Definition InWindow (h : Z) (only_leap_years : bool) (m dd hour : Z) (d : date) : Prop :=
  if (m =? 2) && (dd =? 29) then
    if is_leap (dt_year d) then WithinDays h d (dt_year d) 2 29 hour
    else only_leap_years = false /\
         - (h - 1) * 86400 <= seconds_of d - seconds_of (mkdate (dt_year d) 2 28 hour 0 0) < (h + 1) * 86400
  else exists y, dt_year d - 1 <= y <= dt_year d + 1 /\ WithinDays h d y m dd hour.

(** ** C57 *)
(** The number of positions satisfying [P]. *)
Definition CountOf {A} (P : A -> Prop) (l : list A) (n : Z) : Prop :=
  exists r, Picks (fun k => exists x, nth_error l k = Some x /\ P x) l r /\ n = zlen r.
