(** Vocabulary of C22-C26. *)
From Verif Require Import Py Spec TimeModel.
From Coq Require Sorted.

(** Earlier than, part by part. *)
Definition DateLt (d e : date) : Prop :=
  dt_year d < dt_year e \/ dt_year d = dt_year e /\ (
  dt_month d < dt_month e \/ dt_month d = dt_month e /\ (
  dt_day d < dt_day e \/ dt_day d = dt_day e /\ (
  dt_hour d < dt_hour e \/ dt_hour d = dt_hour e /\ (
  dt_minute d < dt_minute e \/ dt_minute d = dt_minute e /\ dt_second d < dt_second e)))).
Definition DateLe (d e : date) : Prop := ~ DateLt e d.

(** Parts in their ranges. *)
Definition ValidDate (d : date) : Prop :=
  1 <= dt_month d <= 12 /\ 1 <= dt_day d /\ 0 <= dt_hour d /\ 0 <= dt_minute d /\ 0 <= dt_second d.

(** Step [k] is in the group. *)
Definition InGroup {K} (g : tgroup K) (k : nat) : Prop := nth_error (g_members g) k = Some true.

(** Two dates agree on the grouped parts. *)
Definition SameParts (grouping : list dpart) (d e : date) : Prop := forall p, In p grouping -> part p d = part p e.

(** The bounds of a group are the earliest and latest bound of its members. *)
Definition Encloses (t : tvar) {K} (g : tgroup K) : Prop :=
  (forall k b, InGroup g k -> nth_error (lower_upper t) k = Some b ->
     DateLe (fst (g_bounds g)) (fst b) /\ DateLe (fst (g_bounds g)) (snd b) /\
     DateLe (fst b) (snd (g_bounds g)) /\ DateLe (snd b) (snd (g_bounds g))) /\
  (exists k b, InGroup g k /\ nth_error (lower_upper t) k = Some b /\ (fst (g_bounds g) = fst b \/ fst (g_bounds g) = snd b)) /\
  (exists k b, InGroup g k /\ nth_error (lower_upper t) k = Some b /\ (snd (g_bounds g) = fst b \/ snd (g_bounds g) = snd b)).

(** One pair of bounds per step, if there are bounds. *)
Definition GoodTime (t : tvar) : Prop :=
  match tv_bounds t with None => True | Some b => List.length b = List.length (tv_value t) end.

(** The groupings for which the code has a representative date. *)
Definition Supported (grouping : list dpart) : Prop :=
  (exists p, In p grouping) /\ forall p, In p grouping -> p = PYear \/ p = PMonth \/ p = PDay.

(** Labels, by increasing year, then month and so on. *)
Fixpoint LexLt (a b : list Z) : Prop :=
  match a, b with
  | x :: a', y :: b' => x < y \/ (x = y /\ LexLt a' b')
  | _, _ => False
  end.
Definition label (key : list (option Z)) : list Z := map (fun o => match o with Some x => x | None => 0 end) key.

(** The month [m] (the year [y]) occurs at some time in [lower, upper), or at lower. *)
Definition Within (lower upper d : date) : Prop := ValidDate d /\ (d = lower \/ (DateLe lower d /\ DateLt d upper)).
Definition MonthOccurs (lower upper : date) (m : Z) : Prop := exists d, Within lower upper d /\ dt_month d = m.
Definition YearOccurs (lower upper : date) (y : Z) : Prop := exists d, Within lower upper d /\ dt_year d = y.

(** Midnight at the start of a month, of a year. *)
Definition MonthStart (d : date) : Prop := dt_day d = 1 /\ dt_hour d = 0 /\ dt_minute d = 0 /\ dt_second d = 0.
Definition YearStart (d : date) : Prop := dt_month d = 1 /\ MonthStart d.

(** A region asks for step [d]: every listed part is one of those listed for it. *)
Definition InRegion (region : list (dpart * option (list Z))) (d : date) : Prop :=
  forall p v, In (p, Some v) region -> In (part p d) v.

(** C25.  Calendar months between two dates. *)
Definition month_number (d : date) : Z := 12 * dt_year d + dt_month d.

(** C23.  A month of a season that goes over the turn of the year is counted to the
    previous year if all months from January up to it are in the season, unless the
    season is the whole year. *)
Definition AfterTurn (season : list Z) (m : Z) : Prop :=
  In 12 season /\ (exists j, 1 <= j <= 12 /\ ~ In j season) /\ forall j, 1 <= j <= m -> In j season.
(** Step [d] belongs to the season of year [y]. *)
Definition InSeasonYear (season : list Z) (y : Z) (d : date) : Prop :=
  In (dt_month d) season /\
  ((AfterTurn season (dt_month d) /\ dt_year d = y + 1) \/ (~ AfterTurn season (dt_month d) /\ dt_year d = y)).
(** All its months are there. *)
Definition CompleteSeason (dates : list date) (season : list Z) (y : Z) : Prop :=
  forall m, In m season -> exists d, In d dates /\ dt_month d = m /\ InSeasonYear season y d.
(** Different months; if it has December and January, all others follow January or
    precede December without gap. *)
Definition GoodSeason (season : list Z) : Prop :=
  season <> [] /\ NoDup season /\ (forall m, In m season -> 1 <= m <= 12) /\
  (In 12 season -> In 1 season -> forall m, In m season ->
     (forall j, 1 <= j <= m -> In j season) \/ (forall j, m <= j <= 12 -> In j season)).
Definition DisjointSeasons (seasons : list (list Z)) : Prop :=
  forall i j a b m, nth_error seasons i = Some a -> nth_error seasons j = Some b -> In m a -> In m b -> i = j.

(** Seasons by calendar year or over all years: the labels that are asked for, and
    the steps that belong to one. *)
Definition SeasonLabel (t : tvar) (seasons : list (list Z)) (has_year : bool) (key : list Z * option Z) : Prop :=
  In (fst key) seasons /\
  match snd key with Some y => has_year = true /\ exists d, In d (tv_value t) /\ dt_year d = y | None => has_year = false end.
Definition SeasonStep (t : tvar) (key : list Z * option Z) (k : nat) : Prop :=
  exists d, nth_error (tv_value t) k = Some d /\ In (dt_month d) (fst key) /\ match snd key with Some y => dt_year d = y | None => True end.

(** Unique seasons.  The season goes over the turn of the year. *)
Definition HasTurn (season : list Z) : Prop := exists m, In m season /\ AfterTurn season m.
Definition HasYear (dates : list date) (y : Z) : Prop := exists d, In d dates /\ dt_year d = y.
(** There are data in every year from the first to the last. *)
Definition ConsecutiveYears (dates : list date) : Prop :=
  forall a b y, HasYear dates a -> HasYear dates b -> a <= y <= b -> HasYear dates y.
(** The years of the season of year [y] have data, but its part in one of them has none. *)
Definition VoidSeason (dates : list date) (season : list Z) (y : Z) : Prop :=
  HasYear dates y /\ (HasTurn season -> HasYear dates (y + 1)) /\
  ((forall d, In d dates -> InSeasonYear season y d -> dt_year d <> y) \/
   (HasTurn season /\ forall d, In d dates -> InSeasonYear season y d -> dt_year d <> y + 1)).

(** C25.  Consecutive values do not decrease and do not jump by more than a year. *)
Fixpoint NoJump (v : Z) (l : list Z) : Prop :=
  match l with [] => True | w :: t => v <= w <= v + 12 /\ NoJump w t end.
