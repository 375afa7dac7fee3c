(** Vocabulary of C42, C43, C49, C50, C55, C60. *)
From Coq Require Import QArith Ascii Sorted.
From Verif Require Import Py Spec TimeModel TimeSpec CalcModel OpsModel.
From Verif Require CalcSpec.
Local Open Scope string_scope.
Local Open Scope Z_scope.

(** ** Text *)

Definition code (c : ascii) : Z := Z.of_nat (nat_of_ascii c).
(** The same character, or its capital. *)
Definition SameLetter (c d : ascii) : Prop := c = d /\ ~ 65 <= code c <= 90 \/ 65 <= code c <= 90 /\ code d = code c + 32.
Definition Blank (c : ascii) : Prop := 9 <= code c <= 13 \/ 28 <= code c <= 32.
Definition letters (s : string) : list ascii := list_ascii_of_string s.
Definition AllBlank (s : string) : Prop := Forall Blank (letters s).
(** [s] is the word [w] in any case, with blanks around it. *)
Definition Spelled (s w : string) : Prop :=
  exists pre mid suf, s = pre ++ mid ++ suf /\ AllBlank pre /\ AllBlank suf /\
    Forall2 SameLetter (letters mid) (letters w).
(** Neither the first nor the last character is blank. *)
Definition Trimmed (w : string) : Prop :=
  (forall c t, letters w = c :: t -> ~ Blank c) /\ (forall c t, letters w = (t ++ [c])%list -> ~ Blank c).
Definition NoBar (s : string) : Prop := ~ In "|"%char (letters s).

(** ** Values of operation parameters *)

(** A list or a tuple with these elements. *)
Definition Sequence (v : pv) (l : list pv) : Prop := v = PList l \/ v = PTuple l.
Definition NumberOf (v : pv) (x : Q) : Prop := (exists z, v = PInt z /\ x = inject_Z z) \/ v = PFloat x.

(** No two different positions hold equal values. *)
Definition AllDifferent (l : list pv) : Prop :=
  forall i j x y, (i < j)%nat -> nth_error l i = Some x -> nth_error l j = Some y -> py_eq x y = false.

(** What a user writes in a temporal grouping. *)
Inductive grouping_item := GText (s : string) | GSeason (months : list Z).
Definition item_value (g : grouping_item) : pv :=
  match g with GText s => PStr s | GSeason ms => PList (map PInt ms) end.
Definition IsFlag (g : grouping_item) : Prop := g = GText "unique" \/ g = GText "year".
Definition IsPart (g : grouping_item) : Prop := g = GText "day" \/ g = GText "month" \/ g = GText "year".
(** Seasons of existing months, none of them twice or in two seasons; no text but flags. *)
Definition GoodSeasons (l : list grouping_item) : Prop :=
  (forall s, In (GText s) l -> IsFlag (GText s)) /\
  (forall ms m, In (GSeason ms) l -> In m ms -> 1 <= m <= 12) /\
  (forall ms, In (GSeason ms) l -> NoDup ms) /\
  (forall i j a b m, i <> j -> nth_error l i = Some (GSeason a) -> nth_error l j = Some (GSeason b) -> In m a -> In m b -> False).
Definition GoodGrouping (l : list grouping_item) : Prop :=
  l = [GText "all"] \/ (Forall IsPart l /\ NoDup l) \/ GoodSeasons l.
(** A flag occurs at most once, and not both flags. *)
Definition AtMostOneFlag (l : list grouping_item) : Prop :=
  forall i j a b, nth_error l i = Some a -> nth_error l j = Some b -> IsFlag a -> IsFlag b -> i = j.

(** What a user writes as a calculation: a function with an alias, or an expression. *)
Inductive calc_item := KFunc (f alias : string) | KExpr (s : string).
Definition calc_value (k : calc_item) : calc_in :=
  match k with
  | KFunc f a => CDict [("func", PStr f); ("name", PStr a)]
  | KExpr s => CText s
  end.
Definition HasEquals (s : string) : Prop := In "="%char (letters s).
Definition WellSpelled (k : calc_item) : Prop :=
  match k with KFunc f _ => ~ HasEquals f | KExpr s => HasEquals s end.
Definition aliases (l : list calc_item) : list string :=
  flat_map (fun k => match k with KFunc _ a => [a] | KExpr _ => [] end) l.

(** The entry an item is turned into. *)
Definition item_out (k : calc_item) : calc_out :=
  match k with
  | KFunc f a => mkcalc (PStr f) (PStr a) ["func"; "name"; "ref"; "kwds"; "meta_attrs"]
  | KExpr s => mkcalc (PStr s) PNone ["func"; "ref"; "name"; "kwds"; "meta_attrs"]
  end.
(** A function of the registry. *)
Definition Known (registered : string -> bool) (k : calc_item) : Prop := match k with KFunc f _ => registered f = true | KExpr _ => True end.
(** No alias twice; at most one expression. *)
Definition NamesDiffer (l : list calc_item) : Prop :=
  NoDup (aliases l) /\ forall i j s t, nth_error l i = Some (KExpr s) -> nth_error l j = Some (KExpr t) -> i = j.

(** ** Slices: what an entry asks for, of a sequence of any length *)

Inductive slice_request := RAll | RIndex (i : Z) | RRange (a b : Z).
Definition request_value (r : slice_request) (v : pv) : Prop :=
  match r with
  | RAll => v = PNone
  | RIndex i => v = PInt i
  | RRange a b => Sequence v [PInt a; PInt b]
  end.
(** The positions asked for; negative numbers count from the end. *)
Definition from_end (n : nat) (i : Z) : Z := if i <? 0 then i + Z.of_nat n else i.
Definition Asked (r : slice_request) (n k : nat) : Prop :=
  match r with
  | RAll => True
  | RIndex i => Z.of_nat k = from_end n i
  | RRange a b => from_end n a <= Z.of_nat k < from_end n b
  end.

(** ** Environment *)

(** The last assignment to [name] since the last reset gave [v]. *)
Definition Explicit (h : list eevent) (name : string) (v : pv) : Prop :=
  exists h1 h2, h = (h1 ++ ESet name v :: h2)%list /\
    (forall os, ~ In (EReset os) h2) /\ (forall w, ~ In (ESet name w) h2).
(** [name] was not assigned since the last reset. *)
Definition Unset (h : list eevent) (name : string) : Prop :=
  forall h1 h2 v, h = (h1 ++ ESet name v :: h2)%list -> exists os, In (EReset os) h2.
(** Parameters with different names, not of the kind assigned directly. *)
Definition GoodSetup (su : esetup) : Prop :=
  NoDup (map ep_name (su_table su)) /\
  (forall p, In p (su_table su) -> ep_name p <> "ops" /\ forall t, ep_name p <> String "_"%char t).
(** A parameter of the table, neither made anew at every access nor fixed at start. *)
Definition PlainParameter (su : esetup) (p : eparm) : Prop :=
  In p (su_table su) /\ (forall q, In q (su_computed su) -> ep_name q <> ep_name p) /\
  (forall v, ~ In (ep_name p, v) (su_detect su)).
Definition from_process (os : osenv) (p : eparm) : res pv :=
  match os (String.append "OCGIS_" (ep_name p)) with
  | Some s => match ep_format p with Some f => f s | None => Ok (PStr s) end
  | None => Ok (ep_default p)
  end.

(** ** Padded integers *)

(** Order of texts, given by their character codes. *)
Inductive TextLt : list Z -> list Z -> Prop :=
| text_nil y b : TextLt [] (y :: b)
| text_less x y a b : x < y -> TextLt (x :: a) (y :: b)
| text_same x a b : TextLt a b -> TextLt (x :: a) (x :: b).
(** The number a text of decimal digits denotes. *)
Definition Digit (c : Z) : Prop := 48 <= c <= 57.
Definition denotes (l : list Z) : Z := fold_left (fun acc c => 10 * acc + (c - 48)) l 0.

(** ** Time subsets *)

(** A date of the calendar in the given range. *)
Definition DateIn (t0 t1 d : date) : Prop := CalcSpec.ValidDate d /\ DateLe t0 d /\ DateLe d t1.
Definition MeetsRegion (month year : option (list Z)) (d : date) : Prop :=
  (forall l, month = Some l -> In (dt_month d) l) /\ (forall l, year = Some l -> In (dt_year d) l).
