(** Model of times written as numbers of the form YYYYMMDD.fraction ("template units") and of
    the origin in units of months: src/ocgis/variable/temporal.py 735-742, 824-859, 954-978. *)
From Verif Require Import Py TimeModel CalcModel.
Local Open Scope Z_scope.

(** ** Characters and integers written in decimal *)

(** Characters: the decimal digits, '-', the blank and any other. *)
Inductive chr := Dig (d : Z) | Dash | Blank | Other (code : Z).

(** The decimal digits of a number that is not negative; [fuel] bounds their number. *)
Fixpoint digits_fuel (fuel : nat) (n : Z) : list Z :=
  match fuel with
  | O => [n]
  | S f => if n <? 10 then [n] else digits_fuel f (n / 10) ++ [n mod 10]
  end.
Definition digits (n : Z) : list Z := digits_fuel (S (Z.to_nat (Z.log2 n))) n.

(** Python's [str] of an integer. *)
Definition str_int (z : Z) : list chr :=
  if z <? 0 then Dash :: map Dig (digits (- z)) else map Dig (digits z).

(** Python's [int] of a string of digits with or without a sign; ValueError for others. *)
Fixpoint read_digits (acc : Z) (l : list chr) : res Z :=
  match l with
  | [] => Ok acc
  | Dig d :: t => read_digits (10 * acc + d) t
  | _ => Err ValueError
  end.
Definition read_nat (l : list chr) : res Z :=
  match l with [] => Err ValueError | _ => read_digits 0 l end.
Definition read_int (l : list chr) : res Z :=
  match l with
  | Dash :: t => do n <- read_nat t; Ok (- n)
  | _ => read_nat l
  end.

(** ** Template units *)

(** A date with the class it has: [true] for netcdftime.datetime, [false] for
    datetime.datetime. *)
Definition stamp : Type := bool * date.

(** [datetime.datetime(year, month, day, hour, minute)]: ValueError outside the calendar. *)
Definition py_datetime (y m d h mi : Z) : res date :=
  do x <- make_datetime y m d h;
  if (0 <=? mi) && (mi <=? 59) then Ok (mkdate y m d h mi 0) else Err ValueError.

(** temporal.py:847-859 [get_datetime_or_netcdftime].  [prefer] is env.PREFER_NETCDFTIME;
    [nct] tells which dates netcdftime.datetime accepts (it depends on its version). *)
Definition datetime_or_netcdftime (prefer : bool) (nct : date -> bool) (y m d h mi : Z) : res stamp :=
  let other := mkdate y m d h mi 0 in
  if prefer then
    if nct other then Ok (true, other) else do x <- py_datetime y m d h mi; Ok (false, x)        (* 849-853 *)
  else
    match py_datetime y m d h mi with
    | Ok x => Ok (false, x)                                                                      (* 856 *)
    | Err _ => if nct other then Ok (true, other) else Err ValueError                             (* 857-858 *)
    end.

(** A number of the array: [num / den], exactly.  The numbers of double precision between
    10^7 and 10^8 are of this form, and the operations of 836-841 are exact on them (the
    fraction has at most 29 binary digits, 24 times it at most 34, and its decimal
    writing at most 28 digits). *)
Record number := mknumber { num : Z; den : positive }.

(** temporal.py:835-842, for one element: [int] drops the fraction, [%] of Decimal keeps
    the sign of the dividend. *)
Definition decode_stamp (prefer : bool) (nct : date -> bool) (x : number) : res stamp :=
  let D := Zpos (den x) in
  let whole := Z.quot (num x) D in
  let ymd := str_int whole in                                                                    (* 835 *)
  let hm := num x - whole * D in
  do year <- read_int (firstn 4 ymd);                                                            (* 836 *)
  do month <- read_int (firstn 2 (skipn 4 ymd));                                                 (* 837 *)
  do day <- read_int (firstn 2 (skipn 6 ymd));                                                   (* 838 *)
  let hour := 24 * hm in                                                                         (* 839 *)
  let minute := Z.quot (Z.rem hour D * 60) D in                                                  (* 840 *)
  datetime_or_netcdftime prefer nct year month day (Z.quot hour D) minute.                       (* 841-842 *)

(** What may be given as the value of a variable: nothing (a variable that is not loaded),
    a list, an array of one dimension, an array of two. *)
Inductive values := NoValue | Listed (l : list number) | Flat (l : list number) | Rows (l : list (list number)).
Inductive stamps := FlatStamps (l : list stamp) | RowStamps (l : list (list stamp)).

(** temporal.py:834-842: [fill[idx]] is the row [idx] if there are rows, and [idx] counts the
    elements; IndexError if there is no such row. *)
Fixpoint fill_rows (prefer : bool) (nct : date -> bool) (rows idx columns : nat) (l : list number) : res (list (list stamp)) :=
  match l with
  | [] => Ok []
  | x :: t =>
      do d <- decode_stamp prefer nct x;
      if Nat.ltb idx rows then
        do r <- fill_rows prefer nct rows (S idx) columns t; Ok (repeat d columns :: r)
      else Err IndexError
  end.

(** temporal.py:824-843 [get_datetime_from_template_time_units]; None and lists have no
    attribute [flat]. *)
Definition decode_template (prefer : bool) (nct : date -> bool) (v : values) : res stamps :=
  match v with
  | NoValue | Listed _ => Err AttributeError
  | Flat l => do r <- map_res (decode_stamp prefer nct) l; Ok (FlatStamps r)
  | Rows [] => Ok (RowStamps [])
  | Rows ((_ :: _) as row :: t) =>
      do r <- fill_rows prefer nct (length (row :: t)) 0 (length row) (concat (row :: t)); Ok (RowStamps r)
  | Rows ([] :: t) => Ok (RowStamps (map (fun _ => []) ([] :: t)))
  end.

(** The units of a time variable: 'day as %Y%m%d.%f', the default units, others. *)
Inductive tunits := TemplateUnits | DefaultUnits | OtherUnits (k : Z).
Inductive stored := StoredRaw (v : values) | StoredStamps (s : stamps).

(** temporal.py:735-742 [TemporalVariable.set_value]: the units and the value afterwards. *)
Definition set_time_value (prefer : bool) (nct : date -> bool) (format_time : bool) (u : tunits) (v : values) : res (tunits * stored) :=
  match u, format_time with
  | TemplateUnits, true => do s <- decode_template prefer nct v; Ok (DefaultUnits, StoredStamps s)
  | _, _ => Ok (u, StoredRaw v)
  end.

(** ** The origin of units in months *)

(** The ways in which a directive of [strptime] matches the beginning of a text, in the order
    in which the regular expression of the standard library tries them, with the rest. *)
Definition parser (A : Type) : Type := list chr -> list (A * list chr).
Definition p_one (f : Z -> bool) : parser Z := fun l =>
  match l with Dig a :: t => if f a then [(a, t)] else [] | _ => [] end.
Definition p_two (f : Z -> Z -> bool) : parser Z := fun l =>
  match l with Dig a :: Dig b :: t => if f a b then [(10 * a + b, t)] else [] | _ => [] end.
(** %Y: four digits; %m: 1[0-2]|0[1-9]|[1-9]; %d: 3[0-1]|[1-2]\d|0[1-9]|[1-9]| [1-9];
    %H: 2[0-3]|[0-1]\d|\d; a blank of the format is one or more blanks. *)
Definition p_year : parser Z := fun l =>
  match l with Dig a :: Dig b :: Dig c :: Dig d :: t => [(1000 * a + 100 * b + 10 * c + d, t)] | _ => [] end.
Definition p_month : parser Z := fun l =>
  p_two (fun a b => (a =? 1) && (b <=? 2)) l ++ p_two (fun a b => (a =? 0) && (1 <=? b)) l ++ p_one (fun a => 1 <=? a) l.
Definition p_day : parser Z := fun l =>
  p_two (fun a b => (a =? 3) && (b <=? 1)) l ++ p_two (fun a b => (a =? 1) || (a =? 2)) l
  ++ p_two (fun a b => (a =? 0) && (1 <=? b)) l ++ p_one (fun a => 1 <=? a) l
  ++ match l with Blank :: t => p_one (fun a => 1 <=? a) t | _ => [] end.
Definition p_hour : parser Z := fun l =>
  p_two (fun a b => (a =? 2) && (b <=? 3)) l ++ p_two (fun a b => a <=? 1) l ++ p_one (fun a => true) l.
Definition p_dash : parser Z := fun l => match l with Dash :: t => [(0, t)] | _ => [] end.
Fixpoint p_blanks (l : list chr) : list (Z * list chr) :=
  match l with Blank :: t => p_blanks t ++ [(0, t)] | _ => [] end.
Definition p_then {A B} (p : parser A) (q : A -> parser B) : parser B := fun l =>
  flat_map (fun r => q (fst r) (snd r)) (p l).
Definition p_return {A} (a : A) : parser A := fun l => [(a, l)].

(** The parts (year, month, day, hour) of '%Y-%m' and of '%Y-%m-%d %H'. *)
Definition format_month : parser (Z * Z * Z * Z) :=
  p_then p_year (fun y => p_then p_dash (fun _ => p_then p_month (fun m => p_return (y, m, 1, 0)))).
Definition format_hour : parser (Z * Z * Z * Z) :=
  p_then p_year (fun y => p_then p_dash (fun _ => p_then p_month (fun m => p_then p_dash (fun _ =>
  p_then p_day (fun d => p_then p_blanks (fun _ => p_then p_hour (fun h => p_return (y, m, d, h)))))))).

(** [datetime.strptime]: the first match must end with the text, and the date must be in the
    calendar; ValueError otherwise. *)
Definition strptime (format : parser (Z * Z * Z * Z)) (l : list chr) : res date :=
  match format l with
  | ((y, m, d, h), []) :: _ => make_datetime y m d h
  | _ => Err ValueError
  end.

(** [text.split(' ')]: the words between single blanks, some of them empty. *)
Fixpoint split_blank (l : list chr) : list (list chr) :=
  match l with
  | [] => [[]]
  | Blank :: t => [] :: split_blank t
  | c :: t => match split_blank t with w :: ws => (c :: w) :: ws | [] => [[c]] end
  end.
(** [' '.join(words)]. *)
Fixpoint join_blank (ws : list (list chr)) : list chr :=
  match ws with
  | [] => []
  | [w] => w
  | w :: t => w ++ Blank :: join_blank t
  end.

(** temporal.py:954-978 [get_origin_datetime_from_months_units].  At 977 the name [e] is the
    last ValueError in Python 2; in Python 3 it is unbound after the handler
    (UnboundLocalError, a NameError). *)
Definition months_origin (python3 : bool) (units : list chr) : res date :=
  let text := join_blank (skipn 2 (split_blank units)) in                                        (* 965 *)
  match strptime format_month text with                                                          (* 966-974 *)
  | Ok d => Ok d
  | Err _ =>
      match strptime format_hour text with
      | Ok d => Ok d
      | Err _ => Err (if python3 then NameError else ValueError)                                 (* 976-977 *)
      end
  end.
