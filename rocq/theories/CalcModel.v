(** Model of the calculations of src/ocgis/calc/library: moving windows and daily
    percentiles (statistics.py), durations (index/duration.py), freeze-thaw counts
    (index/freeze_thaw.py), threshold counts (thresholds.py) and sample sizes
    (calc/base.py).

    A masked array element is a pair: is it masked, and its data.  Finite floating
    point numbers are rationals and compared exactly; sums in [freezethaw1d] are
    exact (rounding is not modelled).  NaN is not modelled. *)
From Verif Require Import Py NdModel TimeModel.
From Coq Require Export QArith Qabs.
Global Open Scope Z_scope.

Notation mcell A := (bool * A)%type (only parsing).

(** ** Moving windows *)

Inductive wmode := Valid | Same.

(** [l[i] = x] on the first axis of an array, for a non-negative [i]. *)
Definition py_setitem {A} (l : list A) (i : Z) (x : A) : res (list A) :=
  if (i <? 0) || (zlen l <=? i) then Err IndexError else Ok (set_nth l (Z.to_nat i) x).

(** statistics.py:109-121, the generator in mode 'valid' with the loop body of its
    caller.  The two [while True] loops get fuel. *)
Fixpoint kernels_valid {S} (fuel : nat) (shift n origin : Z) (body : S -> Z -> pyslice -> res S) (s : S) : res S :=
  match fuel with
  | O => Err OutOfFuel
  | Datatypes.S f =>
    let start := origin - shift in                                              (* 111 *)
    if start <? 0 then kernels_valid f shift n (origin + 1) body s              (* 113-115 *)
    else
      let stop := origin + shift + 1 in                                         (* 116 *)
      if n <? stop then Ok s                                                    (* 118-119 *)
      else do s' <- body s origin (slice_of start stop);                        (* 120 *)
           kernels_valid f shift n (origin + 1) body s'                         (* 121 *)
  end.

(** statistics.py:122-133, mode 'same'. *)
Fixpoint kernels_same {S} (fuel : nat) (shift n origin : Z) (body : S -> Z -> pyslice -> res S) (s : S) : res S :=
  match fuel with
  | O => Err OutOfFuel
  | Datatypes.S f =>
    let start := origin - shift in
    let stop := origin + shift + 1 in
    let start := if start <? 0 then 0 else start in                             (* 127-128 *)
    do s' <- body s origin (slice_of start stop);                               (* 129 *)
    if origin + 1 =? n then Ok s'                                               (* 130-133 *)
    else kernels_same f shift n (origin + 1) body s'
  end.

(** statistics.py:54-62 for one (realization, level) profile: a list over time of
    spatial rows.  [op] is the NumPy operation along the time axis.  Returns the
    filled profile and the first and last origin (if there was one). *)
Definition window_profile {R} (op : list R -> R) (k : Z) (mode : wmode) (values : list R)
  : res (list R * option (Z * Z)) :=
  if (k mod 2 =? 0) || (k <? 3) then Err AssertionError                         (* 97-98 *)
  else
    let shift := (k - 1) / 2 in                                                 (* 104 *)
    let n := zlen values in
    let body (st : list R * option (Z * Z)) origin slc :=
      let '(fill, b) := st in
      let b' := match b with None => (origin, origin) | Some (s, _) => (s, origin) end in     (* 57-61 *)
      do fill' <- py_setitem fill origin (op (py_slice values slc));            (* 62 *)
      Ok (fill', Some b') in
    let fuel := (Z.to_nat n + Z.to_nat shift + 2)%nat in
    match mode with
    | Valid => kernels_valid fuel shift n 0 body (values, None)
    | Same => kernels_same fuel shift n 0 body (values, None)
    end.

(** [fill.mask[:] = True; fill.mask[:, a:b] = False] on one profile (68-69). *)
Definition mask_outside {A} (a b : Z) (profile : list (list (mcell A))) : list (list (mcell A)) :=
  map (fun p => map (fun c => (negb ((a <=? fst p) && (fst p <? b)), snd c)) (snd p))
      (combine (zrange 0 (zlen profile)) profile).

(** statistics.py:22-76 [MovingWindow.calculate]: [profiles] has an entry for every
    realization and level, in the order of [itertools.product] (53).  The checks of
    the mode, the operation name and the number of dimensions (42-44) are not
    modelled.  If no window was computed, [idx_start] is unbound at 69. *)
Definition moving_window {A} (op : list (list (mcell A)) -> list (mcell A)) (k : Z) (mode : wmode)
  (profiles : list (list (list (mcell A)))) : res (list (list (list (mcell A)))) :=
  do st <- fold_res (fun st values =>
             let '(acc, b) := st in
             do r <- window_profile op k mode values;
             let '(fill, b') := r in
             Ok (acc ++ [fill], match b' with Some _ => b' | None => b end)) profiles ([], None);
  let '(fill, b) := st in
  match mode with
  | Same => Ok fill
  | Valid => match b with
             | None => Err NameError
             | Some (idx_start, origin) => Ok (map (mask_outside idx_start (origin + 1)) fill)
             end
  end.

(** ** Comparisons with a threshold *)

Inductive cmp := Gt | Lt | Gte | Lte | OtherOp.

(** duration.py:61-68, thresholds.py:45-52.  [e] is the exception for an unknown
    operation: the name of the result is unbound in the former, the latter raises
    NotImplementedError. *)
Definition compare_op (e : exc) (op : cmp) (threshold : Q) : res (Q -> bool) :=
  match op with
  | Gt => Ok (fun v => negb (Qle_bool v threshold))
  | Lt => Ok (fun v => negb (Qle_bool threshold v))
  | Gte => Ok (fun v => Qle_bool threshold v)
  | Lte => Ok (fun v => Qle_bool v threshold)
  | OtherOp => Err e
  end.

(** ** Durations *)

Fixpoint adjacent {A B} (f : A -> A -> B) (l : list A) : list B :=
  match l with
  | x :: t => match t with y :: _ => f x y :: adjacent f t | [] => [] end
  | [] => []
  end.

Definition count_true (l : list bool) : Z := zsum (map (fun b : bool => if b then 1 else 0) l).

(** [np.array_split(l, idx)]: the pieces between 0, the indices and the length. *)
Definition array_split {A} (l : list A) (idx : list Z) : list (list A) :=
  adjacent (fun a b => py_slice l (slice_of a b)) (0 :: idx ++ [zlen l]).

(** index/duration.py:57-89 [Duration._iter_consecutive_] for one grid cell whose
    steps are not masked; [vec] says at which steps the condition holds. *)
Definition iter_consecutive (vec : list bool) : list Z :=
  let ref := zrange 0 (zlen vec) in                                                         (* 59 *)
  if existsb (Z.eqb 1) (adjacent (fun a b => b - a) (bool_select vec ref)) then             (* 74 *)
    let diff_idx := adjacent xorb vec ++ [false] in                                         (* 76-78 *)
    let split_idx := map (fun i => i + 1) (bool_select diff_idx ref) in                     (* 79 *)
    map count_true (filter (forallb (fun b => b)) (array_split vec split_idx))              (* 80-81 *)
  else if existsb (fun b => b) vec then [1]                                                 (* 83-84 *)
  else [0].                                                                                 (* 86-87 *)

(** index/duration.py:19-55 [Duration.calculate] for one grid cell. *)
Definition duration (summary : list Z -> Q) (op : cmp) (threshold : Q) (values : list Q) : res Q :=
  do holds <- compare_op NameError op threshold;
  let fill := iter_consecutive (map holds values) in
  Ok (if 1 <? zlen fill then summary fill                                                   (* 39-40 *)
      else match fill with x :: _ => inject_Z x | [] => 0%Q end).                           (* 42-46 *)

(** index/duration.py:107-125 [FrequencyDuration.calculate] with 135-153
    [_get_summary_] for one grid cell.  The order of the set of durations is left
    open by Python; here it is ascending. *)
Definition freq_duration (op : cmp) (threshold : Q) (values : list Q) : res (list (Z * Z)) :=
  do holds <- compare_op NameError op threshold;
  let duration := iter_consecutive (map holds values) in
  Ok (map (fun sd => (sd, zlen (filter (Z.eqb sd) duration))) (z_unique duration)).

(** ** Freeze-thaw counts *)

Fixpoint cumsum (acc : Q) (l : list Q) : list Q :=
  match l with [] => [] | x :: t => (acc + x)%Q :: cumsum (acc + x)%Q t end.

Definition qsign (q : Q) : Z := Z.sgn (Qnum q).

(** Positions at which consecutive flags differ, [np.nonzero(np.diff(over) != 0)]. *)
Definition switches (over : list bool) : list Z :=
  bool_select (adjacent xorb over) (zrange 0 (zlen over)).

Fixpoint first_index {A} (p : A -> bool) (k : Z) (l : list A) : option (Z * A) :=
  match l with [] => None | x :: t => if p x then Some (k, x) else first_index p (k + 1) t end.

(** freeze_thaw.py:89-107, one pass of the loop; [cycles] has its last entry first. *)
Definition ft_step (threshold : Q) (cx : list Q) (cycles : list Z) (ci : Z) : res (list Z) :=
  match cycles with
  | [] => Err IndexError
  | last :: _ =>
    if ci <? Z.abs last then Ok cycles                                                     (* 92-93 *)
    else
      do base <- py_index cx ci;
      let d := map (fun v => v - base)%Q (skipn (Z.to_nat ci) cx) in                       (* 96 *)
      match first_index (fun v => Qle_bool threshold (Qabs v)) 0 d with               (* 99 *)
      | None => Ok cycles                                                                  (* 100 *)
      | Some (w, dw) =>
        let s := qsign dw in                                                               (* 102 *)
        if s =? Z.sgn last then Ok cycles                                                  (* 106 *)
        else Ok (s * (w + ci) :: cycles)                                                   (* 107 *)
      end
  end.

(** freeze_thaw.py:52-110 [freezethaw1d]; [None] is NaN. *)
Definition freezethaw1d (x : list (mcell Q)) (threshold : Q) : res (option Z) :=
  if forallb fst x then Ok None                                                            (* 72-74 *)
  else
    let x := 0%Q :: map snd (filter (fun c => negb (fst c)) x) in                          (* 75-79 *)
    let cx := cumsum 0 x in                                                                (* 82 *)
    let over := map (Qle_bool 0) x in                                                      (* 85 *)
    let cross := 0 :: switches over in                                                     (* 86 *)
    do cycles <- fold_res (ft_step threshold cx) cross [0];                                (* 88-107 *)
    Ok (Some (zlen cycles - 2)).                                                           (* 110 *)

(** ** Daily percentiles *)

(** Days before a year, days before a month, and the day number, as in Python's
    datetime ([date.toordinal]). *)
Definition is_leap (y : Z) : bool := (y mod 4 =? 0) && (negb (y mod 100 =? 0) || (y mod 400 =? 0)).
Definition days_in_month (y m : Z) : Z :=
  if m =? 2 then (if is_leap y then 29 else 28)
  else if (m =? 4) || (m =? 6) || (m =? 9) || (m =? 11) then 30 else 31.
Definition days_before_year (y : Z) : Z := let p := y - 1 in p * 365 + p / 4 - p / 100 + p / 400.
Definition days_before_month (y m : Z) : Z := zsum (map (days_in_month y) (zrange 1 m)).
Definition ordinal (y m d : Z) : Z := days_before_year y + days_before_month y m + d.
Definition seconds_of (d : date) : Z :=
  ordinal (dt_year d) (dt_month d) (dt_day d) * 86400 + dt_hour d * 3600 + dt_minute d * 60 + dt_second d.

(** [datetime(y, m, d, h)]: ValueError outside the calendar. *)
Definition make_datetime (y m d h : Z) : res date :=
  if (1 <=? y) && (y <=? 9999) && (1 <=? m) && (m <=? 12) && (1 <=? d) && (d <=? days_in_month y m) && (0 <=? h) && (h <=? 23)
  then Ok (mkdate y m d h 0 0) else Err ValueError.

(** [(a - b).days] and [abs(a - b).days]. *)
Definition delta_days (a b : date) : Z := (seconds_of a - seconds_of b) / 86400.
Definition abs_delta_days (a b : date) : Z := Z.abs (seconds_of a - seconds_of b) / 86400.

(** statistics.py:266-318 [DailyPercentile.get_masked].  [diff > window_width / 2]
    compares with a fraction; both sides are doubled here. *)
Definition get_masked (current : date) (month day hour window : Z) (only_leap_years : bool) : res bool :=
  let yyyy := dt_year current in
  if (day =? 29) && (month =? 2) then                                                      (* 290 *)
    if is_leap yyyy then
      do dt1 <- make_datetime yyyy month day hour;
      Ok (window <? 2 * abs_delta_days current dt1)                                        (* 292-294 *)
    else if only_leap_years then Ok true                                                   (* 296-297 *)
    else
      do dt1 <- make_datetime yyyy 2 28 hour;
      let diff := delta_days current dt1 in
      Ok ((2 * diff <? - window + 2) || (window <? 2 * diff))                              (* 299-301 *)
  else
    do d1 <- make_datetime yyyy month day hour;                                            (* 303 *)
    do d2 <- make_datetime (yyyy + 1) month day hour;                                      (* 308 *)
    do d3 <- make_datetime (yyyy - 1) month day hour;                                      (* 313 *)
    let diff := Z.min (Z.min (abs_delta_days current d1) (abs_delta_days current d2)) (abs_delta_days current d3) in
    Ok (window <? 2 * diff).                                                               (* 315-318 *)

(** statistics.py:247-265 [get_dict_caldays]: the months in order of appearance,
    with the set of their days (ascending here; Python leaves the order open). *)
Definition get_dict_caldays (dates : list date) : list (Z * list Z) :=
  let dic := fold_left (fun d dt =>
      dset Z.eqb d (dt_month dt) (match dget Z.eqb d (dt_month dt) with Some l => l | None => [] end ++ [dt_day dt]))
    dates [] in
  map (fun kv => (fst kv, z_unique (snd kv))) dic.

(** statistics.py:185-244 [get_daily_percentile] for one grid cell; [perc] is
    [np.percentile] along the time axis. *)
Definition get_daily_percentile {A B} (perc : list A -> B) (arr : list A) (dates : list date) (window : Z)
  (only_leap_years : bool) : res (list ((Z * Z) * B)) :=
  do first <- py_index dates 0;                                                            (* 217-218 *)
  let hour := dt_hour first in
  map_res (fun md =>
    do masked <- map_res (fun dt => get_masked dt (fst md) (snd md) hour window only_leap_years) dates;   (* 223 *)
    Ok (md, perc (bool_select (map negb masked) arr)))                                     (* 226-238 *)
    (flat_map (fun kv => map (fun d => (fst kv, d)) (snd kv)) (get_dict_caldays dates)).   (* 220-221 *)

(** ** Threshold counts *)

(** [np.ma.sum(idx, axis=0)] for one grid cell: masked iff all steps are. *)
Definition ma_count {A} (holds : A -> bool) (values : list (mcell A)) : mcell Z :=
  (forallb fst values, zsum (map (fun c : mcell A => if negb (fst c) && holds (snd c) then 1 else 0) values)).

(** thresholds.py:36-57 [Threshold.calculate] and 14-24 [Between.calculate]. *)
Definition threshold_count (op : cmp) (threshold : Q) (values : list (mcell Q)) : res (mcell Z) :=
  do holds <- compare_op NotImplementedError op threshold; Ok (ma_count holds values).
Definition between_count (lower upper : Q) (values : list (mcell Q)) : res (mcell Z) :=
  if Qle_bool lower upper then Ok (ma_count (fun v => Qle_bool lower v && Qle_bool v upper) values)
  else Err AssertionError.

(** calc/base.py:275-286 [get_sample_size] for one grid cell, whose mask is then
    replaced by the mask of the calculated value (521). *)
Definition get_sample_size {A} (values : list (mcell A)) (fill_mask : bool) : res (mcell Z) :=
  match values with
  | [] => Err IndexError
  | c :: _ => let ret := (fst c, zsum (map (fun c : mcell A => if fst c then 0 else 1) values)) in Ok (fill_mask, snd ret)
  end.
