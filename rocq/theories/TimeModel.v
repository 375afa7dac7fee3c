(** Model of temporal grouping, time regions and month units:
    src/ocgis/variable/temporal.py and [get_is_date_between] of
    src/ocgis/util/helpers.py.  Time coordinates are modelled after their
    conversion to date objects (the conversion, by netCDF4, keeps the order). *)
From Verif Require Import Py PartitionModel.

(** A [datetime.datetime] or [netcdftime.datetime]; they are compared part by part. *)
Record date := mkdate { dt_year : Z; dt_month : Z; dt_day : Z; dt_hour : Z; dt_minute : Z; dt_second : Z }.

(** temporal.py:30 [_date_parts] and 497-498 [_get_attrs_]. *)
Inductive dpart := PYear | PMonth | PDay | PHour | PMinute | PSecond.
Definition all_parts : list dpart := [PYear; PMonth; PDay; PHour; PMinute; PSecond].
Definition part_index (p : dpart) : nat :=
  match p with PYear => 0 | PMonth => 1 | PDay => 2 | PHour => 3 | PMinute => 4 | PSecond => 5 end.
Definition part (p : dpart) (d : date) : Z :=
  match p with
  | PYear => dt_year d | PMonth => dt_month d | PDay => dt_day d
  | PHour => dt_hour d | PMinute => dt_minute d | PSecond => dt_second d
  end.
Definition part_eqb (p q : dpart) : bool := Nat.eqb (part_index p) (part_index q).
Definition part_mem (p : dpart) (l : list dpart) : bool := existsb (part_eqb p) l.

Fixpoint lex_ltb (a b : list Z) : bool :=
  match a, b with
  | x :: a', y :: b' => (x <? y) || ((x =? y) && lex_ltb a' b')
  | _, _ => false
  end.
Definition date_ltb (d e : date) : bool := lex_ltb (map (fun p => part p d) all_parts) (map (fun p => part p e) all_parts).
Definition date_leb (d e : date) : bool := negb (date_ltb e d).

(** [np.unique] of integers: increasing, without repetitions. *)
Fixpoint z_insert (x : Z) (l : list Z) : list Z :=
  match l with
  | [] => [x]
  | y :: t => if x <? y then x :: l else if x =? y then l else y :: z_insert x t
  end.
Definition z_unique (l : list Z) : list Z := fold_right z_insert [] l.
Definition z_mem (x : Z) (l : list Z) : bool := existsb (Z.eqb x) l.

(** [array.min()], [array.max()] of dates; ValueError if there is none. *)
Definition dates_min (l : list date) : res date :=
  match l with [] => Err ValueError | d :: t => Ok (fold_left (fun a e => if date_ltb e a then e else a) t d) end.
Definition dates_max (l : list date) : res date :=
  match l with [] => Err ValueError | d :: t => Ok (fold_left (fun a e => if date_ltb a e then e else a) t d) end.

(** The time coordinates with their bounds; without bounds the lower and upper
    values are the coordinate itself (temporal.py:480-495). *)
Record tvar := mktvar { tv_value : list date; tv_bounds : option (list (date * date)) }.
Definition lower_upper (t : tvar) : list (date * date) :=
  match tv_bounds t with Some b => b | None => map (fun d => (d, d)) (tv_value t) end.

(** A group: its label (one entry per date part, or a season with an optional
    year), which steps are in it, its bounds and its representative date. *)
Record tgroup (K : Type) := mkgroup { g_key : K; g_members : list bool; g_bounds : date * date; g_repr : date }.
Arguments mkgroup {K}. Arguments g_key {K}. Arguments g_members {K}. Arguments g_bounds {K}. Arguments g_repr {K}.

(** temporal.py:587-589: bounds of a group. *)
Definition group_bounds (t : tvar) (members : list bool) : res (date * date) :=
  let sel := flat_map (fun b => [fst b; snd b]) (bool_select members (lower_upper t)) in
  do lo <- dates_min sel; do hi <- dates_max sel; Ok (lo, hi).

(** temporal.py:507-535: the candidate labels and the steps that match them. *)
Definition group_unique (values : list date) (grouping : list dpart) : list (list (option Z)) :=
  map (fun p => if part_mem p grouping then map Some (z_unique (map (part p) values)) else [None]) all_parts.
Definition dgrp_of (values : list date) (grouping : list dpart) (sel : list (option Z)) : list bool :=
  map (fun d => forallb (fun p => optZ_eqb (nth (part_index p) sel None) (Some (part p d))) grouping) values.
Definition group_selects (values : list date) (grouping : list dpart) : list (list (option Z)) :=
  filter (fun sel => existsb (fun b => b) (dgrp_of values grouping sel)) (list_product (group_unique values grouping)).

(** temporal.py:599-642 [_get_grouping_representative_datetime_] for date parts.
    Whether the date exists in the calendar is not modelled. *)
Definition key_part (sel : list (option Z)) (p : dpart) : Z := match nth (part_index p) sel None with Some x => x | None => 0 end.
Definition same_parts (g h : list dpart) : bool :=
  forallb (fun p => part_mem p h) g && forallb (fun p => part_mem p g) h.
Definition representative (grouping : list dpart) (bounds : date * date) (sel : list (option Z)) : res date :=
  let year := key_part sel PYear in let month := key_part sel PMonth in let day := key_part sel PDay in
  let start_year := dt_year (fst bounds) in let start_month := dt_month (fst bounds) in
  if same_parts grouping [PMonth] then Ok (mkdate start_year month 16 0 0 0)
  else if same_parts grouping [PYear] then Ok (mkdate year 7 1 0 0 0)
  else if same_parts grouping [PMonth; PYear] then Ok (mkdate year month 16 0 0 0)
  else if same_parts grouping [PDay] then Ok (mkdate start_year start_month day 12 0 0)
  else if same_parts grouping [PDay; PMonth] then Ok (mkdate start_year month day 12 0 0)
  else if same_parts grouping [PDay; PYear] then Ok (mkdate year 7 day 12 0 0)
  else if same_parts grouping [PDay; PYear; PMonth] then Ok (mkdate year month day 12 0 0)
  else Err NotImplementedError.

(** temporal.py:467-597 [_get_grouping_other_] for date parts. *)
Definition grouping_parts (t : tvar) (grouping : list dpart) : res (list (tgroup (list (option Z)))) :=
  map_res (fun sel =>
    let members := dgrp_of (tv_value t) grouping sel in
    do b <- group_bounds t members;
    do r <- representative grouping b sel;
    Ok (mkgroup sel members b r)) (group_selects (tv_value t) grouping).

(** temporal.py:447-465 [_get_grouping_all_].  The group is [slice(None)]; masked
    time coordinates are not modelled. *)
Definition grouping_all (t : tvar) : res (list (tgroup unit)) :=
  let n := zlen (tv_value t) in
  do b <- group_bounds t (map (fun _ => true) (tv_value t));
  do r <- py_index (tv_value t) (Z.quot (n - 2) 2);            (* int(n / 2 - 1) *)
  Ok [mkgroup tt (map (fun _ => true) (tv_value t)) b r].

(** temporal.py:918-931 [get_is_interannual]. *)
Definition is_interannual (season : list Z) : bool := z_mem 12 season && z_mem 1 season.

(** temporal.py:981-1005 [get_sorted_seasons]: a dictionary from the minimum or
    maximum month to the index of the season. *)
Definition z_extreme (use_max : bool) (l : list Z) : res Z :=
  match l with [] => Err ValueError | x :: t => Ok (fold_left (if use_max then Z.max else Z.min) t x) end.
Definition get_sorted_seasons (use_max : bool) (seasons : list (list Z)) : res (list (list Z)) :=
  do keys <- map_res (z_extreme use_max) seasons;
  let max_map := fold_left (fun d ki => dset Z.eqb d (fst ki) (snd ki)) (combine keys (zrange 0 (zlen seasons))) [] in
  map_res (fun s => match dget Z.eqb max_map s with Some i => py_index seasons i | None => Err KeyError end)
    (z_unique (map fst max_map)).

(** temporal.py:541-571: seasonal groups; [has_year] splits them by year. *)
Definition season_member (season : list Z) (year : option Z) (d : date) : bool :=
  z_mem (dt_month d) season && match year with Some y => y =? dt_year d | None => true end.

(** temporal.py:643-658: representative of a season. *)
Definition season_representative (bounds : date * date) (season : list Z) : res date :=
  let '(lo, hi) := bounds in
  do month <- if is_interannual season then py_index season (zlen season / 2)
              else Ok ((dt_month lo + dt_month hi) / 2);
  Ok (mkdate ((dt_year lo + dt_year hi) / 2) month 16 0 0 0).

Definition grouping_seasons (t : tvar) (seasons : list (list Z)) (has_year : bool)
  : res (list (tgroup (list Z * option Z))) :=
  let years := if has_year then map Some (z_unique (map dt_year (tv_value t))) else [None] in
  do sorted <- get_sorted_seasons false seasons;
  map_res (fun ys =>
    let '(year, season) := ys in
    let members := map (season_member season year) (tv_value t) in
    do b <- group_bounds t members;
    do r <- season_representative b season;
    Ok (mkgroup (season, year) members b r)) (list_prod years sorted).

(** util/helpers.py:493-521 [get_is_date_between]; exactly one of month and year is
    given. *)
Definition is_between_parts (part_lower part_upper to_test : Z) : bool :=
  if negb (part_lower =? part_upper) then
    let part_upper := if part_upper <? part_lower then part_upper + 12 else part_upper in
    (part_lower <=? to_test) && (to_test <? part_upper)
  else (part_lower <=? to_test) && (to_test <=? part_upper).
Definition get_is_date_between (lower upper : date) (month year : option Z) : res bool :=
  match month, year with
  | Some m, _ => Ok (is_between_parts (dt_month lower) (dt_month upper) m)
  | None, Some y => Ok (is_between_parts (dt_year lower) (dt_year upper) y)
  | None, None => Err TypeError
  end.

(** temporal.py:380-445 [get_time_region]; the region is a dictionary from date
    parts to lists, or None. *)
Definition region_row (value : date) (bounds : option (date * date)) (k : dpart) (v : list Z) : res bool :=
  match bounds with
  | Some (lo, hi) =>
    do l <- map_res (fun e => match k with
                              | PMonth => get_is_date_between lo hi (Some e) None
                              | PYear => get_is_date_between lo hi None (Some e)
                              | _ => Err TypeError          (* unexpected keyword argument *)
                              end) v;
    Ok (existsb (fun b => b) l)
  | None => Ok (z_mem (part k value) v)
  end.
Definition region_select (t : tvar) (region : list (dpart * option (list Z))) : res (list bool) :=
  let region' := flat_map (fun kv => match snd kv with Some v => [(fst kv, v)] | None => [] end) region in
  match region' with
  | [] => Err AssertionError
  | _ =>
    map_res (fun vb =>
      do checks <- map_res (fun kv => region_row (fst vb) (snd vb) (fst kv) (snd kv)) region';
      Ok (forallb (fun b => b) checks))
      (combine (tv_value t) (match tv_bounds t with Some b => map Some b | None => map (fun _ => None) (tv_value t) end))
  end.

(** The elements selected ([items], positions or whatever goes with the steps) and
    their indices. *)
Definition get_time_region {A} (items : list A) (t : tvar) (region : list (dpart * option (list Z)))
  : res (list A * list Z) :=
  do select <- region_select t region;
  if negb (existsb (fun b => b) select) then Err EmptySubsetError
  else Ok (bool_select select items, bool_select select (zrange 0 (zlen (tv_value t)))).

(** temporal.py:1008-1079 [get_time_regions].  A time region of a season is a list
    of (year, months). *)
Fixpoint insert_desc (x : Z) (l : list Z) : list Z :=
  match l with [] => [x] | y :: t => if y <=? x then x :: l else y :: insert_desc x t end.
Definition sort_desc (l : list Z) : list Z := fold_right insert_desc [] l.

(** 1041-1044: split where neighbours differ by more than one. *)
Fixpoint split_gaps (l : list Z) : list (list Z) :=
  match l with
  | [] => []
  | [x] => [[x]]
  | x :: ((y :: _) as t) =>
    if 1 <? Z.abs (y - x) then [x] :: split_gaps t
    else match split_gaps t with s :: r => (x :: s) :: r | [] => [[x]] end
  end.

Definition sregion := list (Z * list Z).

(** 1046-1060: the parts of an interannual season; [None] if it is incomplete. *)
Definition interannual_region (years : list Z) (ii_year : Z) (season : list Z) (raise_if_incomplete : bool)
  : res (option sregion) :=
  fold_res (fun (acc : option sregion) (p : Z * list Z) =>
    let '(ii_split, s) := p in
    match py_index years (ii_year + ii_split) with
    | Ok y => Ok (match acc with Some r => Some (r ++ [(y, s)]) | None => None end)
    | Err _ => if raise_if_incomplete then Err RuntimeError (* IncompleteSeasonError *) else Ok None
    end)
    (let sp := split_gaps (sort_desc season) in combine (zrange 0 (zlen sp)) sp) (Some []).

Definition candidate_regions (seasons : list (list Z)) (years : list Z) (raise_if_incomplete : bool) : res (list sregion) :=
  let check := if 1 <? zlen years then map is_interannual seasons else [false] in
  if existsb (fun b => b) check then
    do ll <- map_res (fun iy =>
      let '(ii_year, year) := (iy : Z * Z) in
      do l <- map_res (fun ic_cg =>
        let '(ic, cg) := (ic_cg : bool * list Z) in
        if ic then interannual_region years ii_year cg raise_if_incomplete
        else Ok (Some [(year, cg)])) (combine check seasons);
      Ok (flat_map (fun o => match o with Some r => [r] | None => [] end) l))
      (combine (zrange 0 (zlen years)) years);
    Ok (concat ll)
  else Ok (map (fun ys => [(fst ys, snd ys)]) (list_prod years seasons)).

(** [{'year': [y], 'month': months}] selecting from dates without bounds is empty. *)
Definition sub_empty (dates : list date) (ym : Z * list Z) : bool :=
  negb (existsb (fun d => (dt_year d =? fst ym) && z_mem (dt_month d) (snd ym)) dates).

(** [l.pop(i)] for a non-negative index. *)
Fixpoint pop_nth {A} (l : list A) (n : nat) : res (list A) :=
  match l, n with
  | [], _ => Err IndexError
  | _ :: t, O => Ok t
  | x :: t, S n' => do t' <- pop_nth t n'; Ok (x :: t')
  end.

Definition get_time_regions (seasons : list (list Z)) (dates : list date) (raise_if_incomplete : bool) : res (list sregion) :=
  do regions <- candidate_regions seasons (z_unique (map dt_year dates)) raise_if_incomplete;
  let remove := map fst (filter (fun ir => existsb (sub_empty dates) (snd ir)) (combine (seq 0 (List.length regions)) regions)) in
  fold_res (fun l xx => pop_nth l xx) remove regions.

(** temporal.py:1082-1128 [iter_boolean_groups_from_time_regions] without
    [raise_if_incomplete]: the groups of the complete seasons. *)
Definition same_months (a b : list Z) : bool := forallb (fun x => z_mem x b) a && forallb (fun x => z_mem x a) b.
Definition region_group (t : tvar) (r : sregion) : res (option (list bool)) :=
  do subs <- map_res (fun ym =>
      do s <- get_time_region (tv_value t) t [(PYear, Some [fst ym]); (PMonth, Some (snd ym))];
      Ok (same_months (map dt_month (fst s)) (snd ym), snd s)) r;
  if forallb fst subs
  then Ok (Some (map (fun i => z_mem i (flat_map snd subs)) (zrange 0 (zlen (tv_value t)))))
  else Ok None.

(** temporal.py:661-692 [_get_grouping_seasonal_unique_]: members of the groups with
    bounds (from the values) and representative dates. *)
Definition grouping_unique (t : tvar) (seasons : list (list Z)) : res (list (tgroup unit)) :=
  do sorted <- get_sorted_seasons true seasons;
  do regions <- get_time_regions sorted (tv_value t) false;
  do groups <- map_res (region_group t) regions;
  map_res (fun members =>
    let sub := bool_select members (tv_value t) in
    do lo <- dates_min sub; do hi <- dates_max sub;
    do r <- py_index sub (zlen sub / 2);
    Ok (mkgroup tt members (lo, hi) r))
    (flat_map (fun o => match o with Some m => [m] | None => [] end) groups).

(** temporal.py:862-915 [get_difference_in_months]; the loop is bounded by [fuel]. *)
Fixpoint count_months (fuel : nat) (month stop_month year stop_year : Z) (forward : bool) (count : Z) : res Z :=
  if (month =? stop_month) && (year =? stop_year) then Ok count
  else match fuel with
       | O => Err OutOfFuel
       | S fuel' =>
         let month := if forward then month + 1 else month - 1 in
         let '(month, year) := if month =? 13 then (1, year + 1) else (month, year) in
         let '(month, year) := if month =? 0 then (12, year - 1) else (month, year) in
         count_months fuel' month stop_month year stop_year forward (if forward then count + 1 else count - 1)
       end.
Definition get_difference_in_months (fuel : nat) (origin target : date) : res Z :=
  count_months fuel (dt_month origin) (dt_month target) (dt_year origin) (dt_year target) (date_leb origin target) 0.

(** temporal.py:783-821 [get_datetime_from_months_time_units]; datetime raises for a
    month outside 1..12.  The upper limit on years (9999) is not modelled. *)
Definition make_month_date (year month : Z) : res date :=
  if (1 <=? month) && (month <=? 12) then Ok (mkdate year month 16 0 0 0) else Err ValueError.
Fixpoint decode_months_loop (vec : list Z) (origin_month current_year correction : Z) : res (list date) :=
  match vec with
  | [] => Ok []
  | off :: t =>
    match make_month_date current_year (origin_month + off - correction) with
    | Ok d => do r <- decode_months_loop t origin_month current_year correction; Ok (d :: r)
    | Err _ =>
      do d <- make_month_date (current_year + 1) (origin_month + off - (correction + 12));
      do r <- decode_months_loop t origin_month (current_year + 1) (correction + 12); Ok (d :: r)
    end
  end.
Definition decode_months (vec : list Z) (origin : date) : res (list date) :=
  match vec with
  | [] => Err IndexError                                        (* vec[0] *)
  | v0 :: _ =>
    let k := if 12 <=? v0 then v0 / 12 else 0 in
    decode_months_loop (map (fun v => v - 12 * k) vec) (dt_month origin) (dt_year origin + k) 0
  end.

(** temporal.py:934-951 [get_num_from_months_time_units]. *)
Definition encode_months (fuel : nat) (dates : list date) (origin : date) : res (list Z) :=
  map_res (get_difference_in_months fuel origin) dates.
