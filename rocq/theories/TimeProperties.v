(** C22-C26: temporal grouping, seasons, time regions, months. *)
From Verif Require Import Py Spec TimeModel TimeSpec TimeProofs CalendarProofs SeasonProofs UniqueSeasonProofs.
From Coq Require Import Sorted.
Local Open Scope Z_scope.

(** C22.  Date parts: every step is in exactly one group, no group is empty, two
    steps are together iff the grouped parts agree, the bounds enclose the members,
    the representative date and the label carry the grouped parts, and the groups
    are ordered.  Partial: hours, minutes, seconds and the empty grouping raise. *)
Theorem C22_date_parts_partial : forall t grouping, GoodTime t -> Supported grouping ->
  exists groups, grouping_parts t grouping = Ok groups.
Proof. exact grouping_parts_succeeds. Qed.
Print Assumptions C22_date_parts_partial.

Theorem C22_date_parts_groups : forall t grouping groups, GoodTime t -> grouping_parts t grouping = Ok groups ->
  (forall k d, nth_error (tv_value t) k = Some d -> ExactlyOne (fun g => InGroup g k) groups) /\
  (forall g, In g groups -> exists k, InGroup g k) /\
  (forall g j k d e, In g groups -> InGroup g j -> nth_error (tv_value t) j = Some d -> nth_error (tv_value t) k = Some e ->
     (InGroup g k <-> SameParts grouping d e)) /\
  (forall g, In g groups -> Encloses t g) /\
  (forall g k d, In g groups -> InGroup g k -> nth_error (tv_value t) k = Some d -> SameParts grouping (g_repr g) d) /\
  (forall g k d p, In g groups -> InGroup g k -> nth_error (tv_value t) k = Some d -> In p grouping ->
     nth_error (g_key g) (part_index p) = Some (Some (part p d))) /\
  StronglySorted (fun g h => LexLt (label (g_key g)) (label (g_key h))) groups.
Proof. exact grouping_parts_spec. Qed.
Print Assumptions C22_date_parts_groups.

Theorem C22_all : forall t, GoodTime t -> tv_value t <> [] ->
  exists g, grouping_all t = Ok [g] /\ Encloses t g /\
    (forall k, (k < List.length (tv_value t))%nat -> InGroup g k) /\ In (g_repr g) (tv_value t).
Proof. exact grouping_all_spec. Qed.
Print Assumptions C22_all.

Theorem C22_unsupported_raises : forall t grouping, GoodTime t -> tv_value t <> [] -> ~ Supported grouping ->
  grouping_parts t grouping = Err NotImplementedError.
Proof. exact grouping_parts_unsupported. Qed.
Print Assumptions C22_unsupported_raises.

Definition noon (y m d : Z) : date := mkdate y m d 12 0 0.
Definition midnight (y m d : Z) : date := mkdate y m d 0 0 0.
Definition case_days : tvar :=
  mktvar [noon 2001 1 31; noon 2000 12 30; noon 2000 12 31; noon 2001 1 1]
    (Some [(midnight 2001 1 31, midnight 2001 2 1); (midnight 2000 12 30, midnight 2000 12 31);
           (midnight 2000 12 31, midnight 2001 1 1); (midnight 2001 1 1, midnight 2001 1 2)]).

Example C22_case :
  GoodTime case_days /\ Supported [PMonth; PYear] /\
  grouping_parts case_days [PMonth; PYear] =
    Ok [mkgroup [Some 2000; Some 12; None; None; None; None] [false; true; true; false]
          (midnight 2000 12 30, midnight 2001 1 1) (midnight 2000 12 16);
        mkgroup [Some 2001; Some 1; None; None; None; None] [true; false; false; true]
          (midnight 2001 1 1, midnight 2001 2 1) (midnight 2001 1 16)] /\
  grouping_all case_days =
    Ok [mkgroup tt [true; true; true; true] (midnight 2000 12 30, midnight 2001 2 1) (noon 2000 12 30)].
Proof.
  split; [reflexivity|]. split.
  { split; [exists PMonth; left; reflexivity|]. intros p [<-|[<-|[]]]; tauto. }
  split; vm_compute; reflexivity.
Qed.

(** C22 fails for some combinations of date parts: grouping by hour raises. *)
Theorem C22_date_parts_refuted :
  exists t grouping, GoodTime t /\ (exists p, In p grouping) /\ forall groups, grouping_parts t grouping <> Ok groups.
Proof.
  exists case_days, [PHour]. split; [reflexivity|]. split; [exists PHour; left; reflexivity|].
  intros groups H. vm_compute in H. discriminate.
Qed.
Print Assumptions C22_date_parts_refuted.

(** C23.  Seasons (by calendar year, or over all years): there is a group for every
    season (and year with data), a step is in it iff its month is in the season (and
    its year matches), and the call succeeds iff every group has a step.  Partial:
    the seasons are disjoint, and a season without data makes the call raise. *)
Theorem C23_seasons_partial : forall t seasons has_year groups, GoodTime t -> DisjointSeasons seasons ->
  (forall s, In s seasons -> s <> []) -> grouping_seasons t seasons has_year = Ok groups ->
  NoDup (map g_key groups) /\
  (forall key, In key (map g_key groups) <-> SeasonLabel t seasons has_year key) /\
  (forall g, In g groups -> Encloses t g /\ (exists k, InGroup g k) /\ forall k, InGroup g k <-> SeasonStep t (g_key g) k).
Proof. exact grouping_seasons_spec. Qed.
Print Assumptions C23_seasons_partial.

Theorem C23_seasons_success : forall t seasons has_year, GoodTime t -> DisjointSeasons seasons ->
  (forall s, In s seasons -> s <> []) ->
  ((exists groups, grouping_seasons t seasons has_year = Ok groups) <->
   (forall key, SeasonLabel t seasons has_year key -> exists k, SeasonStep t key k)) /\
  ((exists key, SeasonLabel t seasons has_year key /\ forall k, ~ SeasonStep t key k) ->
   grouping_seasons t seasons has_year = Err ValueError).
Proof. exact grouping_seasons_ok. Qed.
Print Assumptions C23_seasons_success.

(** Unique seasons, for times without bounds in consecutive years (at least two, if
    a season goes over the turn of the year): one group for each complete season of
    a year, with exactly the steps of that season of that year; the call succeeds iff
    at most one season of a year has a part without any data. *)
Theorem C23_unique_seasons_partial : forall values seasons,
  values <> [] -> ConsecutiveYears values ->
  (exists a b, HasYear values a /\ HasYear values b /\ a <> b) \/ (forall s, In s seasons -> ~ HasTurn s) ->
  (forall s, In s seasons -> GoodSeason s) -> DisjointSeasons seasons ->
  ((exists groups, grouping_unique (mktvar values None) seasons = Ok groups) <->
     (forall s1 y1 s2 y2, In s1 seasons -> In s2 seasons -> VoidSeason values s1 y1 -> VoidSeason values s2 y2 ->
        s1 = s2 /\ y1 = y2)) /\
  (forall groups, grouping_unique (mktvar values None) seasons = Ok groups -> exists labs,
     NoDup labs /\
     (forall s y, In (s, y) labs <-> In s seasons /\ CompleteSeason values s y) /\
     Forall2 (fun l g =>
       (forall k, InGroup g k <-> exists d, nth_error values k = Some d /\ InSeasonYear (fst l) (snd l) d) /\
       Encloses (mktvar values None) g /\ exists k, InGroup g k /\ nth_error values k = Some (g_repr g)) labs groups).
Proof. exact grouping_unique_main. Qed.
Print Assumptions C23_unique_seasons_partial.

Definition mid (y m : Z) : date := mkdate y m 16 0 0 0.
Definition case_months : list date :=
  [mid 2000 1; mid 2000 6; mid 2000 7; mid 2000 8; mid 2000 12; mid 2001 1; mid 2001 2; mid 2001 6; mid 2001 7].

Example C23_case :
  GoodTime (mktvar case_months None) /\ DisjointSeasons [[6; 7; 8]; [12; 1; 2]] /\
  GoodSeason [6; 7; 8] /\ GoodSeason [12; 1; 2] /\ HasTurn [12; 1; 2] /\
  ConsecutiveYears case_months /\ HasYear case_months 2000 /\ HasYear case_months 2001 /\
  (exists a b, grouping_seasons (mktvar case_months None) [[6; 7; 8]; [12; 1; 2]] false = Ok [a; b] /\
     g_key a = ([12; 1; 2], None) /\ g_members a = [true; false; false; false; true; true; true; false; false] /\
     g_key b = ([6; 7; 8], None) /\ g_members b = [false; true; true; true; false; false; false; true; true]) /\
  (exists a b, grouping_unique (mktvar case_months None) [[6; 7; 8]; [12; 1; 2]] = Ok [a; b] /\
     g_members a = [false; true; true; true; false; false; false; false; false] /\
     g_members b = [false; false; false; false; true; true; true; false; false] /\
     g_bounds b = (mid 2000 12, mid 2001 2) /\ g_repr b = mid 2001 1).
Proof.
  split; [exact I|]. split.
  { intros [|[|i]] [|[|j]] a b m Ha Hb Hma Hmb; try reflexivity; cbn in Ha, Hb; try discriminate; try (destruct i; discriminate); try (destruct j; discriminate);
      injection Ha as <-; injection Hb as <-; cbn in Hma, Hmb; lia. }
  split; [apply goodseason_by_decision; [discriminate|reflexivity|repeat constructor; cbn; lia|reflexivity]|].
  split; [apply goodseason_by_decision; [discriminate|reflexivity|repeat constructor; cbn; lia|reflexivity]|].
  split; [exists 1; split; [cbn; tauto|]; split; [cbn; tauto|]; split; [exists 5; split; [lia|cbn; lia]|]; intros j Hj; cbn; lia|].
  assert (H : forall y, HasYear case_months y <-> y = 2000 \/ y = 2001).
  { intros y. split.
    - intros [d [Hd <-]]. cbn in Hd. repeat (destruct Hd as [<-|Hd]; [cbn; tauto|]). destruct Hd.
    - intros [->| ->]; [exists (mid 2000 1)|exists (mid 2001 1)]; (split; [cbn; tauto|reflexivity]). }
  split; [intros a b y Ha Hb Hy; rewrite H in *; lia|]. split; [apply H; tauto|]. split; [apply H; tauto|].
  split; eexists _, _; (split; [vm_compute; reflexivity|]); repeat split; vm_compute; reflexivity.
Qed.

(** A season without data makes seasonal grouping raise: the other seasons, which
    have data, are lost as well. *)
Theorem C23_seasons_refuted :
  exists t seasons, GoodTime t /\ DisjointSeasons seasons /\ (forall s, In s seasons -> s <> []) /\
    (exists s k, In s seasons /\ SeasonStep t (s, None) k) /\ grouping_seasons t seasons false = Err ValueError.
Proof.
  exists (mktvar [mid 2000 1] None), [[1]; [2]]. split; [exact I|]. split.
  { intros [|[|i]] [|[|j]] a b m Ha Hb Hma Hmb; try reflexivity; cbn in Ha, Hb; try discriminate; try (destruct i; discriminate); try (destruct j; discriminate);
      injection Ha as <-; injection Hb as <-; cbn in Hma, Hmb; lia. }
  split; [intros s [<-|[<-|[]]]; discriminate|]. split; [|vm_compute; reflexivity].
  exists [1], 0%nat. split; [left; reflexivity|]. exists (mid 2000 1). split; [reflexivity|]. cbn. tauto.
Qed.
Print Assumptions C23_seasons_refuted.

(** Two season-years without data make unique seasons raise, though another season
    is complete. *)
Theorem C23_unique_two_empty_refuted :
  exists values seasons s y, In s seasons /\ CompleteSeason values s y /\
    grouping_unique (mktvar values None) seasons = Err IndexError.
Proof.
  exists [mid 2000 1; mid 2001 1], [[1]; [6; 7; 8]], [1], 2000. split; [left; reflexivity|]. split; [|vm_compute; reflexivity].
  intros m [<-|[]]. exists (mid 2000 1). split; [left; reflexivity|]. split; [reflexivity|]. split; [left; reflexivity|]. right. split; [|reflexivity].
  intros [[E|[]] _]. discriminate.
Qed.
Print Assumptions C23_unique_two_empty_refuted.

(** With data from one year only, or with a year missing, unique seasons put steps
    of different season-years into one group. *)
Theorem C23_unique_years_refuted :
  (exists g, grouping_unique (mktvar [mid 2000 1; mid 2000 2; mid 2000 12] None) [[12; 1; 2]] = Ok [g] /\
     InGroup g 0 /\ InGroup g 2 /\
     forall y, ~ (InSeasonYear [12; 1; 2] y (mid 2000 1) /\ InSeasonYear [12; 1; 2] y (mid 2000 12))) /\
  (exists g, grouping_unique (mktvar [mid 2000 12; mid 2005 1; mid 2005 2] None) [[12; 1; 2]] = Ok [g] /\
     InGroup g 0 /\ InGroup g 1 /\
     forall y, ~ (InSeasonYear [12; 1; 2] y (mid 2000 12) /\ InSeasonYear [12; 1; 2] y (mid 2005 1))).
Proof.
  assert (Hr : forall m, In m [12; 1; 2] -> 1 <= m <= 12) by (cbn; lia).
  split; (eexists; split; [vm_compute; reflexivity|]; split; [reflexivity|]; split; [reflexivity|]);
    intros y [H1 H2]; apply in_season_year_of in H1, H2; try exact Hr; vm_compute in H1, H2; congruence.
Qed.
Print Assumptions C23_unique_years_refuted.

(** C24.  Time regions without bounds: the steps whose parts are all listed, in
    order, with their positions; EmptySubsetError iff there are none.  A part given
    as None is not restricted. *)
Theorem C24_time_region : forall A (items : list A) values region,
  List.length items = List.length values -> (exists p v, In (p, Some v) region) ->
  let Keep k := exists d, nth_error values k = Some d /\ InRegion region d in
  (exists r i, get_time_region items (mktvar values None) region = Ok (r, i) /\
     Picks Keep items r /\ Picks Keep (zrange 0 (zlen values)) i) \/
  (get_time_region items (mktvar values None) region = Err EmptySubsetError /\ forall k, ~ Keep k).
Proof. exact @time_region_values. Qed.
Print Assumptions C24_time_region.

(** With bounds, for months and years: the steps whose bounds contain a listed month
    and a listed year, as decided by get_is_date_between (C26). *)
Theorem C24_time_region_bounds_partial : forall A (items : list A) values bounds region,
  List.length items = List.length values -> List.length bounds = List.length values ->
  (exists p v, In (p, Some v) region) -> (forall p v, In (p, Some v) region -> p = PMonth \/ p = PYear) ->
  let Keep k := exists lo hi, nth_error bounds k = Some (lo, hi) /\
      (forall v, In (PMonth, Some v) region -> exists m, In m v /\ get_is_date_between lo hi (Some m) None = Ok true) /\
      (forall v, In (PYear, Some v) region -> exists y, In y v /\ get_is_date_between lo hi None (Some y) = Ok true) in
  (exists r i, get_time_region items (mktvar values (Some bounds)) region = Ok (r, i) /\
     Picks Keep items r /\ Picks Keep (zrange 0 (zlen values)) i) \/
  (get_time_region items (mktvar values (Some bounds)) region = Err EmptySubsetError /\ forall k, ~ Keep k).
Proof. exact @time_region_bounds. Qed.
Print Assumptions C24_time_region_bounds_partial.

Theorem C24_no_restriction_raises : forall A (items : list A) t region, (forall p v, ~ In (p, Some v) region) ->
  get_time_region items t region = Err AssertionError.
Proof. exact @time_region_no_restriction. Qed.
Print Assumptions C24_no_restriction_raises.

Example C24_case :
  get_time_region [10; 11; 12; 13] (mktvar [mid 2000 1; mid 2001 1; mid 2001 2; mid 2002 3] None)
    [(PMonth, Some [1; 2]); (PYear, None)] = Ok ([10; 11; 12], [0; 1; 2]) /\
  get_time_region [10; 11; 12; 13] (mktvar [mid 2000 1; mid 2001 1; mid 2001 2; mid 2002 3] None)
    [(PMonth, Some [1; 2]); (PYear, Some [2001; 2002])] = Ok ([11; 12], [1; 2]) /\
  get_time_region [10; 11] (mktvar [mid 2000 1; mid 2000 2] (Some [(midnight 2000 1 1, midnight 2000 2 1); (midnight 2000 2 1, midnight 2000 3 1)]))
    [(PMonth, Some [2])] = Ok ([11], [1]).
Proof. repeat split; vm_compute; reflexivity. Qed.

(** With bounds a step whose own month is listed can be dropped, and a region
    without any restriction raises. *)
Theorem C24_time_region_refuted :
  (exists d lo hi, DateLe lo d /\ DateLt d hi /\ dt_month d = 1 /\
     get_time_region [d] (mktvar [d] (Some [(lo, hi)])) [(PMonth, Some [1])] = Err EmptySubsetError) /\
  get_time_region [mid 2000 1] (mktvar [mid 2000 1] None) [(PMonth, None); (PYear, None)] = Err AssertionError.
Proof.
  split; [|vm_compute; reflexivity]. exists (midnight 2001 1 1), (mid 2000 12), (mid 2001 1).
  split; [intros H; unfold DateLt in H; cbn in H; lia|]. split; [unfold DateLt; cbn; lia|]. split; [reflexivity|vm_compute; reflexivity].
Qed.
Print Assumptions C24_time_region_refuted.

(** C25.  The difference in months, for every pair of dates (the loop needs no more
    steps than the difference). *)
Theorem C25_difference_in_months : forall origin target fuel, 1 <= dt_month origin <= 12 -> 1 <= dt_month target <= 12 ->
  Z.abs (month_number target - month_number origin) <= Z.of_nat fuel ->
  get_difference_in_months fuel origin target = Ok (month_number target - month_number origin).
Proof. exact difference_in_months_spec. Qed.
Print Assumptions C25_difference_in_months.

(** Decoding months, when it succeeds, and encoding gives the values back. *)
Theorem C25_round_trip : forall vec origin ds fuel, 1 <= dt_month origin <= 12 -> decode_months vec origin = Ok ds ->
  (forall v, In v vec -> Z.abs v <= Z.of_nat fuel) -> encode_months fuel ds origin = Ok vec.
Proof. exact months_round_trip. Qed.
Print Assumptions C25_round_trip.

Theorem C25_decode : forall vec origin ds, decode_months vec origin = Ok ds ->
  Forall2 (fun v d => 1 <= dt_month d <= 12 /\ month_number d = month_number origin + v) vec ds.
Proof. exact decode_months_sound. Qed.
Print Assumptions C25_decode.

(** Decoding succeeds for values that start at zero or later, do not decrease and do
    not jump by more than twelve.  Partial: other values can raise. *)
Theorem C25_decode_succeeds_partial : forall v0 vec origin, 1 <= dt_month origin <= 12 -> 0 <= v0 -> NoJump v0 vec ->
  exists ds, decode_months (v0 :: vec) origin = Ok ds.
Proof. exact decode_months_ok. Qed.
Print Assumptions C25_decode_succeeds_partial.

Example C25_case :
  NoJump 27 [28; 28; 35; 47] /\
  decode_months [27; 28; 28; 35; 47] (midnight 1979 11 1) = Ok [mid 1982 2; mid 1982 3; mid 1982 3; mid 1982 10; mid 1983 10] /\
  encode_months 100 [mid 1982 2; mid 1982 3; mid 1982 3; mid 1982 10; mid 1983 10] (midnight 1979 11 1) = Ok [27; 28; 28; 35; 47] /\
  get_difference_in_months 100 (midnight 1979 11 1) (mid 1978 12) = Ok (-11).
Proof. split; [cbn; lia|]. repeat split; vm_compute; reflexivity. Qed.

(** Every second year is enough to make decoding fail. *)
Theorem C25_decode_refuted : exists vec origin, 1 <= dt_month origin <= 12 /\ (forall v, In v vec -> 0 <= v) /\
  decode_months vec origin = Err ValueError.
Proof. exists [0; 24], (midnight 2000 1 1). split; [cbn; lia|]. split; [intros v [<-|[<-|[]]]; lia|vm_compute; reflexivity]. Qed.
Print Assumptions C25_decode_refuted.

(** C26.  A month that is accepted occurs between the bounds. *)
Theorem C26_month_sound : forall lower upper m b, ValidDate lower -> ValidDate upper -> DateLt lower upper -> 1 <= m <= 12 ->
  get_is_date_between lower upper (Some m) None = Ok b -> b = true -> MonthOccurs lower upper m.
Proof. exact between_month_sound. Qed.
Print Assumptions C26_month_sound.

Theorem C26_year_sound : forall lower upper y b, ValidDate lower -> ValidDate upper -> DateLt lower upper ->
  get_is_date_between lower upper None (Some y) = Ok b -> b = true -> YearOccurs lower upper y.
Proof. exact between_year_sound. Qed.
Print Assumptions C26_year_sound.

(** Exactly the months that occur, if the upper bound starts a month and the bounds
    are in one year or end with the year (from another month than January). *)
Theorem C26_month_partial : forall lower upper m, ValidDate lower -> ValidDate upper -> DateLt lower upper -> 1 <= m <= 12 ->
  (dt_year upper = dt_year lower \/ (dt_year upper = dt_year lower + 1 /\ dt_month upper = 1 /\ dt_month lower <> 1)) ->
  (dt_month lower = dt_month upper \/ MonthStart upper) ->
  exists b, get_is_date_between lower upper (Some m) None = Ok b /\ (b = true <-> MonthOccurs lower upper m).
Proof. exact between_month_exact. Qed.
Print Assumptions C26_month_partial.

(** Exactly the years that occur, if the upper bound starts a year or is in the same
    year as the lower. *)
Theorem C26_year_partial : forall lower upper y, ValidDate lower -> ValidDate upper -> DateLt lower upper ->
  (dt_year lower = dt_year upper \/ YearStart upper) ->
  exists b, get_is_date_between lower upper None (Some y) = Ok b /\ (b = true <-> YearOccurs lower upper y).
Proof. exact between_year_exact. Qed.
Print Assumptions C26_year_partial.

Example C26_case :
  let lower := midnight 2000 12 1 in let upper := midnight 2001 1 1 in
  ValidDate lower /\ ValidDate upper /\ DateLt lower upper /\ MonthStart upper /\ YearStart upper /\
  map (fun m => get_is_date_between lower upper (Some m) None) [11; 12; 1] = [Ok false; Ok true; Ok false] /\
  map (fun y => get_is_date_between lower upper None (Some y)) [1999; 2000; 2001] = [Ok false; Ok true; Ok false].
Proof. cbv zeta. unfold ValidDate, DateLt, YearStart, MonthStart; cbn. repeat split; try lia; reflexivity. Qed.

(** A month after the turn of the year, and the month of an upper bound that does
    not start a month, are rejected. *)
Theorem C26_month_refuted :
  (exists lower upper, ValidDate lower /\ ValidDate upper /\ DateLt lower upper /\ MonthOccurs lower upper 1 /\
     get_is_date_between lower upper (Some 1) None = Ok false /\ dt_month lower = 12 /\ MonthStart upper) /\
  (exists lower upper, ValidDate lower /\ ValidDate upper /\ DateLt lower upper /\ dt_year lower = dt_year upper /\
     MonthOccurs lower upper 2 /\ get_is_date_between lower upper (Some 2) None = Ok false).
Proof.
  split.
  - exists (midnight 2000 12 1), (midnight 2001 2 1). unfold ValidDate, DateLt, MonthStart; cbn. repeat split; try lia.
    exists (midnight 2001 1 1). unfold Within, ValidDate, DateLe, DateLt; cbn. split; [split; [lia|right; lia]|reflexivity].
  - exists (midnight 2000 1 1), (mid 2000 2). unfold ValidDate, DateLt; cbn. repeat split; try lia.
    exists (midnight 2000 2 1). unfold Within, ValidDate, DateLe, DateLt; cbn. split; [split; [lia|right; lia]|reflexivity].
Qed.
Print Assumptions C26_month_refuted.
