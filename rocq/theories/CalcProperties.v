(** C27-C29, C51, C57: moving windows, durations, freeze-thaw counts, daily
    percentiles and threshold counts. *)
From Verif Require Import Py Spec TimeModel CalcModel CalcSpec CalcProofs DurationProofs FreezeProofs PercentileProofs.
Local Open Scope Z_scope.

(** C27.  [op] gets exactly the steps of the window, in order.  Mode 'same': every
    step has the value of the part of its window that exists.  Mode 'valid': the steps
    with a full window have its value, the others are masked.  Partial: masked
    elements do not stay masked, and a series shorter than the window raises. *)
Theorem C27_same_partial : forall A (op : list (list (mcell A)) -> list (mcell A)) h profiles,
  1 <= h -> (forall p, In p profiles -> p <> []) ->
  exists out, moving_window op (2 * h + 1) Same profiles = Ok out /\
    Forall2 (fun values result => List.length result = List.length values /\
      forall t w, (t < List.length values)%nat -> Picks (NearStep h t) values w -> nth_error result t = Some (op w)) profiles out.
Proof. exact moving_window_same. Qed.
Print Assumptions C27_same_partial.

Theorem C27_valid_partial : forall A (op : list (list (mcell A)) -> list (mcell A)) h n profiles,
  1 <= h -> 2 * h + 1 <= n -> profiles <> [] -> (forall p, In p profiles -> zlen p = n) ->
  exists out, moving_window op (2 * h + 1) Valid profiles = Ok out /\
    Forall2 (fun values result => List.length result = List.length values /\
      forall t row, nth_error values t = Some row ->
        (h <= Z.of_nat t < n - h -> forall w, Picks (NearStep h t) values w ->
           nth_error result t = Some (map (fun c => (false, snd c)) (op w))) /\
        (~ (h <= Z.of_nat t < n - h) -> nth_error result t = Some (map (fun c => (true, snd c)) row))) profiles out.
Proof. exact moving_window_valid. Qed.
Print Assumptions C27_valid_partial.

Theorem C27_bad_width_raises : forall A (op : list (list (mcell A)) -> list (mcell A)) k mode profiles,
  profiles <> [] -> k mod 2 = 0 \/ k < 3 -> moving_window op k mode profiles = Err AssertionError.
Proof. exact moving_window_bad_width. Qed.
Print Assumptions C27_bad_width_raises.

(** A full window nowhere: every step should be masked, but the call raises. *)
Theorem C27_short_series_refuted : forall A (op : list (list (mcell A)) -> list (mcell A)) h profiles,
  1 <= h -> (forall p, In p profiles -> zlen p < 2 * h + 1) -> moving_window op (2 * h + 1) Valid profiles = Err NameError.
Proof. exact moving_window_short. Qed.
Print Assumptions C27_short_series_refuted.

(** The masked sum over the time axis: skips masked elements, masked if all are. *)
Definition ma_sum (rows : list (list (mcell Z))) : list (mcell Z) :=
  match rows with
  | [] => []
  | row :: _ => map (fun i => let col := map (fun r : list (mcell Z) => nth i r (true, 0)) rows in
                  (forallb fst col, zsum (map (fun c : mcell Z => if fst c then 0 else snd c) col))) (seq 0 (List.length row))
  end.
Definition mw_series : list (list (mcell Z)) := [[(false, 1)]; [(false, 2)]; [(true, 9)]; [(false, 4)]; [(false, 5)]].
Theorem C27_masked_input_refuted : forall mode, exists t out result c,
  moving_window ma_sum 3 mode [mw_series] = Ok out /\ nth_error out 0 = Some result /\
  nth_error mw_series t = Some [(true, 9)] /\ nth_error result t = Some [c] /\ fst c = false.
Proof. intros []; exists 2%nat; vm_compute; eauto 10. Qed.
Print Assumptions C27_masked_input_refuted.
Example C27_case : moving_window ma_sum 3 Valid [mw_series] =
    Ok [[[(true, 1)]; [(false, 3)]; [(false, 6)]; [(false, 9)]; [(true, 5)]]] /\
  moving_window ma_sum 3 Same [mw_series] =
    Ok [[[(false, 3)]; [(false, 3)]; [(false, 6)]; [(false, 9)]; [(false, 9)]]] /\
  Picks (NearStep 1 0) mw_series [[(false, 1)]; [(false, 2)]].
Proof.
  split; [vm_compute; reflexivity|]. split; [vm_compute; reflexivity|].
  exists [0; 1]%nat. split; [repeat constructor|]. split; [|reflexivity].
  intros k. unfold NearStep. split.
  - intros [<-|[<-|[]]]; cbn; lia.
  - cbn. lia.
Qed.

(** C28.  [RunsOf vec runs]: the maximal runs in order, each once; they are determined
    by the series. *)
Theorem C28_runs_unique : forall vec runs runs', RunsOf vec runs -> RunsOf vec runs' -> runs = runs'.
Proof. exact runs_unique. Qed.
Print Assumptions C28_runs_unique.

(** duration: the summary of the lengths of the maximal runs, 0 without a run, for
    every summary which maps equal values to that value (mean, median, max, min). *)
Theorem C28_duration_partial : forall summary op threshold values,
  op <> OtherOp -> (forall x n, (summary (repeat x (S n)) == inject_Z x)%Q) ->
  exists vec runs q, ConditionVec op threshold values vec /\ RunsOf vec runs /\
    duration summary op threshold values = Ok q /\
    (q == match runs with [] => 0 | _ => summary (map run_length runs) end)%Q.
Proof. exact duration_spec. Qed.
Print Assumptions C28_duration_partial.

(** freq_duration: every duration with the number of runs of that length.  Partial:
    some run must have two steps or more. *)
Theorem C28_frequency_partial : forall op threshold values vec runs,
  op <> OtherOp -> ConditionVec op threshold values vec -> RunsOf vec runs -> (exists r, In r runs /\ 2 <= run_length r) ->
  exists table, freq_duration op threshold values = Ok table /\ NoDup (map fst table) /\
    forall d c, In (d, c) table <-> c = occurrences d (map run_length runs) /\ 0 < c.
Proof. exact freq_duration_spec. Qed.
Print Assumptions C28_frequency_partial.

(** Isolated steps: two runs of length one are reported as a single one. *)
Theorem C28_isolated_refuted : exists values vec runs table,
  ConditionVec Gt 5 values vec /\ RunsOf vec runs /\ freq_duration Gt 5 values = Ok table /\
  In (1, 1) table /\ occurrences 1 (map run_length runs) = 2.
Proof.
  exists [9; 1; 9]%Q, [true; false; true], (runs_of [true; false; true]).
  exists [(1, 1)]. split.
  - repeat constructor; intros H; try discriminate; try reflexivity; cbn in *; try (exfalso; revert H; apply Qle_not_lt; discriminate).
  - split; [apply runs_of_spec|]. vm_compute. auto.
Qed.
Print Assumptions C28_isolated_refuted.

(** Other summaries: a sum of isolated runs is reported as 1. *)
Theorem C28_other_summary_refuted :
  duration (fun l => inject_Z (zsum l)) Gt 5 [9; 1; 9]%Q = Ok 1%Q /\
  RunsOf [true; false; true] [(0, 1); (2, 3)].
Proof. split; [vm_compute; reflexivity|]. exact (runs_of_spec [true; false; true]). Qed.
Print Assumptions C28_other_summary_refuted.
Example C28_case :
  RunsOf [true; true; false; true; false; true; true] [(0, 2); (3, 4); (5, 7)] /\
  freq_duration Gt 5 [9; 9; 1; 9; 1; 9; 9]%Q = Ok [(1, 1); (2, 2)] /\
  (exists r, In r [(0, 2); (3, 4); (5, 7)] /\ 2 <= run_length r).
Proof.
  split; [exact (runs_of_spec [true; true; false; true; false; true; true])|]. split; [vm_compute; reflexivity|].
  exists (0, 2). cbn. auto with zarith.
Qed.

(** C29.  The result is the number of changes between two consecutive events.
    Partial: without any event it is -1. *)
Theorem C29_freezethaw_partial : forall x threshold, (0 < threshold)%Q -> forallb fst x = false ->
  exists events, FreezeThawEvents (map snd (filter (fun c => negb (fst c)) x)) threshold events /\
    freezethaw1d x threshold = Ok (Some (zlen events - 1)).
Proof. exact freezethaw_spec. Qed.
Print Assumptions C29_freezethaw_partial.
Theorem C29_masked : forall x threshold, forallb fst x = true -> freezethaw1d x threshold = Ok None.
Proof. exact freezethaw_masked. Qed.
Print Assumptions C29_masked.
Theorem C29_no_event_refuted : exists x, forallb fst x = false /\ freezethaw1d x 15 = Ok (Some (-1)).
Proof. exists [(false, 1%Q); (false, (-1)%Q)]. split; vm_compute; reflexivity. Qed.
Print Assumptions C29_no_event_refuted.
Example C29_case : (0 < 15)%Q /\
  freezethaw1d (map (pair false) [10; 10; (-10); (-10); 10; 1; (-3); 20]%Q) 15 = Ok (Some 2).
Proof. split; [reflexivity|vm_compute; reflexivity]. Qed.

(** C51.  Membership in the window of a calendar day; what the 29th of February means
    is part of [InWindow]. *)
Theorem C51_window : forall d m dd hour h only_leap, ValidDate d -> CalendarDay m dd -> 0 <= hour <= 23 -> 0 <= h ->
  exists b, get_masked d m dd hour (2 * h + 1) only_leap = Ok b /\ (b = false <-> InWindow h only_leap m dd hour d).
Proof. exact get_masked_spec. Qed.
Print Assumptions C51_window.

Theorem C51_daily_percentile : forall A B (perc : list A -> B) (arr : list A) dates first rest h only_leap,
  dates = first :: rest -> List.length arr = List.length dates -> (forall d, In d dates -> ValidDate d) -> 0 <= h ->
  exists table, get_daily_percentile perc arr dates (2 * h + 1) only_leap = Ok table /\ NoDup (map fst table) /\
    (forall m dd, In (m, dd) (map fst table) <-> exists d, In d dates /\ dt_month d = m /\ dt_day d = dd) /\
    forall m dd v, In ((m, dd), v) table ->
      exists basis, v = perc basis /\
        Picks (fun k => exists d, nth_error dates k = Some d /\ InWindow h only_leap m dd (dt_hour first) d) arr basis.
Proof. exact daily_percentile_spec. Qed.
Print Assumptions C51_daily_percentile.

(** [WithinDays] for dates at the hour of the first one, and what day numbers are. *)
Theorem C51_within_days : forall h y m d y' m' d' hour,
  WithinDays h (mkdate y m d hour 0 0) y' m' d' hour <-> Z.abs (ordinal y m d - ordinal y' m' d') <= h.
Proof. exact within_days. Qed.
Print Assumptions C51_within_days.
Theorem C51_day_numbers : forall y m d, 1 <= m <= 12 -> 1 <= d <= days_in_month y m ->
  (d < days_in_month y m -> ordinal y m (d + 1) = ordinal y m d + 1) /\
  (d = days_in_month y m -> m < 12 -> ordinal y (m + 1) 1 = ordinal y m d + 1) /\
  (d = days_in_month y m -> m = 12 -> ordinal (y + 1) 1 1 = ordinal y m d + 1).
Proof. exact ordinal_next_day. Qed.
Print Assumptions C51_day_numbers.
Example C51_case :
  get_daily_percentile (fun l : list Z => l) [1; 2; 3; 4; 5]
    [mkdate 2000 12 30 12 0 0; mkdate 2001 1 1 12 0 0; mkdate 2001 1 2 12 0 0; mkdate 2001 12 31 12 0 0; mkdate 2002 2 1 12 0 0] 3 false =
  Ok [((12, 30), [1; 4]); ((12, 31), [1; 2; 4]); ((1, 1), [2; 3; 4]); ((1, 2), [2; 3]); ((2, 1), [5])] /\
  ValidDate (mkdate 2001 12 31 12 0 0) /\ CalendarDay 2 29.
Proof.
  split; [vm_compute; reflexivity|]. split; [unfold ValidDate; cbn; lia|].
  split; [lia|]. exists 2000. cbn. lia.
Qed.

(** C57.  The count of the unmasked steps satisfying the condition; the result is
    masked iff every step is. *)
Theorem C57_threshold : forall op threshold values, op <> OtherOp ->
  exists n, threshold_count op threshold values = Ok (forallb fst values, n) /\
    CountOf (fun c => fst c = false /\ Satisfies op threshold (snd c)) values n.
Proof. exact threshold_count_spec. Qed.
Print Assumptions C57_threshold.
Theorem C57_between : forall lower upper values, (lower <= upper)%Q ->
  exists n, between_count lower upper values = Ok (forallb fst values, n) /\
    CountOf (fun c => fst c = false /\ (lower <= snd c <= upper)%Q) values n.
Proof. exact between_count_spec. Qed.
Print Assumptions C57_between.
Theorem C57_between_inverted_raises : forall lower upper values, (upper < lower)%Q -> between_count lower upper values = Err AssertionError.
Proof. exact between_inverted_raises. Qed.
Print Assumptions C57_between_inverted_raises.
Theorem C57_sample_size : forall A (values : list (mcell A)) fill_mask, values <> [] ->
  exists n, get_sample_size values fill_mask = Ok (fill_mask, n) /\ CountOf (fun c => fst c = false) values n.
Proof. exact sample_size_spec. Qed.
Print Assumptions C57_sample_size.
Theorem C57_count_at_most_sample : forall op threshold values fill_mask m n c k,
  threshold_count op threshold values = Ok (m, n) -> get_sample_size values fill_mask = Ok (c, k) -> 0 <= n <= k.
Proof. exact count_at_most_sample. Qed.
Print Assumptions C57_count_at_most_sample.
Example C57_case : threshold_count Gte 2 [(false, 1%Q); (false, 2%Q); (true, 3%Q); (false, 4%Q)] = Ok (false, 2) /\
  get_sample_size [(false, 1%Q); (false, 2%Q); (true, 3%Q); (false, 4%Q)] false = Ok (false, 3) /\
  between_count 2 3 [(false, 1%Q); (false, 2%Q); (true, 3%Q); (false, 4%Q)] = Ok (false, 1).
Proof. vm_compute. auto. Qed.
