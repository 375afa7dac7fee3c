From Verif Require Import Py Lib Spec PartitionModel DimensionModel DimensionSpec DimensionProofs DimensionProperties
  BetweenModel TimeModel StepModel StepSpec StepProofs.
From Coq Require Import QArith Lia.
Local Open Scope Z_scope.
Local Notation length := List.length.

(** ** C167: subsetting time by a function *)

(** Increasing indices of the time steps: the steps at these indices. *)
Theorem C167_function_partial : forall func steps,
  let indices := func (map ts_date steps) in
  indices <> [] -> Increasing indices -> Forall (fun i => 0 <= i < zlen steps) indices ->
  exists r, get_subset_by_function func steps = Ok r /\
    Forall2 (fun i s => nth_error steps (Z.to_nat i) = Some s) indices r.
Proof.
  intros func steps indices H1 H2 H3. destruct (C15_optimal_slice_partial _ steps indices H1 H2 H3) as [s [E1 E2]].
  unfold get_subset_by_function. cbn [format_singleton]. fold indices. rewrite E1. cbn [bind].
  change (select_items steps s) with (slc_select steps s). rewrite E2. clear -H3. clearbody indices. induction indices as [|i t IH].
  - exists []. split; [reflexivity|constructor].
  - inversion H3 as [|? ? Hi Ht]; subst. destruct (IH Ht) as [r [E F]]. cbn [map_res].
    unfold py_index at 1. destruct (Z.ltb_spec i 0); [lia|]. destruct (Z.ltb_spec i 0); [lia|]. destruct (Z.leb_spec (zlen steps) i); [lia|]. cbn [orb].
    destruct (nth_error steps (Z.to_nat i)) as [x|] eqn:Ex; [|apply nth_error_None in Ex; unfold zlen in Hi; lia].
    cbn [bind]. rewrite E. cbn [bind]. exists (x :: r). split; [reflexivity|]. constructor; assumption.
Qed.
Print Assumptions C167_function_partial.

Definition example_steps : list tstep := map (fun m => mktstep (inject_Z m) (mkdate 2000 m 1 0 0 0)) [1; 2; 3; 4; 5; 6; 7; 8].
Example C167_function_case : get_subset_by_function (fun _ => [0; 1; 4]) example_steps =
  Ok [mktstep 1 (mkdate 2000 1 1 0 0 0); mktstep 2 (mkdate 2000 2 1 0 0 0); mktstep 5 (mkdate 2000 5 1 0 0 0)].
Proof. reflexivity. Qed.

(** Two indices in decreasing order: all the steps from the smaller to the larger are returned. *)
Theorem C167_decreasing_refuted : forall a b steps, 0 <= b -> b < a -> a < zlen steps ->
  exists r, get_subset_by_function (fun _ => [a; b]) steps = Ok r /\ zlen r = a - b + 1 /\
    map_res (py_index steps) (zrange b (a + 1)) = Ok r.
Proof.
  intros a b steps Hb Hab Ha. unfold get_subset_by_function. cbn [format_singleton]. unfold get_optimal_slice_from_array. cbn [any_diff_gt1].
  assert (b - a >? 1 = false) as G by (rewrite Z.gtb_ltb; apply Z.ltb_ge; lia). rewrite G. cbn [orb list_min list_max fold_left bind].
  rewrite Z.min_r, Z.max_l by lia. cbn [select_items]. exists (py_slice steps (slice_of b (a + 1))). split; [reflexivity|].
  pose proof (py_slice_index_zrange steps b (a + 1) ltac:(lia) ltac:(lia)) as E. split; [|exact E].
  rewrite (map_res_length _ _ _ E). unfold zlen. rewrite zrange_length. lia.
Qed.
Print Assumptions C167_decreasing_refuted.
Example C167_decreasing_case : exists r, get_subset_by_function (fun _ => [5; 1]) example_steps = Ok r /\ zlen r = 5.
Proof. eexists. split; reflexivity. Qed.

(** An index given twice is used once. *)
Theorem C167_repeated_refuted : forall a steps, 0 <= a < zlen steps ->
  exists r, get_subset_by_function (fun _ => [a; a]) steps = Ok r /\ zlen r = 1.
Proof.
  intros a steps Ha. unfold get_subset_by_function. cbn [format_singleton]. unfold get_optimal_slice_from_array. cbn [any_diff_gt1].
  rewrite Z.sub_diag. cbn [Z.gtb Z.compare orb list_min list_max fold_left bind]. rewrite Z.min_id, Z.max_id. cbn [select_items].
  exists (py_slice steps (slice_of a (a + 1))). split; [reflexivity|].
  rewrite (map_res_length _ _ _ (py_slice_index_zrange steps a (a + 1) ltac:(lia) ltac:(lia))). unfold zlen. rewrite zrange_length. lia.
Qed.
Print Assumptions C167_repeated_refuted.
Example C167_repeated_case : get_subset_by_function (fun _ => [2; 2]) example_steps = Ok [mktstep 3 (mkdate 2000 3 1 0 0 0)].
Proof. reflexivity. Qed.

(** No indices: an error of the slicing, not that of an empty subset. *)
Theorem C167_empty_refuted : forall func steps, func (map ts_date steps) = [] -> get_subset_by_function func steps = Err ValueError.
Proof. intros func steps H. unfold get_subset_by_function. rewrite H. reflexivity. Qed.
Print Assumptions C167_empty_refuted.
Example C167_empty_case : get_subset_by_function (fun _ => []) example_steps = Err ValueError.
Proof. reflexivity. Qed.

(** ** C168: the subsets of time and level of a request *)

(** Exactly the steps in the range and in the region, and the levels in the range; without any of
    them, the error of an empty subset. *)
Theorem C168_subset_partial : forall time_range region level_range f levels,
  Ordered time_range -> Restricts region -> Ordered level_range -> sf_levels f = Some levels -> sf_steps f <> [] -> levels <> [] ->
  let steps := asked_steps time_range region (sf_steps f) in
  let levels' := filter (in_range level_range) levels in
  nonspatial_subset time_range region None level_range f =
    if (zlen steps =? 0) || (zlen levels' =? 0) then Err EmptySubsetError else Ok (mksfield steps (Some levels')).
Proof.
  intros time_range region level_range f levels Ht Hr Hl El Ns Nl steps levels'. unfold nonspatial_subset. rewrite El. cbn [subset_func].
  set (s1 := filter (fun s => in_range time_range (ts_time s)) (sf_steps f)).
  assert (steps = filter (fun s => in_region region (ts_date s)) s1) as Es.
  { unfold steps, asked_steps, s1. generalize (sf_steps f). intros l. induction l as [|x t IH]; [reflexivity|]. cbn [filter].
    destruct (in_range time_range (ts_time x)); cbn [andb filter]; [destruct (in_region region (ts_date x)); rewrite IH; reflexivity|exact IH]. }
  assert (s1 <> [] /\ subset_range time_range (sf_steps f) = Ok s1 \/ s1 = [] /\ subset_range time_range (sf_steps f) = Err EmptySubsetError) as [[N1 E1]|[N1 E1]].
  { unfold s1. destruct time_range as [[lo hi]|]; cbn [subset_range].
    - destruct (between_filter ts_time (sf_steps f) lo hi Ht) as [[N E]|[N E]]; rewrite E; [left|right]; auto.
    - left. cbn [in_range]. assert (filter (fun _ : tstep => true) (sf_steps f) = sf_steps f) as -> by apply filter_all. auto. }
  2: { rewrite E1. cbn [bind]. rewrite Es, N1. reflexivity. }
  rewrite E1. cbn [bind].
  assert (steps <> [] /\ subset_region region s1 = Ok steps \/ steps = [] /\ subset_region region s1 = Err EmptySubsetError) as [[N2 E2]|[N2 E2]].
  { rewrite Es. destruct region as [reg|]; cbn [subset_region].
    - destruct (region_filter s1 reg Hr) as [[[i E] N]|[N E]]; rewrite E; [left|right]; auto.
    - left. cbn [in_region]. assert (filter (fun _ : tstep => true) s1 = s1) as -> by apply filter_all. auto. }
  2: { rewrite E2. cbn [bind]. rewrite N2. reflexivity. }
  rewrite E2. cbn [bind].
  assert (levels' <> [] /\ subset_level level_range (Some levels) = Ok (Some levels') \/ levels' = [] /\ subset_level level_range (Some levels) = Err EmptySubsetError) as [[N3 E3]|[N3 E3]].
  { unfold levels'. destruct level_range as [[lo hi]|]; cbn [subset_level].
    - pose proof (between_filter (fun x : Q => x) levels lo hi Hl) as B. cbv zeta in B. rewrite map_id in B.
      change (fun x : Q => in_range (Some (lo, hi)) x) with (in_range (Some (lo, hi))) in B.
      destruct B as [[N E]|[N E]]; rewrite E; [left|right]; auto.
    - left. assert (filter (in_range None) levels = levels) as -> by apply filter_all. auto. }
  2: { rewrite E3. cbn [bind]. rewrite N3. rewrite Bool.orb_true_r. reflexivity. }
  rewrite E3. cbn [bind]. destruct steps as [|x t]; [congruence|]. destruct levels' as [|y u]; [congruence|]. reflexivity.
Qed.
Print Assumptions C168_subset_partial.
Example C168_subset_case :
  nonspatial_subset (Some (2#1, 7#1)) (Some [(PMonth, Some [1; 6; 7]); (PYear, None)]) None (Some (0#1, 1#2)) (mksfield example_steps (Some [1#4; 3#4])) =
    Ok (mksfield [mktstep 6 (mkdate 2000 6 1 0 0 0); mktstep 7 (mkdate 2000 7 1 0 0 0)] (Some [1#4])).
Proof. reflexivity. Qed.

(** The function is asked about the steps that are left, and its indices are indices of these. *)
Theorem C168_function : forall time_range region func f, sf_levels f = None ->
  forall s1 s2, subset_range time_range (sf_steps f) = Ok s1 -> subset_region region s1 = Ok s2 ->
  nonspatial_subset time_range region (Some func) None f = (do s <- get_subset_by_function func s2; Ok (mksfield s None)).
Proof. intros time_range region func f L s1 s2 E1 E2. unfold nonspatial_subset. rewrite E1. cbn [bind]. rewrite E2. cbn [bind subset_func subset_level]. rewrite L. reflexivity. Qed.
Print Assumptions C168_function.
Example C168_function_case : nonspatial_subset (Some (3#1, 9#1)) None (Some (fun _ => [0])) None (mksfield example_steps None) =
  Ok (mksfield [mktstep 3 (mkdate 2000 3 1 0 0 0)] None).
Proof. reflexivity. Qed.

(** A range of levels for a field without levels fails with an attribute error, after the time was subset. *)
Theorem C168_level_refuted : forall r f, sf_levels f = None -> nonspatial_subset None None None (Some r) f = Err AttributeError.
Proof. intros [lo hi] f L. unfold nonspatial_subset. cbn [subset_range subset_region subset_func bind subset_level]. rewrite L. reflexivity. Qed.
Print Assumptions C168_level_refuted.
Example C168_level_case : nonspatial_subset None None None (Some (0#1, 1#1)) (mksfield example_steps None) = Err AttributeError.
Proof. reflexivity. Qed.
