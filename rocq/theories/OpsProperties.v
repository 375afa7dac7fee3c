(** C42, C43, C49, C50, C55 and C60. *)
From Coq Require Import QArith Ascii Sorted Permutation.
From Verif Require Import Py Lib Spec TimeModel TimeSpec CalcModel OpsModel OpsSpec OpsProofs GroupingProofs EnvProofs OpsWitness.
From Verif Require CalcSpec.
Local Open Scope string_scope. Local Open Scope Z_scope.

(** ** C42.  The slice parameter. *)

(** What is missing: an integer below -1, and more than five values (both below). *)
Theorem C42_slice_partial : forall v rs vs, Sequence v vs -> Forall2 request_value rs vs -> List.length rs = 5%nat ->
  (forall i, In (RIndex i) rs -> -1 <= i) ->
  exists d, slice_set v = Ok (Some d) /\ map fst d = ["realization"; "time"; "level"; "y"; "x"] /\
    Forall2 (fun r kv => forall (A : Type) (l : list A), exists out,
      apply_slice (snd kv) l = Some out /\ Picks (Asked r (List.length l)) l out) rs d.
Proof. exact slice_param. Qed.
Print Assumptions C42_slice_partial.
Example C42_slice_case :
  let v := PList [PNone; PInt 3; PInt (-1); PList [PInt 1; PInt 4]; PList [PInt 0; PInt (-1)]] in
  let rs := [RAll; RIndex 3; RIndex (-1); RRange 1 4; RRange 0 (-1)] in
  (exists vs, Sequence v vs /\ Forall2 request_value rs vs) /\
  exists d, slice_set v = Ok (Some d) /\ map (fun kv => apply_slice (snd kv) [10; 11; 12; 13; 14; 15]) d =
    [Some [10; 11; 12; 13; 14; 15]; Some [13]; Some [15]; Some [11; 12; 13]; Some [10; 11; 12; 13; 14]].
Proof. exact slice_case. Qed.

Theorem C42_negative_refuted : exists d args, slice_set (PList [PNone; PInt (-2); PNone; PNone; PNone]) = Ok (Some d) /\
  In ("time", args) d /\ ~ exists out, apply_slice args [10; 11; 12] = Some out /\ Picks (Asked (RIndex (-2)) 3) [10; 11; 12] out.
Proof. exact slice_negative. Qed.
Print Assumptions C42_negative_refuted.
(** A sixth value is ignored. *)
Theorem C42_extra_refuted : forall x, (exists a, slice_elem x = Ok a) ->
  slice_set (PList [PNone; PNone; PNone; PNone; PNone; x]) = slice_set (PList [PNone; PNone; PNone; PNone; PNone]).
Proof. exact slice_extra. Qed.
Print Assumptions C42_extra_refuted.
Example C42_extra_case : exists a, slice_elem (PInt 7) = Ok a.
Proof. eexists. reflexivity. Qed.

(** ** C43.  Validation of operation parameters. *)

(** A text is accepted by a boolean parameter exactly if it spells one of three
    words, in any case and with blanks around it. *)
Theorem C43_boolean_text : forall s b, boolean_set (PStr s) = Ok b <->
  exists w, In w (if b then ["true"; "t"; "1"] else ["false"; "f"; "0"]) /\ Spelled s w.
Proof. exact boolean_text. Qed.
Print Assumptions C43_boolean_text.
Example C43_boolean_text_case : boolean_set (PStr " True ") = Ok true /\ boolean_set (PStr "F") = Ok false /\
  boolean_set (PStr "yes") = Err DefinitionValidationError.
Proof. vm_compute. repeat split; reflexivity. Qed.
Theorem C43_boolean_value_partial : forall v b, (forall s, v <> PStr s) ->
  (boolean_set v = Ok b <-> v = PBool b \/ exists z, v = PInt z /\ (b = true <-> z <> 0)).
Proof. exact boolean_value. Qed.
Print Assumptions C43_boolean_value_partial.
Example C43_boolean_value_case : boolean_set (PBool true) = Ok true /\ boolean_set (PInt 0) = Ok false /\
  boolean_set (PList []) = Err DefinitionValidationError.
Proof. vm_compute. repeat split; reflexivity. Qed.
Theorem C43_boolean_error : forall v e, boolean_set v = Err e -> e = DefinitionValidationError.
Proof. exact boolean_error. Qed.
Print Assumptions C43_boolean_error.
(** Integers other than 0 and 1 are accepted. *)
Theorem C43_boolean_refuted : boolean_set (PInt 2) = Ok true.
Proof. reflexivity. Qed.
Print Assumptions C43_boolean_refuted.

(** A level range: two numbers, the first not above the second.  What is
    missing: NaN, which passes the comparison (below). *)
Theorem C43_level_range_partial : forall v r, (forall l, Sequence v l -> ~ In PNan l) ->
  (level_range_set v = Ok (Some r) <->
   exists a b x y, Sequence v [a; b] /\ r = [a; b] /\ NumberOf a x /\ NumberOf b y /\ (x <= y)%Q).
Proof. exact level_range. Qed.
Print Assumptions C43_level_range_partial.
Example C43_level_range_case : level_range_set (PList [PInt 10; PFloat (21#2)]) = Ok (Some [PInt 10; PFloat (21#2)]) /\
  level_range_set (PTuple [PInt 11; PFloat (21#2)]) = Err DefinitionValidationError.
Proof. vm_compute. split; reflexivity. Qed.
Theorem C43_level_range_refuted : level_range_set (PList [PNan; PInt 1]) = Ok (Some [PNan; PInt 1]) /\
  level_range_set (PList [PInt 1; PNan]) = Ok (Some [PInt 1; PNan]).
Proof. vm_compute. split; reflexivity. Qed.
Print Assumptions C43_level_range_refuted.

(** A time range: two dates, the first not after the second, or the text of two
    dates separated by a bar. *)
Theorem C43_time_range : forall strptime v r, time_range_set strptime v = Ok (Some r) <->
  exists s t, r = [PDate s; PDate t] /\ s <= t /\
    (Sequence v r \/
     exists a b a' b', v = PStr (a ++ "|" ++ b) /\ NoBar a /\ NoBar b /\
       Spelled a a' /\ Trimmed a' /\ a' <> "none" /\ strptime a' = Some s /\
       Spelled b b' /\ Trimmed b' /\ b' <> "none" /\ strptime b' = Some t).
Proof. exact time_range. Qed.
Print Assumptions C43_time_range.
Example C43_time_range_case :
  let strptime s := if String.eqb s "2001" then Some 7 else if String.eqb s "2002" then Some 9 else None in
  time_range_set strptime (PStr "2001 | 2002") = Ok (Some [PDate 7; PDate 9]) /\
  time_range_set strptime (PStr "2002|2001") = Err DefinitionValidationError /\
  time_range_set strptime (PList [PDate 7; PDate 9]) = Ok (Some [PDate 7; PDate 9]).
Proof. vm_compute. repeat split; reflexivity. Qed.

(** Geometry identifiers: integers without duplicates are accepted, with
    duplicates rejected. *)
Theorem C43_unique_integers : forall v zs, Sequence v (map PInt zs) ->
  (NoDup zs -> geom_select_uid_set v = Ok (Some zs)) /\
  (~ NoDup zs -> geom_select_uid_set v = Err DefinitionValidationError).
Proof. exact geom_select_ints. Qed.
Print Assumptions C43_unique_integers.
Example C43_unique_integers_case : geom_select_uid_set (PTuple [PInt 3; PInt 1]) = Ok (Some [3; 1]) /\
  geom_select_uid_set (PTuple [PInt 3; PInt 1; PInt 3]) = Err DefinitionValidationError.
Proof. vm_compute. split; reflexivity. Qed.
(** Of other values only the values given are known to differ: the integers
    made of them may not. *)
Theorem C43_unique_values_partial : forall v l zs, Sequence v l -> geom_select_uid_set v = Ok (Some zs) ->
  AllDifferent l /\ Forall2 (fun x z => py_int x = Ok z) l zs.
Proof. exact geom_select_sound. Qed.
Print Assumptions C43_unique_values_partial.
Example C43_unique_values_case : geom_select_uid_set (PList [PStr "12"; PInt 1]) = Ok (Some [12; 1]).
Proof. vm_compute. reflexivity. Qed.
Theorem C43_unique_refuted : geom_select_uid_set (PList [PStr "1"; PInt 1]) = Ok (Some [1; 1]) /\
  geom_select_uid_set (PList [PFloat (6#5); PFloat (17#10)]) = Ok (Some [1; 1]).
Proof. vm_compute. split; reflexivity. Qed.
Print Assumptions C43_unique_refuted.

(** Temporal groupings, with at most one flag: exactly the documented ones are
    accepted, and nothing of them is lost. *)
Theorem C43_grouping_partial : forall v l, Sequence v (map item_value l) -> AtMostOneFlag l ->
  (GoodGrouping l ->
     (l = [GText "all"] /\ calc_grouping_set v = Ok (Some (PStr "all"))) \/
     (l <> [GText "all"] /\ exists r, Permutation l r /\ calc_grouping_set v = Ok (Some (PTuple (map item_value r))))) /\
  (~ GoodGrouping l -> calc_grouping_set v = Err DefinitionValidationError).
Proof. exact grouping_value. Qed.
Print Assumptions C43_grouping_partial.
Example C43_grouping_case :
  let l := [GText "unique"; GSeason [12; 1; 2]; GSeason [6; 7; 8]] in
  AtMostOneFlag l /\ GoodGrouping l /\
  calc_grouping_set (PList (map item_value l)) = Ok (Some (PTuple (map item_value [GSeason [12; 1; 2]; GSeason [6; 7; 8]; GText "unique"]))) /\
  calc_grouping_set (PList (map item_value [GSeason [12; 1]; GSeason [1; 2]])) = Err DefinitionValidationError.
Proof. exact grouping_case. Qed.
(** A flag given twice is accepted; with both flags one is lost. *)
Theorem C43_grouping_refuted :
  calc_grouping_set (PList [PStr "year"; PStr "year"; PList [PInt 1]]) = Ok (Some (PTuple [PStr "year"; PList [PInt 1]; PStr "year"])) /\
  calc_grouping_set (PList [PStr "unique"; PStr "year"; PList [PInt 1]]) = Ok (Some (PTuple [PList [PInt 1]; PStr "year"])).
Proof. vm_compute. split; reflexivity. Qed.
Print Assumptions C43_grouping_refuted.

(** Calculations whose last item is a function: accepted exactly if every
    function is known and valid, no alias occurs twice and there is at most one
    expression. *)
Theorem C43_calc_partial : forall reg valid l, Forall WellSpelled l -> (forall s k, l <> (k ++ [KExpr s])%list) ->
  (Forall (Known reg) l /\ (forall k, In k l -> valid (item_out k) = true) /\ NamesDiffer l ->
     calc_set reg valid (map calc_value l) = Ok (map item_out l)) /\
  (~ (Forall (Known reg) l /\ (forall k, In k l -> valid (item_out k) = true) /\ NamesDiffer l) ->
     calc_set reg valid (map calc_value l) = Err DefinitionValidationError).
Proof. exact calc_values. Qed.
Print Assumptions C43_calc_partial.
Example C43_calc_case :
  let reg s := String.eqb s "mean" in let valid (_ : calc_out) := true in
  let l := [KExpr "x=y*2"; KFunc "mean" "a"; KFunc "mean" "b"] in
  Forall WellSpelled l /\ Forall (Known reg) l /\ NamesDiffer l /\
  calc_set reg valid (map calc_value l) = Ok (map item_out l) /\
  calc_set reg valid (map calc_value [KFunc "mean" "a"; KFunc "mean" "a"]) = Err DefinitionValidationError.
Proof. exact calc_case. Qed.
(** With an expression at the end equal aliases are accepted; with two
    expressions before a function different aliases are rejected. *)
Theorem C43_calc_refuted :
  calc_set (fun _ => true) (fun _ => true) (map calc_value [KFunc "mean" "a"; KFunc "max" "a"; KExpr "x=y*2"]) =
    Ok (map item_out [KFunc "mean" "a"; KFunc "max" "a"; KExpr "x=y*2"]) /\
  calc_set (fun _ => true) (fun _ => true) (map calc_value [KExpr "x=y*2"; KExpr "z=y*3"; KFunc "mean" "a"]) = Err DefinitionValidationError.
Proof. vm_compute. split; reflexivity. Qed.
Print Assumptions C43_calc_refuted.

(** Time regions: only the keys month and year are accepted, and what they
    select is kept. *)
Theorem C43_time_region : forall (d : list (string * option (list Z))), NoDup (map fst d) ->
  (Forall (fun kv => fst kv = "month" \/ fst kv = "year") d ->
     (Forall (fun kv => snd kv = None) d /\ time_region_set d = Ok None) \/
     (~ Forall (fun kv => snd kv = None) d /\ exists r, time_region_set d = Ok (Some r) /\
        (forall k, In k (map fst r) <-> k = "month" \/ k = "year") /\ NoDup (map fst r) /\
        forall k v, In (k, Some v) r <-> In (k, Some v) d)) /\
  (~ Forall (fun kv => fst kv = "month" \/ fst kv = "year") d -> time_region_set d = Err DefinitionValidationError).
Proof. exact region_spec. Qed.
Print Assumptions C43_time_region.
Example C43_time_region_case : time_region_set [("month", Some [6; 7])] = Ok (Some [("month", Some [6; 7]); ("year", None)]) /\
  time_region_set [("day", Some [6; 7])] = Err DefinitionValidationError.
Proof. vm_compute. split; reflexivity. Qed.

(** ** C49.  Time subsets. *)

Theorem C49_unlimited : forall a b, validate_time_subset None b = Ok true /\ validate_time_subset a None = Ok true.
Proof. exact unlimited. Qed.
Print Assumptions C49_unlimited.
Example C49_unlimited_case : validate_time_subset (Some (mkdate 2000 1 1 0 0 0, mkdate 2001 1 1 0 0 0)) None = Ok true.
Proof. reflexivity. Qed.
(** A region given by years alone: true exactly if every year asked for has a
    date in the range; with one year this is the whole property. *)
Theorem C49_years_partial : forall t0 t1 l, CalcSpec.ValidDate t0 -> CalcSpec.ValidDate t1 -> DateLe t0 t1 -> l <> [] ->
  exists b, validate_time_subset (Some (t0, t1)) (Some (None, Some l)) = Ok b /\
  (b = true <-> forall y, In y l -> exists d, DateIn t0 t1 d /\ MeetsRegion None (Some [y]) d).
Proof. exact validate_years. Qed.
Print Assumptions C49_years_partial.
Theorem C49_years_sound : forall t0 t1 l, CalcSpec.ValidDate t0 -> CalcSpec.ValidDate t1 -> DateLe t0 t1 ->
  validate_time_subset (Some (t0, t1)) (Some (None, Some l)) = Ok true -> exists d, DateIn t0 t1 d /\ MeetsRegion None (Some l) d.
Proof. exact years_sound. Qed.
Print Assumptions C49_years_sound.
Example C49_years_case : CalcSpec.ValidDate (mkdate 2000 6 1 0 0 0) /\ CalcSpec.ValidDate (mkdate 2003 2 1 0 0 0) /\
  validate_time_subset (Some (mkdate 2000 6 1 0 0 0, mkdate 2003 2 1 0 0 0)) (Some (None, Some [2001; 2003])) = Ok true /\
  validate_time_subset (Some (mkdate 2000 6 1 0 0 0, mkdate 2003 2 1 0 0 0)) (Some (None, Some [2004])) = Ok false.
Proof. exact years_case. Qed.
(** With several years one of which has no data the answer is no. *)
Theorem C49_years_refuted : exists t0 t1 l d, DateIn t0 t1 d /\ MeetsRegion None (Some l) d /\
  validate_time_subset (Some (t0, t1)) (Some (None, Some l)) = Ok false.
Proof. exact years_missed. Qed.
Print Assumptions C49_years_refuted.
(** Months: the month of the start is missed and the month after the end counted. *)
Theorem C49_months_refuted : exists t0 t1, CalcSpec.ValidDate t0 /\ CalcSpec.ValidDate t1 /\ DateLe t0 t1 /\
  (exists d, DateIn t0 t1 d /\ MeetsRegion (Some [1]) None d) /\
  validate_time_subset (Some (t0, t1)) (Some (Some [1], None)) = Ok false /\
  (~ exists d, DateIn t0 t1 d /\ MeetsRegion (Some [2]) None d) /\
  validate_time_subset (Some (t0, t1)) (Some (Some [2], None)) = Ok true.
Proof. exact months_wrong. Qed.
Print Assumptions C49_months_refuted.
Theorem C49_empty_region_refuted : exists t0 t1, DateIn t0 t1 t0 /\ MeetsRegion None None t0 /\
  validate_time_subset (Some (t0, t1)) (Some (None, None)) = Err TypeError.
Proof. exact empty_region. Qed.
Print Assumptions C49_empty_region_refuted.

(** ** C50.  Sorting datasets by time. *)

Theorem C50_distinct_partial : forall (U : Type) (time : U -> Z) uris, NoDup (map time uris) ->
  exists r, get_sorted_uris_by_time_dimension (fun u => Ok (time u)) uris = Ok r /\
    StronglySorted (fun u v => time u < time v) r /\ Permutation r uris.
Proof. exact @sorted_distinct. Qed.
Print Assumptions C50_distinct_partial.
Example C50_distinct_case : NoDup (map (fun x => 10 - x) [3; 1; 2]) /\
  get_sorted_uris_by_time_dimension (fun u => Ok (10 - u)) [3; 1; 2] = Ok [3; 2; 1].
Proof. split; [|reflexivity]. repeat constructor; cbn; lia. Qed.
(** In general the result is sorted and holds, of the datasets with the same
    time, the last one only. *)
Theorem C50_general_partial : forall (U : Type) (time : U -> Z) uris,
  exists r, get_sorted_uris_by_time_dimension (fun u => Ok (time u)) uris = Ok r /\
    StronglySorted (fun u v => time u < time v) r /\
    (forall u, In u r <-> exists l1 l2, uris = (l1 ++ u :: l2)%list /\ Forall (fun w => time w <> time u) l2).
Proof. exact @sorted_uris. Qed.
Print Assumptions C50_general_partial.
Theorem C50_ties_refuted : get_sorted_uris_by_time_dimension (fun u : Z * Z => Ok (fst u)) [(5, 1); (5, 2)] = Ok [(5, 2)].
Proof. reflexivity. Qed.
Print Assumptions C50_ties_refuted.

(** ** C55.  Environment parameters, after any history of assignments and resets. *)

Theorem C55_explicit_partial : forall su os0 h os p v, GoodSetup su -> In p (su_table su) ->
  (forall q, In q (su_computed su) -> ep_name q <> ep_name p) ->
  Explicit h (ep_name p) v -> v <> PStr "use_env" -> env_get su os (env_run su os0 h) (ep_name p) = Ok v.
Proof. exact env_explicit. Qed.
Print Assumptions C55_explicit_partial.
Theorem C55_unset_partial : forall su os0 h os p, GoodSetup su -> PlainParameter su p ->
  Unset h (ep_name p) -> env_get su os (env_run su os0 h) (ep_name p) = from_process os p.
Proof. exact env_unset. Qed.
Print Assumptions C55_unset_partial.
(** The table of ocgis meets the conditions; two parameters are fixed at start. *)
Theorem C55_ocgis : forall cwd conf float rtree cfunits esmf icclim mpi4py prefer nc_par,
  let su := ocgis_setup cwd conf float rtree cfunits esmf icclim mpi4py prefer nc_par in
  GoodSetup su /\ List.length (su_table su) = 34%nat /\
  (forall p q, In p (su_table su) -> In q (su_computed su) -> ep_name q <> ep_name p) /\
  (forall p, In p (su_table su) -> ep_name p <> "PREFER_NETCDFTIME" -> ep_name p <> "USE_NETCDF4_MPI" -> PlainParameter su p).
Proof. exact ocgis_good. Qed.
Print Assumptions C55_ocgis.
Definition sample_setup : esetup := ocgis_setup "/here" "/conf" (fun _ => Err ValueError) false false false false false true false.
Example C55_case :
  let os name := if String.eqb name "OCGIS_PREFIX" then Some "from_process" else None in
  let h := [ESet "PREFIX" (PStr "a"); EReset os; ESet "DEBUG" (PBool true)] in
  Explicit h "DEBUG" (PBool true) /\ Unset h "PREFIX" /\
  env_get sample_setup os (env_run sample_setup os h) "DEBUG" = Ok (PBool true) /\
  env_get sample_setup os (env_run sample_setup os h) "PREFIX" = Ok (PStr "from_process") /\
  env_get sample_setup os (env_run sample_setup os h) "MODE" = Ok (PStr "raw").
Proof. exact env_case. Qed.
(** The default coordinate system cannot be set. *)
Theorem C55_coordsys_refuted : forall v, env_get sample_setup (fun _ => None)
  (env_run sample_setup (fun _ => None) [ESet "DEFAULT_COORDSYS" v]) "DEFAULT_COORDSYS" = Ok (POther 3).
Proof. reflexivity. Qed.
Print Assumptions C55_coordsys_refuted.
(** The text ["use_env"] is not taken as a value. *)
Theorem C55_sentinel_refuted : env_get sample_setup (fun _ => None)
  (env_run sample_setup (fun _ => None) [ESet "PREFIX" (PStr "use_env")]) "PREFIX" = Ok (PStr "ocgis_output").
Proof. reflexivity. Qed.
Print Assumptions C55_sentinel_refuted.
(** A parameter fixed at start ignores the process environment afterwards. *)
Theorem C55_fixed_refuted : exists p os, In p (su_table sample_setup) /\ Unset [] (ep_name p) /\
  env_get sample_setup os (env_run sample_setup (fun _ => None) []) (ep_name p) = Ok (PBool true) /\ from_process os p = Ok (PBool false).
Proof. exact fixed_parameter. Qed.
Print Assumptions C55_fixed_refuted.

(** ** C60.  Padded integers, as lists of character codes. *)

Theorem C60_identify : forall n w, 0 <= n < 10 ^ w -> 1 <= w ->
  let s := create_zero_padded_integer n w in zlen s = w /\ Forall Digit s /\ denotes s = n.
Proof. exact padded. Qed.
Print Assumptions C60_identify.
Theorem C60_order : forall a b w, 0 <= a < 10 ^ w -> 0 <= b < 10 ^ w -> 1 <= w ->
  (TextLt (create_zero_padded_integer a w) (create_zero_padded_integer b w) <-> a < b) /\
  (create_zero_padded_integer a w = create_zero_padded_integer b w <-> a = b).
Proof. exact padded_order. Qed.
Print Assumptions C60_order.
Theorem C60_wide : forall n w, 1 <= w -> 10 ^ w <= n ->
  let s := create_zero_padded_integer n w in w < zlen s /\ Forall Digit s /\ denotes s = n.
Proof. exact padded_wide. Qed.
Print Assumptions C60_wide.
Example C60_case : create_zero_padded_integer 42 5 = [48; 48; 48; 52; 50] /\ create_zero_padded_integer 123 2 = [49; 50; 51] /\
  TextLt (create_zero_padded_integer 9 3) (create_zero_padded_integer 10 3).
Proof. split; [reflexivity|split; [reflexivity|]]. vm_compute. apply text_same. apply text_less. reflexivity. Qed.
(** Negative integers are out of range: zeros are put before the sign. *)
Example C60_negative_case : create_zero_padded_integer (-1) 3 = [48; 45; 49] /\
  TextLt (create_zero_padded_integer (-1) 3) (create_zero_padded_integer (-2) 3).
Proof. split; [reflexivity|]. vm_compute. apply text_same. apply text_same. apply text_less. reflexivity. Qed.
