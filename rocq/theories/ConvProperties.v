(** C67 Writing tables, C68 Empty collections, C69 Reading tables. *)
From Verif Require Import Py ConvModel ConvSpec ConvProofs ConvWitness.
From Coq Require Import Permutation.
Local Open Scope string_scope.
Local Open Scope Z_scope.

(** C67.  If the rows of all fields have the same columns in the same order and
    the first collection that is not empty holds one field, then the CSV file
    holds these columns and, read by column, all the records due: those of
    every collection that is not empty, in order. *)
Theorem C67_csv_partial : forall cs rs cols overwrite existing, Due cs rs -> Filled cs -> FirstSingle cs ->
  HaveColumns cols rs -> NoDup cols -> existing = None \/ overwrite = true ->
  exists file, convert csv_main overwrite existing cs = Ok (Some file) /\ hd_error file = Some cols /\ csv_records file = rs.
Proof. exact csv_written. Qed.
Print Assumptions C67_csv_partial.

(** The same for shapefiles, if the first ten characters of the column names
    differ. *)
Theorem C67_shapefile_partial : forall cs rs cols overwrite existing, Due cs rs -> Filled cs -> FirstSingle cs ->
  HaveColumns cols rs -> NoDup (map ten cols) -> existing = None \/ overwrite = true ->
  convert shapefile_main overwrite existing cs = Ok (Some (mkvfile (map ten cols) (map (renamed ten) rs))).
Proof. exact shapefile_written. Qed.
Print Assumptions C67_shapefile_partial.

Example C67_case : Due w_run w_due /\ Filled w_run /\ FirstSingle w_run /\ HaveColumns ["TIME"; "TAS"] w_due /\
  NoDup ["TIME"; "TAS"] /\ NoDup (map ten ["TIME"; "TAS"]) /\ length w_due = 7%nat.
Proof.
  exact (conj w_run_due (conj w_run_filled (conj w_run_first (conj w_run_columns (conj w_cols_nodup (conj w_cols_nodup eq_refl)))))).
Qed.

(** GeoJSON: one collection with one field, written by one rank. *)
Theorem C67_geojson_partial : forall cs c t p cols overwrite existing, Due cs (records_of c) -> Filled cs ->
  LastField cs t -> fields_of c = [t] -> pt_parts t = [p] -> HaveColumns cols p -> existing = None \/ overwrite = true ->
  convert geojson_main overwrite existing cs = Ok (Some (mkvfile cols (records_of c))).
Proof. exact geojson_single. Qed.
Print Assumptions C67_geojson_partial.

Example C67_geojson_case : Due [w_coll [w_s]] (records_of (w_coll [w_s])) /\ Filled [w_coll [w_s]] /\
  LastField [w_coll [w_s]] w_s /\ HaveColumns ["TIME"; "TAS"] (concat (pt_parts w_s)).
Proof.
  split; [|split; [|split]].
  - apply (DWhole (w_coll [w_s]) [] []); [apply w_whole; repeat constructor|constructor].
  - intros c t [<-|[]] [<-|[]] E. split; [discriminate|]. repeat constructor; discriminate.
  - apply (LHere _ _ []); [apply w_whole; repeat constructor|reflexivity|constructor].
  - repeat constructor.
Qed.

(** An existing file is not touched unless it may be overwritten. *)
Theorem C67_exists : forall X (main : wmode -> option X -> ptable -> res (option X)) x cs,
  convert main false (Some x) cs = Err IOError.
Proof. exact @convert_exists. Qed.
Print Assumptions C67_exists.

(** Refuted: of the first collection only the last field reaches the file. *)
Theorem C67_first_refuted :
  (forall c cs l t cols overwrite existing, fields_of c = (l ++ [t])%list -> Forall Whole (c :: cs) -> Filled (c :: cs) ->
     HaveColumns cols (concat (map records_of (c :: cs))) -> NoDup cols -> existing = None \/ overwrite = true ->
     exists file, convert csv_main overwrite existing (c :: cs) = Ok (Some file) /\
       csv_records file = (concat (pt_parts t) ++ concat (map records_of cs))%list) /\
  exists cs, Forall Whole cs /\ Filled cs /\ HaveColumns ["TIME"; "TAS"] (concat (map records_of cs)) /\
    exists r, In r (concat (map records_of cs)) /\
      forall file, convert csv_main false None cs = Ok (Some file) -> ~ In r (csv_records file).
Proof.
  split; [exact csv_lost|]. exists w_run2.
  split; [exact w_run2_whole|]. split; [exact w_run2_filled|]. split; [exact w_run2_columns|].
  exists (w_row "1" "10"). split; [left; reflexivity|].
  intros file E. vm_compute in E. injection E as <-. vm_compute. intuition discriminate.
Qed.
Print Assumptions C67_first_refuted.

(** Refuted: a GeoJSON file ends up with the records of the last rank of the
    last field only. *)
Theorem C67_geojson_refuted :
  (forall cs rs cols t ps p overwrite existing, Due cs rs -> Filled cs -> HaveColumns cols rs ->
     LastField cs t -> pt_parts t = (ps ++ [p])%list -> existing = None \/ overwrite = true ->
     convert geojson_main overwrite existing cs = Ok (Some (mkvfile cols p))) /\
  Due w_run w_due /\ Filled w_run /\ HaveColumns ["TIME"; "TAS"] w_due /\ LastField w_run w_s /\
  length w_due = 7%nat /\ pt_parts w_s = [[w_row "6" "60"; w_row "7" "70"]].
Proof.
  exact (conj geojson_last (conj w_run_due (conj w_run_filled (conj w_run_columns (conj w_run_last (conj eq_refl eq_refl)))))).
Qed.
Print Assumptions C67_geojson_refuted.

(** Refuted: if there is nothing to write, a file that may be overwritten stays
    as it was. *)
Theorem C67_stale_refuted :
  (forall X (main : wmode -> option X -> ptable -> res (option X)) x cs, Forall Void cs ->
     convert main true (Some x) cs = Ok (Some x)) /\ Forall Void [w_coll [w_gone]].
Proof. exact (conj (@convert_stale) (Forall_cons _ w_void (Forall_nil _))). Qed.
Print Assumptions C67_stale_refuted.

(** Refuted: a collection whose last field is empty is left out, whatever its
    other fields hold. *)
Theorem C67_skipped_refuted :
  (forall X (main : wmode -> option X -> ptable -> res (option X)) overwrite existing c cs ks k fs t,
     co_flag c = None -> ~ In true (co_vars c) -> co_containers c = (ks ++ [k])%list ->
     ct_flag k = None -> ct_fields k = (fs ++ [t])%list -> pt_empty t = true ->
     convert main overwrite existing (c :: cs) = convert main overwrite existing cs) /\
  convert csv_main false None [w_coll [w_s]; w_coll [w_a; w_gone]] = convert csv_main false None [w_coll [w_s]] /\
  convert csv_main false None [w_coll [w_s]; w_coll [w_gone; w_a]] = Err EmptyObjectError /\
  pt_empty w_a = false /\ concat (pt_parts w_a) <> [].
Proof.
  split; [exact @last_skipped|]. split; [reflexivity|]. split; [reflexivity|]. split; [reflexivity|]. discriminate.
Qed.
Print Assumptions C67_skipped_refuted.

(** Refuted: a row with its columns in another order is written under the wrong
    names. *)
Theorem C67_columns_refuted : exists r file, In r (concat (map records_of w_mixed)) /\ In ("TAS", "11") r /\
  convert csv_main false None w_mixed = Ok (Some file) /\ length (csv_records file) = 2%nat /\
  (forall q, In q (csv_records file) -> ~ In ("TAS", "11") q) /\ exists q, In q (csv_records file) /\ In ("PR", "11") q.
Proof.
  eexists. exists [["TIME"; "TAS"; "PR"]; ["1"; "10"; "0"]; ["1"; "5"; "11"]].
  split; [right; left; reflexivity|]. split; [right; right; left; reflexivity|]. split; [reflexivity|].
  split; [reflexivity|]. split.
  - intros q [<-|[<-|[]]]; cbn; intuition discriminate.
  - eexists. split; [right; left; reflexivity|]. right. right. left. reflexivity.
Qed.
Print Assumptions C67_columns_refuted.

(** Refuted: of two columns with the same first ten characters a shapefile keeps
    the values of the second. *)
Theorem C67_names_refuted : exists r, In r (concat (map records_of w_long)) /\ NoDup (map fst r) /\ length r = 2%nat /\
  convert shapefile_main false None w_long = Ok (Some (mkvfile ["temperatur"] [[("temperatur", "20")]])).
Proof.
  eexists. split; [left; reflexivity|]. split; [|split; reflexivity].
  repeat constructor; cbn; intuition discriminate.
Qed.
Print Assumptions C67_names_refuted.

(** C68.  A collection without siblings in it is reported as empty exactly if
    something in it is. *)
Theorem C68_empty_partial : forall t, Chain t -> (tree_is_empty t = true <-> HasEmpty t).
Proof. exact tree_chain. Qed.
Print Assumptions C68_empty_partial.

Example C68_empty_case : Chain (VT None [false] [VT None [false; true] []]) /\ HasEmpty (VT None [false] [VT None [false; true] []]) /\
  ~ HasEmpty (VT None [false] [VT (Some false) [true] []]).
Proof.
  split; [|split].
  - apply CNode. apply CLeaf.
  - apply (HChild _ _ (VT None [false; true] [])); [left; reflexivity|]. apply HVar. right. left. reflexivity.
  - intros H. inversion H as [| v ch I | v ch c I E]; subst.
    + destruct I as [E|[]]. discriminate.
    + destruct I as [<-|[]]. inversion E.
Qed.

(** Refuted: of several children only the last counts, so an empty part goes
    unnoticed and the order of the children changes the answer. *)
Theorem C68_last_refuted :
  (forall vars l c, ~ In true vars -> tree_is_empty (VT None vars (l ++ [c])) = tree_is_empty c) /\
  exists a b, Permutation a b /\ HasEmpty (VT None [] a) /\ HasEmpty (VT None [] b) /\
    tree_is_empty (VT None [] a) = false /\ tree_is_empty (VT None [] b) = true.
Proof.
  split; [exact tree_last|]. exists [VT (Some true) [] []; VT (Some false) [] []], [VT (Some false) [] []; VT (Some true) [] []].
  split; [apply perm_swap|]. split; [|split; [|split; reflexivity]].
  - apply (HChild _ _ (VT (Some true) [] [])); [left; reflexivity|constructor].
  - apply (HChild _ _ (VT (Some true) [] [])); [right; left; reflexivity|constructor].
Qed.
Print Assumptions C68_last_refuted.

(** C69.  A rank that holds the rows from [lo] to [hi] reads these cells of a
    column, and ranks that hold all rows between them read the column. *)
Theorem C69_rows : forall f cols rows name l lo hi, f = cols :: rows -> NoDup cols ->
  Forall (fun r => length r = length cols) rows -> Column name (csv_records f) l -> 0 <= lo -> lo <= hi ->
  csv_read f name lo hi = Ok (firstn (Z.to_nat (hi - lo)) (skipn (Z.to_nat lo) l)).
Proof. exact csv_read_column. Qed.
Print Assumptions C69_rows.

Theorem C69_ranks : forall f cols rows name l bs, TableFile f cols rows -> Column name (csv_records f) l ->
  Tiles 0 (zlen rows) bs ->
  exists parts, map_res (fun b => csv_read f name (fst b) (snd b)) bs = Ok parts /\ concat parts = l.
Proof. exact read_whole. Qed.
Print Assumptions C69_ranks.

Theorem C69_unknown : forall f cols rows name lo hi, TableFile f cols rows -> ~ In name cols -> 0 <= lo -> lo < hi ->
  lo < zlen rows -> csv_read f name lo hi = Err KeyError.
Proof. exact read_unknown. Qed.
Print Assumptions C69_unknown.

(** What was written is read back, under the conditions of C67. *)
Theorem C69_roundtrip : forall cs rs cols overwrite existing name l bs, Due cs rs -> Filled cs -> FirstSingle cs ->
  HaveColumns cols rs -> NoDup cols -> existing = None \/ overwrite = true -> Column name rs l -> Tiles 0 (zlen rs) bs ->
  exists file parts, convert csv_main overwrite existing cs = Ok (Some file) /\ csv_metadata file = Ok (cols, zlen rs) /\
    map_res (fun b => csv_read file name (fst b) (snd b)) bs = Ok parts /\ concat parts = l.
Proof. exact csv_roundtrip. Qed.
Print Assumptions C69_roundtrip.

Example C69_case : Column "TAS" w_due ["10"; "20"; "30"; "40"; "50"; "60"; "70"] /\ Tiles 0 (zlen w_due) [(0, 3); (3, 3); (3, 7)] /\
  TableFile [["a"; "b"]; ["1"; "2"]; ["3"; "4"]] ["a"; "b"] [["1"; "2"]; ["3"; "4"]] /\ ~ In "c" ["a"; "b"].
Proof.
  split; [|split; [|split]].
  - unfold Column, w_due. repeat constructor; right; left; reflexivity.
  - apply TCons; [lia|]. apply TCons; [lia|]. apply TCons; [lia|]. apply TNil.
  - split; [reflexivity|]. split; [repeat constructor; cbn; intuition discriminate|]. repeat constructor.
  - cbn. intuition discriminate.
Qed.
