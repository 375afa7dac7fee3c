(** C41 and C63: record iteration (src/ocgis/variable/iterator.py,
    src/ocgis/variable/base.py). *)
From Verif Require Import Py Lib Spec PartitionModel NdModel NdSpec RecordModel RecordSpec RecordProofs RecordMeltProofs RecordVarProofs RecordWitness.
Local Open Scope string_scope.
Local Open Scope Z_scope.

(** One record for each element of the leading variable (for each unmasked one
    when masked elements are not allowed), in row-major order, holding for every
    variable its repeated entries and its value at the same coordinates. *)
Theorem C41_variables : forall A (v : rvar A) ws allow,
  GoodVar (r_var v) -> Forall (SharesDims v) ws -> ~ In (r_name v) (map r_name ws) ->
  exists idxs recs, iterate (new_iter v allow None None None true) (Some (map FVar ws)) None = Ok recs /\
    RowMajor (nv_shape (r_var v)) (fun idx => allow = true \/ masked (r_var v) idx = false) idxs /\
    Forall2 (fun idx r => exists ess, Forall2 (fun w e => VarCells v w idx e) (v :: ws) ess /\ DictOf (List.concat ess) r) idxs recs.
Proof. exact @variables_records. Qed.
Print Assumptions C41_variables.

Example C41_variables_case :
  GoodVar (r_var case_lead) /\ Forall (SharesDims case_lead) [case_place; case_other] /\ ~ In (r_name case_lead) (map r_name [case_place; case_other]) /\
  (do recs <- iterate (new_iter case_lead false None None None true) (Some (map FVar [case_place; case_other])) None; Ok (zlen recs, nth 3 recs [])) =
    Ok (5, [("did", FVal 8); ("tas", FVal 10); ("place", FVal 100); ("pr", FVal 1001)]).
Proof.
  split; [exact case_lead_good|]. split; [exact case_shares|]. split; [cbn; intuition discriminate|]. vm_compute. reflexivity.
Qed.

(** The same for any iterators, with their own formatters, repeated entries and
    treatment of masked values. *)
Theorem C41_records : forall A (lead : iter A) followers fs,
  Fresh lead -> Forall (Follows lead) fs -> match followers with None => [] | Some l => flat_map (follower_iters lead) l end = fs ->
  exists idxs recs, iterate lead followers None = Ok recs /\ RowMajor (i_shape lead) (fun idx => ~ LeftOut (lead :: fs) lead idx) idxs /\
    Forall2 (fun idx r => exists row, Row (lead :: fs) lead idx row /\ DictOf row r) idxs recs.
Proof. exact @iterate_rows. Qed.
Print Assumptions C41_records.

Example C41_records_case :
  let lead := new_iter case_lead false (Some "pr") None (Some (fun n v m => [(n, v); ("YEAR", FText "2000")])) false in
  let f := new_iter case_place false (Some "pr") None None true in
  Fresh lead /\ Forall (Follows lead) [f] /\
  (do recs <- iterate lead (Some [FIter f []]) None; Ok (nth 5 recs [])) =
    Ok [("did", FVal 7); ("tas", FVal 12); ("YEAR", FText "2000"); ("place", FVal 102)].
Proof.
  split; [apply new_fresh, case_lead_good|]. split; [apply Forall_cons; [|apply Forall_nil]|vm_compute; reflexivity].
  apply (shares_follows case_lead case_place); [exact case_lead_good|exact (Forall_inv case_shares)].
Qed.

(** The entries to be repeated that are handed to an iterator come first, then
    those the variable repeats itself. *)
Theorem C41_repeaters : forall A (v : rvar A) allow rep, GoodVar (r_var v) ->
  exists idxs recs, iterate (new_iter v allow None rep None true) None None = Ok recs /\
    RowMajor (nv_shape (r_var v)) (fun idx => allow = true \/ masked (r_var v) idx = false) idxs /\
    Forall2 (fun idx r => DictOf ((match rep with None => [] | Some l => l end ++ match r_repeat v with None => [] | Some r => r end) ++
      [(r_name v, if masked (r_var v) idx then FNone else FVal (nd_at (nv_value (r_var v)) idx))])%list r) idxs recs.
Proof. exact @lone_rows. Qed.
Print Assumptions C41_repeaters.

(** The same for the iterator a variable makes of itself. *)
Theorem C41_own_iterator : forall A (v : rvar A) allow rep it, GoodVar (r_var v) ->
  snd (get_iter v false allow None rep None true) = Ok it ->
  exists idxs recs, iterate it None None = Ok recs /\
    RowMajor (nv_shape (r_var v)) (fun idx => allow = true \/ masked (r_var v) idx = false) idxs /\
    Forall2 (fun idx r => NoDup (map fst r) /\ forall k x, In (k, x) r <->
      LastOf (match rep with None => [] | Some l => l end ++ match r_repeat v with None => [] | Some r => r end ++
              [(r_name v, if masked (r_var v) idx then FNone else FVal (nd_at (nv_value (r_var v)) idx))])%list k x) idxs recs.
Proof. exact @get_iter_rows. Qed.
Print Assumptions C41_own_iterator.

Example C41_repeaters_case :
  (do recs <- iterate (new_iter case_lead false None (Some [("gid", FVal 3)]) None true) None None; Ok (zlen recs, nth 1 recs [])) =
    Ok (5, [("gid", FVal 3); ("did", FVal 7); ("tas", FVal 1)]) /\
  (do it <- snd (get_iter case_lead false false None (Some [("gid", FVal 3)]) None true); do recs <- iterate it None None; Ok (nth 1 recs [])) =
    Ok [("gid", FVal 3); ("did", FVal 7); ("tas", FVal 1)].
Proof. vm_compute. auto. Qed.

(** Iterating a collection: the first variable leads, all others follow; the
    calculation key is left out. *)
Theorem C41_collection : forall A (v : rvar A) ws allow,
  GoodVar (r_var v) -> Forall (SharesDims v) ws -> ~ In (r_name v) (map r_name ws) ->
  exists idxs recs, collection_iter v ws None allow None false = Ok recs /\
    RowMajor (nv_shape (r_var v)) (fun idx => allow = true \/ masked (r_var v) idx = false) idxs /\
    Forall2 (fun idx r => exists ess, Forall2 (fun w e => VarCells v w idx e) (v :: ws) ess /\ NoDup (map fst r) /\
      forall k x, In (k, x) r <-> k <> "CALC_KEY" /\ LastOf (List.concat ess) k x) idxs recs.
Proof. exact @collection_rows. Qed.
Print Assumptions C41_collection.

Example C41_collection_case :
  (do recs <- collection_iter case_lead [case_place; case_other] None false None false; Ok (zlen recs, nth 3 recs [])) =
    Ok (5, [("did", FVal 8); ("tas", FVal 10); ("place", FVal 100); ("pr", FVal 1001)]).
Proof. vm_compute. reflexivity. Qed.

(** Melted iteration: one record for each element and melted variable, in that
    order, with the variable's name and value and the entries that are not melted
    variables, as long as the melted variables repeat the same names and there is
    another variable. *)
Theorem C41_melted_partial : forall A (v : rvar A) ws ms allow,
  GoodVar (r_var v) -> Forall (SharesDims v) ws -> ~ In (r_name v) (map r_name ws) ->
  ws <> [] -> NoDup (map r_name ms) -> incl ms (v :: ws) -> (forall m m' k, In m ms -> In m' ms -> repeats m k -> repeats m' k) ->
  exists idxs recs, iterate (new_iter v allow None None None true) (Some (map FVar ws)) (Some ms) = Ok (List.concat recs) /\
    RowMajor (nv_shape (r_var v)) (fun idx => allow = true \/ masked (r_var v) idx = false) idxs /\
    Forall2 (fun idx rs => exists ess, Forall2 (fun w e => VarCells v w idx e) (v :: ws) ess /\ Forall2 (MeltedRecord ms (List.concat ess)) ms rs) idxs recs.
Proof. exact @variables_melted. Qed.
Print Assumptions C41_melted_partial.

Example C41_melted_case :
  NoDup (map r_name [case_lead; case_other]) /\ incl [case_lead; case_other] [case_lead; case_place; case_other] /\
  (forall m m' k, In m [case_lead; case_other] -> In m' [case_lead; case_other] -> repeats m k -> repeats m' k) /\
  (do recs <- iterate (new_iter case_lead false None None None true) (Some (map FVar [case_place; case_other])) (Some [case_lead; case_other]);
   Ok (zlen recs, nth 6 recs [], nth 7 recs [])) =
    Ok (10, [("did", FVal 7); ("place", FVal 100); ("VARIABLE", FText "tas"); ("VALUE", FVal 10)],
            [("did", FVal 8); ("place", FVal 100); ("VARIABLE", FText "pr"); ("VALUE", FVal 1001)]).
Proof.
  split; [repeat (apply NoDup_cons; [cbn; intuition discriminate|]); apply NoDup_nil|].
  split; [intros x Hx; cbn in *; tauto|]. split; [intros m m' k [<-|[<-|[]]] [<-|[<-|[]]] H; exact H|]. vm_compute. reflexivity.
Qed.

(** A variable alone gives no melted record at all. *)
Theorem C41_melted_alone_refuted : exists (v : rvar Z),
  GoodVar (r_var v) /\ (exists idx, IndexOf (nv_shape (r_var v)) idx) /\
  collection_iter v [] (Some [v]) true None false = Ok [].
Proof.
  exists case_lead. split; [exact case_lead_good|]. split; [exists [0; 0]; repeat constructor; lia|]. vm_compute. reflexivity.
Qed.
Print Assumptions C41_melted_alone_refuted.

(** What one melted variable repeats stays in the records of the next ones: here
    the record of the second variable, which repeats nothing, carries the entry
    of the first one, in place of its own entry of the same name. *)
Theorem C41_melted_repeats_refuted : exists (v w u : rvar Z) recs,
  GoodVar (r_var v) /\ Forall (SharesDims v) [w; u] /\ r_repeat v = Some [("did", FVal 7)] /\ r_repeat w = None /\
  r_name u = "did" /\ nd_at (nv_value (r_var u)) [0] = 5 /\
  iterate (new_iter v true None None None true) (Some [FVar w; FVar u]) (Some [v; w]) = Ok recs /\
  nth 1 recs [] = [("did", FVal 7); ("VARIABLE", FText (r_name w)); ("VALUE", FVal 2)].
Proof.
  exists (mkrvar "a" (mknvar [("t", 1)] (mknd [1] (fun _ => 1)) None) (Some [("did", FVal 7)])),
         (mkrvar "b" (mknvar [("t", 1)] (mknd [1] (fun _ => 2)) None) None),
         (mkrvar "did" (mknvar [("t", 1)] (mknd [1] (fun _ => 5)) None) None).
  eexists. split; [good|]. split; [repeat (apply Forall_cons || apply Forall_nil); (split; [good|apply incl_refl])|].
  split; [reflexivity|]. split; [reflexivity|]. split; [reflexivity|]. split; [reflexivity|]. split; vm_compute; reflexivity.
Qed.
Print Assumptions C41_melted_repeats_refuted.

(** A follower that skips its masked elements under a leading variable that does
    not makes the iteration fail. *)
Theorem C41_mixed_masks_refuted : exists (lead f : iter Z),
  Fresh lead /\ Fresh f /\ i_dims f = i_dims lead /\ i_shape f = i_shape lead /\
  iterate lead (Some [FIter f []]) None = Err TypeError.
Proof.
  exists (new_iter case_lead true None None None true), (new_iter (mkrvar "b" (r_var case_lead) None) false None None None true).
  split; [apply new_fresh, case_lead_good|]. split; [apply new_fresh, case_lead_good|]. split; [reflexivity|]. split; [reflexivity|]. vm_compute. reflexivity.
Qed.
Print Assumptions C41_mixed_masks_refuted.

(** A follower with a dimension the leading variable does not have is refused, and
    so is melting when there is nothing to follow. *)
Theorem C41_refused : forall A (lead : iter A) followers melted f d,
  (In f (flat_map (follower_iters lead) followers) -> In d (i_dims f) -> ~ In d (i_dims lead) ->
   iterate lead (Some followers) melted = Err ValueError) /\
  (melted <> None -> iterate lead None melted = Err ValueError).
Proof.
  intros A lead followers melted f d. split; [exact (refused_follower lead followers melted f d)|].
  intros N. destruct melted; [reflexivity|congruence].
Qed.
Print Assumptions C41_refused.

Example C41_refused_case :
  let lead := new_iter case_place true None None None true in
  (exists f, In f (flat_map (follower_iters lead) [FVar case_other]) /\ In "time" (i_dims f)) /\ ~ In "time" (i_dims lead).
Proof. split; [eexists; split; [left; reflexivity|cbn; tauto]|cbn; intuition discriminate]. Qed.

(** Iterating a collection with a header map renames the mapped entries and keeps
    the others (without the calculation key). *)
Theorem C41_headers : forall A (r : list (entry A)) header_map,
  NoDup (map fst r) -> NoDup (map snd header_map) ->
  (forall k, In k (map fst r) -> In k (map snd header_map) -> In k (map fst header_map)) ->
  exists out, conform None (Some header_map) false false r = Ok (None, out) /\ NoDup (map fst out) /\
    forall k x, In (k, x) out <-> k <> "CALC_KEY" /\
      ((exists k0, In (k0, k) header_map /\ In (k0, x) r) \/ (~ In k (map fst header_map) /\ In (k, x) r)).
Proof. exact @conform_renames. Qed.
Print Assumptions C41_headers.

Example C41_headers_case :
  conform None (Some [("b", "B"); ("x", "X")]) false false [("a", FVal 1); ("b", FVal 2); ("CALC_KEY", FText "mean")] =
    Ok (None, [("B", FVal 2); ("a", FVal 1)]) /\
  NoDup (map fst [("a", FVal 1); ("b", FVal 2); ("CALC_KEY", FText "mean")]) /\ NoDup (map snd [("b", "B"); ("x", "X")]).
Proof.
  split; [reflexivity|]. split; cbn; repeat (apply NoDup_cons; [cbn; intuition discriminate|]); apply NoDup_nil.
Qed.

(** Asking a variable with bounds for its iterator without its bounds fails. *)
Theorem C41_bounds_refuted : forall A (v : rvar A) allow primary rep fmt clobber,
  snd (get_iter v true allow primary rep fmt clobber) = Err TypeError.
Proof. reflexivity. Qed.
Print Assumptions C41_bounds_refuted.

(** C63.  Making iterators leaves a variable without repeated entries as it
    was. *)
Theorem C63_unchanged_partial : forall A n (v : rvar A), r_repeat v = None -> after_iters n v = v.
Proof. exact @no_repeat_same. Qed.
Print Assumptions C63_unchanged_partial.

Example C63_unchanged_case : r_repeat case_place = None.
Proof. reflexivity. Qed.

(** A variable with repeated entries doubles them each time. *)
Theorem C63_doubled_refuted : forall A n (v : rvar A) r, r_repeat v = Some r ->
  exists r', r_repeat (after_iters n v) = Some r' /\ zlen r' = 2 ^ Z.of_nat n * zlen r.
Proof. exact @repeat_grows. Qed.
Print Assumptions C63_doubled_refuted.

Example C63_doubled_case : r_repeat (after_iters 1 case_lead) = Some [("did", FVal 7); ("did", FVal 7)].
Proof. reflexivity. Qed.
