(** Properties of variable collections, their tags, and names (C36, C37, C59). *)
From Verif Require Import Py CollModel CollSpec CollReachProofs CollTagProofs CollEffectProofs CollWitness.
Local Open Scope string_scope.
Local Open Scope Z_scope.

(** C36: after every history, every collection in use is consistent.  Missing:
    forced additions, collections whose variables were moved away, names that are
    taken, dimensions shared with a copy, and constructors that raised ValueError;
    for these it is false (below). *)
Theorem C36_consistent_partial : forall h L c, Reach h L -> In c L -> Consistent h c.
Proof. exact reach_consistent. Qed.
Print Assumptions C36_consistent_partial.
Example C36_case : Reach s8 [9; 6; 0] /\ Listed s8 0 "temp" 2 /\ Listed s8 0 "tb" 4 /\ Registered s8 0 "bnds" 5.
Proof. split; [exact r8|]. vm_compute. auto. Qed.

(** Adding a variable brings the whole of its collection along and nothing else
    changes. *)
Theorem C36_add_partial : forall h L c s k v h',
  Reach h L -> In c L -> In s L -> c <> s -> Listed h s k v -> Apart h c s -> add_variable c v false h = (h', Ok tt) ->
  c_vars (h_coll h' c) = (c_vars (h_coll h c) ++ c_vars (h_coll h s))%list
  /\ (forall n w, Listed h s n w -> SameIn c h w h' w)
  /\ (forall n w, Listed h c n w -> h_var h' w = h_var h w)
  /\ (forall n d, Registered h c n d -> Registered h' c n d)
  /\ (forall t, In t L -> t <> c -> t <> s -> Unchanged h h' t).
Proof. exact add_effect. Qed.
Print Assumptions C36_add_partial.
Example C36_add_case : Reach s4 [3; 0] /\ Listed s4 3 "tb" 4 /\ Apart s4 0 3 /\ snd (add_variable 0 4 false s4) = Ok tt.
Proof. split; [exact r4|]. split; [vm_compute; auto|]. split; [exact apart4|vm_compute; reflexivity]. Qed.

(** If it is refused, the variables are as before. *)
Theorem C36_add_refused_partial : forall h L c s k v h' e,
  Reach h L -> In c L -> In s L -> c <> s -> Listed h s k v -> Apart h c s -> add_variable c v false h = (h', Err e) ->
  e = DimensionMismatchError /\ c_vars (h_coll h' c) = c_vars (h_coll h c) /\ h_var h' = h_var h
  /\ (forall n d, Registered h c n d -> Registered h' c n d)
  /\ (forall t, In t L -> t <> c -> Unchanged h h' t).
Proof. exact add_refused. Qed.
Print Assumptions C36_add_refused_partial.
(** It is refused when a dimension has another size. *)
Theorem C36_dimension_clash_partial : forall h L c s k v n d1 d2 force,
  force = false -> Reach h L -> In c L -> In s L -> Listed h s k v ->
  Registered h c n d1 -> Registered h s n d2 -> d_size (h_dim h d1) <> d_size (h_dim h d2) ->
  exists h', add_variable c v force h = (h', Err DimensionMismatchError) /\ c_vars (h_coll h' c) = c_vars (h_coll h c)
  /\ h_var h' = h_var h /\ Consistent h' c.
Proof. exact add_clash. Qed.
Print Assumptions C36_dimension_clash_partial.
Example C36_dimension_clash_case : Reach s8 [9; 6; 0] /\ Listed s8 6 "x" 7 /\ Registered s8 0 "time" 1 /\ Registered s8 6 "time" 8
  /\ d_size (h_dim s8 1) <> d_size (h_dim s8 8).
Proof. split; [exact r8|]. vm_compute. intuition discriminate. Qed.
(** It is refused when a name is taken, and the collection stays in order. *)
Theorem C36_name_clash_partial : forall h L c s k v n w1 w2,
  Reach h L -> In c L -> In s L -> c <> s -> Listed h s k v -> Listed h c n w1 -> Listed h s n w2 ->
  exists h' e, add_variable c v false h = (h', Err e) /\ (e = DimensionMismatchError \/ e = VariableInCollectionError)
  /\ Consistent h' c /\ (forall m w, Listed h c m w -> Listed h' c m w /\ h_var h' w = h_var h w).
Proof. exact add_name_clash. Qed.
Print Assumptions C36_name_clash_partial.
Example C36_name_clash_case : Reach s8 [9; 6; 0] /\ Listed s8 9 "temp" 10 /\ Listed s8 0 "temp" 2.
Proof. split; [exact r8|]. vm_compute. auto. Qed.

(** Extracting gives a collection of its own with the variable, its bounds if
    asked for, and exactly their dimensions; nothing else changes. *)
Theorem C36_extract_partial : forall h L c k v keep_bounds,
  Reach h L -> In c L -> Listed h c k v -> (keep_bounds = true -> BoundsFound h c v) ->
  exists h' x r, extract v keep_bounds false h = (h', Ok r) /\ (forall t, In t L -> Unchanged h h' t) /\ Taken h c v keep_bounds h' x r.
Proof. exact extract_effect. Qed.
Print Assumptions C36_extract_partial.
Example C36_extract_case : Reach s6 [0] /\ Listed s6 0 "temp" 2 /\ BoundsFound s6 0 2 /\ v_bounds (h_var s6 2) = Some "tb".
Proof. split; [exact r6|]. split; [vm_compute; auto|]. split; [apply clean_bounds|vm_compute; reflexivity]. Qed.

(** Removing gives the same, takes exactly these names out of the collection, and
    drops the dimensions only they used. *)
Theorem C36_remove_partial : forall h L c name v remove_bounds,
  Reach h L -> In c L -> Listed h c name v -> (remove_bounds = true -> BoundsFound h c v) ->
  (remove_bounds = true -> v_bounds (h_var h v) <> Some name) ->
  exists h' x r, remove_variable c name remove_bounds h = (h', Ok r)
  /\ Taken h c v remove_bounds h' x r
  /\ (forall n w, Listed h' c n w <-> Listed h c n w /\ ~ In n (with_bounds_name (h_var h v) remove_bounds))
  /\ (forall n w, Listed h' c n w -> h_var h' w = h_var h w)
  /\ (forall n d, Registered h' c n d <-> Registered h c n d /\
        ~ ((exists k w, Listed h c k w /\ In k (with_bounds_name (h_var h v) remove_bounds) /\ Uses h w n)
           /\ forall k w, Listed h' c k w -> ~ Uses h' w n))
  /\ (forall t, In t L -> t <> c -> Unchanged h h' t).
Proof. exact remove_effect. Qed.
Print Assumptions C36_remove_partial.

(** Renaming a variable or a dimension to a new name. *)
Theorem C36_rename_partial : forall h L c k v name,
  Reach h L -> In c L -> Listed h c k v -> (forall w, ~ Listed h c name w) ->
  exists h', set_name v name h = (h', Ok tt)
  /\ (forall n w, Listed h' c n w <-> (Listed h c n w /\ n <> k) \/ (n = name /\ w = v))
  /\ h_dim h' = h_dim h /\ c_dims (h_coll h' c) = c_dims (h_coll h c)
  /\ (forall n w, Listed h c n w -> n <> k -> h_var h' w = h_var h w)
  /\ (forall t, In t L -> t <> c -> Unchanged h h' t).
Proof. exact rename_effect. Qed.
Print Assumptions C36_rename_partial.
Theorem C36_rename_dimension_partial : forall h L c old new d,
  Reach h L -> In c L -> Registered h c old d -> (forall e, ~ Registered h c new e) ->
  exists h', rename_dimension c old new h = (h', Ok tt)
  /\ (forall n e, Registered h' c n e <-> (Registered h c n e /\ n <> old) \/ (n = new /\ e = d))
  /\ d_name (h_dim h' d) = new /\ d_size (h_dim h' d) = d_size (h_dim h d)
  /\ c_vars (h_coll h' c) = c_vars (h_coll h c)
  /\ (forall k v, Listed h c k v ->
        v_dims (h_var h' v) = option_map (renamed old new) (v_dims (h_var h v)) /\ v_value (h_var h' v) = v_value (h_var h v)).
Proof. exact rename_dim_effect. Qed.
Print Assumptions C36_rename_dimension_partial.
Example C36_rename_case : Listed s6 0 "temp" 2 /\ (forall w, ~ Listed s6 0 "t2" w) /\ Registered s6 0 "time" 1 /\ (forall e, ~ Registered s6 0 "t" e).
Proof. split; [vm_compute; auto|]. split; [absent|]. split; [vm_compute; auto|absent]. Qed.

(** Adding a variable a collection has already raises and takes its parent away. *)
Theorem C36_own_variable_refuted : Consistent (crun two) 0 /\ snd (add_variable 0 2 false (crun two)) = Err VariableInCollectionError
  /\ ~ Consistent (crun (two ++ [CAddVariable 0 2 false])%list) 0.
Proof. exact (conj two_fine own_variable). Qed.
Print Assumptions C36_own_variable_refuted.
(** Renaming to a name that is taken silently drops the other variable. *)
Theorem C36_rename_taken_refuted : Listed (crun two) 0 "wind" 4 /\ snd (set_name 2 "wind" (crun two)) = Ok tt
  /\ forall k, ~ Listed (crun (two ++ [CSetName 2 "wind"])%list) 0 k 4.
Proof. exact rename_drops. Qed.
Print Assumptions C36_rename_taken_refuted.
(** A constructor that raises for a value of the wrong shape has entered the
    variable in its parent. *)
Theorem C36_failed_constructor_refuted :
  snd (new_variable "bad" (Some [7]) (Some [DObj 1]) (Some 0) (crun two)) = Err ValueError
  /\ ~ Consistent (crun (two ++ [CNewVariable "bad" (Some [7]) (Some [DObj 1]) (Some 0)])%list) 0.
Proof. exact constructor_left. Qed.
Print Assumptions C36_failed_constructor_refuted.
(** Renaming a dimension to a name that is taken replaces the other dimension. *)
Theorem C36_rename_dimension_taken_refuted : snd (rename_dimension 0 "time" "level" (crun two)) = Ok tt
  /\ ~ Consistent (crun (two ++ [CRenameDimension 0 "time" "level"])%list) 0.
Proof. exact dim_overwritten. Qed.
Print Assumptions C36_rename_dimension_taken_refuted.
(** A dimension renamed in a copy is renamed in the original too. *)
Theorem C36_copy_shares_refuted : snd (copy_coll 0 (crun two)) = Ok 5
  /\ ~ Consistent (crun (two ++ [CCopy 0; CRenameDimension 5 "time" "t"])%list) 0.
Proof. exact copy_shares. Qed.
Print Assumptions C36_copy_shares_refuted.
(** A forced dimension need not fit the variables. *)
Theorem C36_forced_refuted : ~ Consistent (crun (two ++ [CNewDim (mkdim "time" (Some 9) None None); CAddDimension 0 5 true true])%list) 0.
Proof. exact forced_dim. Qed.
Print Assumptions C36_forced_refuted.
(** The collection a variable came from still lists it. *)
Theorem C36_source_refuted :
  snd (add_variable 0 6 false (crun (two ++ [CNewVariable "b" None None None])%list)) = Ok tt
  /\ Listed (crun moved) 5 "b" 6 /\ Listed (crun moved) 0 "b" 6 /\ ~ Consistent (crun moved) 5.
Proof. exact source_left. Qed.
Print Assumptions C36_source_refuted.
(** An addition refused for a taken name may have moved some of the variables. *)
Theorem C36_half_moved_refuted :
  snd (add_variable 0 6 false (crun (two ++ [CNewVariable "b" None None None; CNewVariable "temp" None None (Some 5)])%list)) = Err VariableInCollectionError
  /\ Listed (crun half) 0 "b" 6 /\ Listed (crun half) 5 "b" 6 /\ ~ Consistent (crun half) 5.
Proof. exact half_moved. Qed.
Print Assumptions C36_half_moved_refuted.
(** A clean extraction of a variable with its bounds raises. *)
Theorem C36_clean_extract_refuted : Reach s6 [0] /\ Listed s6 0 "temp" 2 /\ BoundsFound s6 0 2 /\ snd (extract 2 true true s6) = Err KeyError.
Proof. exact (conj r6 clean_bounds). Qed.
Print Assumptions C36_clean_extract_refuted.
(** Without its bounds, their dimension stays registered where nothing uses it. *)
Theorem C36_clean_extract_dimension_refuted : exists h' r x,
  extract 2 false true s6 = (h', Ok r) /\ v_parent (h_var h' r) = Some x
  /\ (exists d, Registered h' x "bnds" d) /\ forall k w, Listed h' x k w -> ~ Uses h' w "bnds".
Proof. exact clean_keeps_dim. Qed.
Print Assumptions C36_clean_extract_dimension_refuted.
(** Renaming a bounds variable loses it. *)
Theorem C36_renamed_bounds_refuted : BoundsFound s6 0 2 /\ snd (set_name 4 "edges" s6) = Ok tt /\ ~ BoundsFound (fst (set_name 4 "edges" s6)) 0 2
  /\ snd (extract 2 true false (fst (set_name 4 "edges" s6))) = Err KeyError.
Proof. exact stale_bounds. Qed.
Print Assumptions C36_renamed_bounds_refuted.

(** C37: whatever was done before, forced or refused, a tag is there once and has
    no name twice. *)
Theorem C37_once : forall ops c tag names, Tagged (crun ops) c tag names ->
  NoDup names /\ forall names', Tagged (crun ops) c tag names' -> names' = names.
Proof. exact tags_once. Qed.
Print Assumptions C37_once.
(** Names are appended all or not at all. *)
Theorem C37_append : forall ops c tag names create old, Tagged (crun ops) c tag old ->
  (NoDup (old ++ names)%list -> exists h', append_to_tags c tag names create (crun ops) = (h', Ok tt) /\ Tagged h' c tag (old ++ names)%list)
  /\ (~ NoDup (old ++ names)%list -> append_to_tags c tag names create (crun ops) = (crun ops, Err ValueError)).
Proof. exact history_append. Qed.
Print Assumptions C37_append.
(** The tagged variables that are there, in order; all of them if strict. *)
Theorem C37_get : forall ops c tag create names, Tagged (crun ops) c tag names ->
  exists vs, get_by_tag c tag create false (crun ops) = (crun ops, Ok vs) /\ Present (c_vars (h_coll (crun ops) c)) names vs.
Proof. exact history_lenient. Qed.
Print Assumptions C37_get.
Theorem C37_get_strict : forall ops c tag create names, Tagged (crun ops) c tag names ->
  (exists vs, get_by_tag c tag create true (crun ops) = (crun ops, Ok vs) /\ Forall2 (fun n v => Listed (crun ops) c n v) names vs)
  \/ (get_by_tag c tag create true (crun ops) = (crun ops, Err KeyError) /\ exists n, In n names /\ forall v, ~ Listed (crun ops) c n v).
Proof. exact history_strict. Qed.
Print Assumptions C37_get_strict.
Example C37_case : Tagged (crun (two ++ [CAppendTag 0 "data" ["wind"; "gone"; "temp"] true])%list) 0 "data" ["wind"; "gone"; "temp"]
  /\ snd (get_by_tag 0 "data" false false (crun (two ++ [CAppendTag 0 "data" ["wind"; "gone"; "temp"] true])%list)) = Ok [4; 2]
  /\ snd (append_to_tags 0 "data" ["other"; "wind"] true (crun (two ++ [CAppendTag 0 "data" ["wind"; "gone"; "temp"] true])%list)) = Err ValueError.
Proof. split; [vm_compute; auto|]. split; vm_compute; reflexivity. Qed.
(** A removed variable, with its bounds if asked for, leaves every tag, and
    nothing else does.  Missing: collections that are not consistent (above). *)
Theorem C37_removed_partial : forall h L c name remove_bounds h' r,
  Reach h L -> In c L -> remove_variable c name remove_bounds h = (h', Ok r) ->
  exists v, Listed h c name v /\
    (forall tag names, Tagged h c tag names -> Tagged h' c tag (minus names (with_bounds_name (h_var h v) remove_bounds)))
    /\ (forall tag names, Tagged h' c tag names ->
          exists names0, Tagged h c tag names0 /\ names = minus names0 (with_bounds_name (h_var h v) remove_bounds)).
Proof. exact remove_tags. Qed.
Print Assumptions C37_removed_partial.
Example C37_removed_case : Reach s6 [0] /\ Tagged s6 0 "data" ["temp"; "tb"] /\ (exists r, snd (remove_variable 0 "temp" true s6) = Ok r)
  /\ Tagged (fst (remove_variable 0 "temp" false s6)) 0 "data" ["tb"].
Proof. split; [exact r6|]. split; [vm_compute; auto|]. split; [eexists; vm_compute; reflexivity|vm_compute; auto]. Qed.
(** A renamed variable is still there, but its tag no longer finds it. *)
Theorem C37_renamed_refuted : get_by_tag 0 "data" false false s6 = (s6, Ok [2; 4])
  /\ snd (get_by_tag 0 "data" false false (fst (set_name 2 "t2" s6))) = Ok [4]
  /\ Listed (fst (set_name 2 "t2" s6)) 0 "t2" 2.
Proof. exact tag_stale. Qed.
Print Assumptions C37_renamed_refuted.
(** Bounds that are dropped leave the collection but not the tag. *)
Theorem C37_dropped_bounds_refuted : snd (set_bounds 2 None false s6) = Ok tt /\ (forall w, ~ Listed (fst (set_bounds 2 None false s6)) 0 "tb" w)
  /\ Tagged (fst (set_bounds 2 None false s6)) 0 "data" ["temp"; "tb"].
Proof. exact tag_kept. Qed.
Print Assumptions C37_dropped_bounds_refuted.

(** C59: however often an object is renamed and given aliases, its source name is
    its first name (or the one it was given), its name the last, and among its
    aliases. *)
Theorem C59_names : forall name aliases source ops,
  let x := fold_left nstep ops (named_new name aliases source) in
  source_name x = Some (match source with Some s => s | None => name end)
  /\ nm_name x = Some (current name ops) /\ is_matched_by_alias x (current name ops) = true.
Proof. exact history. Qed.
Print Assumptions C59_names.
Example C59_case : let x := fold_left nstep [NSet "b" ["q"]; NAlias "z"; NSet "c" []] (named_new "a" [] None) in
  source_name x = Some "a" /\ nm_name x = Some "c" /\ is_matched_by_alias x "z" = false.
Proof. vm_compute. auto. Qed.
