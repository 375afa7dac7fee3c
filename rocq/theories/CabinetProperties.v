(** C70 and C71: the features selected from a vector file, and its variables. *)
From Verif Require Import Py Spec DimensionModel DimensionSpec CabinetModel CabinetSpec CabinetProofs.
Local Open Scope string_scope.
Local Open Scope Z_scope.

(** C70: without a selection every feature is returned, in order, with its
    properties and an identifier. *)
Theorem C70_all : forall f uid u add, Regular f -> Identifies f uid u add -> gf_features f <> [] ->
  exists rows, iter_geoms f uid None None None = Ok rows /\ Forall2 (Yields u add) (gf_features f) rows.
Proof. exact iter_all. Qed.
Print Assumptions C70_all.

(** C70: selecting identifiers returns the features that have them, in the order
    of the file; if there is none the selection is refused. *)
Theorem C70_select_partial : forall f uid u l fs, Regular f -> Identifies f uid u false -> l <> [] ->
  Sifted (Chosen u l) (gf_features f) fs ->
  match fs with
  | [] => iter_geoms f uid (Some l) None None = Err ValueError
  | _ => exists rows, iter_geoms f uid (Some l) None None = Ok rows /\ Forall2 (Yields u false) fs rows
  end.
Proof. exact iter_select. Qed.
Print Assumptions C70_select_partial.

(** C70: a WHERE clause returns the features that satisfy it, in order. *)
Theorem C70_where : forall f uid u add w fs, Regular f -> Identifies f uid u add ->
  Sifted (fun ft => w ft = true) (gf_features f) fs ->
  match fs with
  | [] => iter_geoms f uid None (Some w) None = Err ValueError
  | _ => exists rows, iter_geoms f uid None (Some w) None = Ok rows /\ Forall2 (Yields u add) fs rows
  end.
Proof. exact iter_where. Qed.
Print Assumptions C70_where.

(** C70: a slice returns what Python indexing selects from the features.
    Partial: only for the slices that are [SliceAsWritten]. *)
Theorem C70_slice_partial : forall f uid u add raw, Regular f -> Identifies f uid u add -> SliceAsWritten f raw ->
  exists fs, py_select (gf_features f) raw = Ok fs /\
  match fs with
  | [] => iter_geoms f uid None None (Some raw) = Err ValueError
  | _ => exists rows, iter_geoms f uid None None (Some raw) = Ok rows /\ Forall2 (Yields u add) fs rows
  end.
Proof. exact iter_slice. Qed.
Print Assumptions C70_slice_partial.

(** C70: a slice together with another selection is refused. *)
Theorem C70_together : forall f uid l w raw, (l <> None \/ w <> None) -> iter_geoms f uid l w (Some raw) = Err ValueError.
Proof. exact iter_together. Qed.
Print Assumptions C70_together.

(** C70: whatever was asked for, each feature that is returned has an integer
    identifier, under the name that was asked for. *)
Theorem C70_identifier : forall f uid sel cond slc rows, iter_geoms f uid sel cond slc = Ok rows ->
  exists u, (forall v, uid = Some v -> u = v) /\ (uid = None -> u = "UGID") /\
    Forall (fun r => rw_uid r = u /\ exists z, In (u, CInt z) (rw_props r)) rows.
Proof. exact iter_identifier. Qed.
Print Assumptions C70_identifier.

(** C70: an identifier that is not a column of the file is refused. *)
Theorem C70_unknown : forall f u sel cond, Regular f -> ~ In u (gf_columns f) ->
  (exists e, iter_geoms f (Some u) sel cond None = Err e) /\ forall l, iter_geoms f (Some u) (Some l) None None = Err RuntimeError.
Proof. exact iter_unknown. Qed.
Print Assumptions C70_unknown.

(** C70: the number of features announced is the number returned.  Partial:
    without a slice, and for identifiers that each belong to one feature. *)
Theorem C70_length_partial : forall f uid u add w rows, Regular f -> Identifies f uid u add ->
  iter_geoms f uid None w None = Ok rows -> cabinet_len f uid None w None = Ok (zlen rows).
Proof. exact iter_length. Qed.
Print Assumptions C70_length_partial.

Theorem C70_length_select_partial : forall f uid u l fs, Regular f -> OneEach f u l -> Sifted (Chosen u l) (gf_features f) fs ->
  cabinet_len f uid (Some l) None None = Ok (zlen fs).
Proof. exact len_select. Qed.
Print Assumptions C70_length_select_partial.

(** Five features with identifiers 10, 20, ..., and the same without them. *)
Definition case_feature (i : Z) : feature := mkfeature i [("UGID", CInt (10 * (i + 1))); ("height", CInt (i * i))].
Definition case_file : gfile := mkgfile false ["UGID"; "height"] (map case_feature [0; 1; 2; 3; 4]).
Definition case_bare (i : Z) : feature := mkfeature i [("height", CInt (i * i))].
Definition case_bare_file : gfile := mkgfile false ["height"] (map case_bare [0; 1; 2; 3; 4]).

Example C70_case :
  (Regular case_file /\ Numbered case_file /\ Identifies case_file None "UGID" false /\ Identifies case_file (Some "height") "height" false) /\
  (Regular case_bare_file /\ Numbered case_bare_file /\ Identifies case_bare_file None "UGID" true) /\
  Sifted (Chosen "UGID" [50; 20; 7]) (gf_features case_file) [case_feature 1; case_feature 4] /\
  Sifted (fun ft => Z.odd (ft_fid ft) = true) (gf_features case_file) [case_feature 1; case_feature 3] /\
  (SliceAsWritten case_file (RInts [4; 1; 3]) /\ SliceAsWritten case_file (RInts [2; 3]) /\ SliceAsWritten case_file (RSlice (slice_of 3 9))) /\
  OneEach case_file "UGID" [50; 20] /\
  iter_geoms case_file None (Some [50; 20; 7]) None None =
    Ok [mkrow "UGID" [("UGID", CInt 20); ("height", CInt 1)]; mkrow "UGID" [("UGID", CInt 50); ("height", CInt 16)]] /\
  iter_geoms case_bare_file None None None (Some (RInt 3)) = Ok [mkrow "UGID" [("height", CInt 9); ("UGID", CInt 3)]].
Proof.
  assert (Nu : forall g, (forall i, ft_fid (g i) = i) -> forall i ft, nth_error (map g [0; 1; 2; 3; 4]) i = Some ft -> ft_fid ft = Z.of_nat i).
  { intros g G i ft E. do 5 (destruct i as [|i]; [injection E as <-; rewrite G; reflexivity|]). destruct i; discriminate. }
  assert (Re : Regular case_file).
  { split; [repeat constructor; cbn; intuition discriminate|]. repeat constructor. }
  repeat match goal with |- _ /\ _ => split end; try reflexivity.
  - exact Re.
  - exact (Nu case_feature (fun _ => eq_refl)).
  - apply IdDefault. split; [left; reflexivity|]. repeat (apply Forall_cons || apply Forall_nil); eexists; left; reflexivity.
  - apply IdGiven. split; [right; left; reflexivity|]. repeat (apply Forall_cons || apply Forall_nil); eexists; right; left; reflexivity.
  - split; [repeat constructor; cbn; intuition discriminate|]. repeat constructor.
  - exact (Nu case_bare (fun _ => eq_refl)).
  - apply IdAdded. cbn. intuition discriminate.
  - cbn [gf_features case_file map].
    assert (D : forall z, ~ (z = 50 \/ z = 20 \/ z = 7) -> forall i, z = 10 * (i + 1) -> ~ Chosen "UGID" [50; 20; 7] (case_feature i)).
    { intros z H i Hz (w & Hw & [E|[E|[]]]); [|discriminate]. assert (w = 10 * (i + 1)) by congruence. subst w. rewrite <- Hz in Hw. cbn [In] in Hw. lia. }
    apply SiDrop; [exact (D 10 ltac:(lia) 0 eq_refl)|].
    apply SiKeep; [exists 20; split; [right; left; reflexivity|left; reflexivity]|].
    apply SiDrop; [exact (D 30 ltac:(lia) 2 eq_refl)|]. apply SiDrop; [exact (D 40 ltac:(lia) 3 eq_refl)|].
    apply SiKeep; [exists 50; split; left; reflexivity|]. apply SiNil.
  - cbn [gf_features case_file map]. apply SiDrop; [discriminate|]. apply SiKeep; [reflexivity|]. apply SiDrop; [discriminate|].
    apply SiKeep; [reflexivity|]. apply SiDrop; [discriminate|]. apply SiNil.
  - split; [repeat constructor; cbn; lia|]. left. split; [reflexivity|]. split; [exact (Nu case_feature (fun _ => eq_refl))|]. exists [4], 1, 3, []. split; [reflexivity|lia].
  - split; [repeat constructor; cbn; lia|]. right. exists 2, 4. split; [lia|reflexivity].
  - cbn. lia.
  - split; [repeat constructor; cbn; intuition discriminate|]. split; [|split; [repeat constructor; cbn; intuition discriminate|]].
    { repeat (apply Forall_cons || apply Forall_nil).
      - exists (case_feature 4). split; [cbn; tauto|left; reflexivity].
      - exists (case_feature 1). split; [cbn; tauto|left; reflexivity]. }
    intros z a b Ia Ib Ja Jb. cbn [gf_features case_file] in Ia, Ib. apply in_map_iff in Ia. apply in_map_iff in Ib.
    destruct Ia as (i & <- & _). destruct Ib as (j & <- & _). f_equal.
    destruct Ja as [E|[E|[]]]; [|discriminate]. destruct Jb as [E'|[E'|[]]]; [|discriminate]. assert (10 * (i + 1) = 10 * (j + 1)) by congruence. lia.
Qed.

(** C70 refuted: with a WHERE clause the identifiers asked for are ignored. *)
Theorem C70_both_refuted :
  (forall f uid l w, iter_geoms f uid (Some l) (Some w) None = iter_geoms f uid None (Some w) None) /\
  iter_geoms case_file None (Some [50]) (Some (fun ft => Z.odd (ft_fid ft))) None =
    Ok [mkrow "UGID" [("UGID", CInt 20); ("height", CInt 1)]; mkrow "UGID" [("UGID", CInt 40); ("height", CInt 9)]].
Proof. split; [exact iter_both|vm_compute; reflexivity]. Qed.
Print Assumptions C70_both_refuted.

(** C70 refuted: identifiers that were added to the output cannot be selected. *)
Theorem C70_added_refuted :
  (forall f l, ~ In "UGID" (gf_columns f) -> iter_geoms f None (Some l) None None = Err RuntimeError) /\
  (exists rows, iter_geoms case_bare_file None None None None = Ok rows /\
     Exists (fun r => In ("UGID", CInt 3) (rw_props r)) rows) /\
  iter_geoms case_bare_file None (Some [3]) None None = Err RuntimeError.
Proof.
  split; [exact iter_added|]. split; [|vm_compute; reflexivity].
  eexists. split; [vm_compute; reflexivity|]. do 3 apply Exists_cons_tl. apply Exists_cons_hd. right. left. reflexivity.
Qed.
Print Assumptions C70_added_refuted.

(** C70 refuted: a slice that stops before it starts returns everything from its
    start on instead of nothing. *)
Theorem C70_stop_refuted : forall f uid u add a b, Regular f -> Identifies f uid u add -> 0 <= a < zlen (gf_features f) -> b < a ->
  exists rows, iter_geoms f uid None None (Some (RSlice (slice_of a b))) = Ok rows /\
    Forall2 (Yields u add) (skipn (Z.to_nat a) (gf_features f)) rows.
Proof. exact iter_wrong_stop. Qed.
Print Assumptions C70_stop_refuted.

(** C70 refuted: a slice without a start raises. *)
Theorem C70_start_refuted : forall f uid b, gf_features f <> [] ->
  iter_geoms f uid None None (Some (RSlice (mkslice None b))) = Err TypeError.
Proof. exact iter_no_start. Qed.
Print Assumptions C70_start_refuted.

(** C70 refuted: the features returned, by their identifiers, for further slices:
    a decreasing index array returns the range between its ends; a mask returns
    the features 1 and 0; a negative index is not counted from the end. *)
Definition ids (r : res (list row)) : res (list (option cell)) :=
  do rows <- r; Ok (map (fun r => dget String.eqb (rw_props r) "UGID") rows).
Theorem C70_array_refuted :
  ids (iter_geoms case_file None None None (Some (RInts [3; 1]))) = Ok [Some (CInt 20); Some (CInt 30); Some (CInt 40)] /\
  ids (iter_geoms case_file None None None (Some (RInts [1; 1]))) = Ok [Some (CInt 20)] /\
  ids (iter_geoms case_file None None None (Some (RBools [false; false; true; false; true]))) =
    Ok [Some (CInt 10); Some (CInt 10); Some (CInt 20); Some (CInt 10); Some (CInt 20)] /\
  ids (iter_geoms case_file None None None (Some (RInt (-2)))) =
    Ok [Some (CInt 10); Some (CInt 20); Some (CInt 30); Some (CInt 40); Some (CInt 50)].
Proof. vm_compute. repeat split. Qed.
Print Assumptions C70_array_refuted.

(** C70 refuted: the number announced for a slice raises, and for identifiers it
    counts what was asked for. *)
Theorem C70_length_refuted :
  (forall f uid a b, cabinet_len f uid None None (Some (RSlice (mkslice a b))) = Err TypeError) /\
  cabinet_len case_file None (Some [50; 20; 7]) None None = Ok 3 /\
  ids (iter_geoms case_file None (Some [50; 20; 7]) None None) = Ok [Some (CInt 20); Some (CInt 50)].
Proof. split; [reflexivity|vm_compute; split; reflexivity]. Qed.
Print Assumptions C70_length_refuted.

(** C71: a variable of a vector file holds, in the order of its dimension, the
    values of the features the source index of the dimension stands for.
    Partial: source indices that are [SourceAsWritten]. *)
Theorem C71_value_partial : forall f u add s name, Regular f -> Identifies f None u add -> SourceAsWritten f s -> In name (gf_columns f) ->
  exists cells, vector_value f (zlen (den s)) (Some s) name = Ok cells /\
    Forall2 (fun i c => exists ft, nth_error (gf_features f) (Z.to_nat i) = Some ft /\ In (name, c) (ft_props ft)) (den s) cells.
Proof. exact vector_value_spec. Qed.
Print Assumptions C71_value_partial.

(** C71: after any history of slices of the dimension, each in range for what is
    left, the variable holds what the same slices select from the features.
    Partial: [InRange] slices (increasing index arrays). *)
Theorem C71_history_partial : forall f u add d raws name, Regular f -> Numbered f -> gf_gdb f = false -> Identifies f None u add -> In name (gf_columns f) ->
  dim_len d = zlen (gf_features f) -> d_src d = Some (SrcBounds 0 (zlen (gf_features f))) ->
  InRangeSeq (zrange 0 (zlen (gf_features f))) raws ->
  exists d' fs, fold_res dim_getitem raws d = Ok d' /\ fold_res py_select raws (gf_features f) = Ok fs /\
    (fs <> [] -> exists cells, vector_value f (dim_len d') (d_src d') name = Ok cells /\
       Forall2 (fun ft c => In (name, c) (ft_props ft)) fs cells).
Proof. exact value_of_history. Qed.
Print Assumptions C71_history_partial.

Definition case_dim : dim := mkdim "geom" (Some 5) (Some 5) (Some (SrcBounds 0 5)) false false None None.
Definition case_read (raws : list rawslc) : res (list cell) :=
  do d <- fold_res dim_getitem raws case_dim; vector_value case_file (dim_len d) (d_src d) "height".

Example C71_case :
  SourceAsWritten case_file (SrcFancy [4; 1; 3]) /\ SourceAsWritten case_file (SrcBounds 1 4) /\
  dim_len case_dim = zlen (gf_features case_file) /\
  InRangeSeq (zrange 0 5) [RInts [0; 2; 3; 4]; RBools [true; true; false; true]; RSlice (slice_of 1 3)] /\
  case_read [RInts [0; 2; 3; 4]; RBools [true; true; false; true]; RSlice (slice_of 1 3)] = Ok [CInt 4; CInt 16].
Proof.
  split; [|split; [cbn; lia|split; [reflexivity|split; [|vm_compute; reflexivity]]]].
  - split; [repeat constructor; cbn; lia|]. left. split; [reflexivity|]. split; [exact (proj1 (proj2 (proj1 C70_case)))|].
    exists [4], 1, 3, []. split; [reflexivity|lia].
  - split; [reflexivity|]. split.
    { split; [discriminate|]. split; [cbn; lia|]. repeat constructor; cbn; lia. }
    intros l1 E1. vm_compute in E1. injection E1 as <-. split; [reflexivity|]. split; [reflexivity|].
    intros l2 E2. vm_compute in E2. injection E2 as <-. split; [reflexivity|]. split; [cbn; lia|]. intros l3 E3. exact I.
Qed.

(** C71 refuted: a reordering of the dimension can be lost when it is read.  The
    array [0; 2; 1] is read in order, but its last two elements are read as
    1 and 2; those of [0; 3; 1] cannot be read. *)
Theorem C71_order_refuted :
  case_read [RInts [0; 2; 1]] = Ok [CInt 0; CInt 4; CInt 1] /\
  case_read [RInts [0; 2; 1]; RSlice (slice_of 1 3)] = Ok [CInt 1; CInt 4] /\
  case_read [RInts [0; 3; 1]; RSlice (slice_of 1 3)] = Err IndexError.
Proof. vm_compute. repeat split. Qed.
Print Assumptions C71_order_refuted.

(** C71 refuted: features of a geodatabase cannot be read through an index array
    with a gap. *)
Theorem C71_gdb_refuted : forall f l name, gf_gdb f = true -> Gap l -> vector_value f (zlen l) (Some (SrcFancy l)) name = Err AttributeError.
Proof. exact value_gdb. Qed.
Print Assumptions C71_gdb_refuted.
