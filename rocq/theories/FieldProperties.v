(** C66: slicing fields by standard dimension names (src/ocgis/collection/field.py). *)
From Verif Require Import Py Spec PartitionModel DimensionModel DimensionSpec NdModel ScopeModel ScopeSpec SliceModel SliceSpec SliceWitness FieldModel FieldSpec FieldProofs FieldSliceProofs FieldWitness.
From Verif Require DmapModel.
Local Open Scope string_scope.
Local Open Scope Z_scope.

(** Slicing a field by standard names returns what slicing by its own dimension
    names means, under its own dimension names, and leaves the field as it was.
    Unless told to be strict it skips names the field does not have. *)
Theorem C66_slice_partial : forall A (f : field A) mapping dslice kept own (strict : bool),
  WellKeyed (fi_coll f) -> CleanMapping mapping (map fst (cs_dims (fi_coll f))) -> Congruent (view f) ->
  (if strict then kept = dslice
   else Keeps (fun m => exists n, In n (map fst (cs_dims (fi_coll f))) /\ RenamesTo mapping n m) dslice kept) ->
  Translates mapping (map fst (cs_dims (fi_coll f))) kept own -> Sliceable (view f) own ->
  exists f' r, get_field_slice f mapping dslice strict = (f', kept, Ok r) /\ SameField f f' /\ SlicedField (view f) own r.
Proof. exact @field_slice_spec. Qed.
Print Assumptions C66_slice_partial.

Example C66_slice_case : WellKeyed fcoll /\ CleanMapping fmap ["t"; "lat"] /\ Congruent (view ffield) /\
  Translates fmap ["t"; "lat"] fslice fown /\ Sliceable (view ffield) fown /\
  (do r <- snd (get_field_slice ffield fmap fslice true); Ok (read r)) =
  Ok ([("t", 1); ("lat", 2)],
      [("tas", (["t"; "lat"], Some ([1; 2], [11; 13]), Some ([1; 2], [false; false])));
       ("latitude", (["lat"], Some ([2], [101; 103]), None)); ("num", ([], Some ([], [7]), None))]).
Proof.
  split; [exact fcoll_keyed|]. split; [exact fmap_clean|]. split; [exact ffield_congruent|]. split; [exact fslice_translates|].
  split; [exact fown_ok|]. vm_compute. reflexivity.
Qed.
Example C66_lenient_case : Keeps (fun m => exists n, In n ["t"; "lat"] /\ RenamesTo fmap n m) fextra fslice /\
  (do r <- snd (get_field_slice ffield fmap fextra false); Ok (read r)) = (do r <- snd (get_field_slice ffield fmap fslice true); Ok (read r)).
Proof. split; [exact fextra_keeps|]. vm_compute. reflexivity. Qed.

(** Whether slicing succeeds or raises, the field is as it was. *)
Theorem C66_unchanged : forall A (f : field A) mapping dslice strict, WellKeyed (fi_coll f) ->
  SameField f (fst (fst (get_field_slice f mapping dslice strict))).
Proof. exact @field_slice_keeps. Qed.
Print Assumptions C66_unchanged.

(** A strict slice with a name that no dimension of the field has is refused. *)
Theorem C66_refused : forall A (f : field A) mapping dslice m i,
  WellKeyed (fi_coll f) -> CleanMapping mapping (map fst (cs_dims (fi_coll f))) -> DimsKnown (fi_coll f) ->
  In (m, i) dslice -> (forall n, In n (map fst (cs_dims (fi_coll f))) -> ~ RenamesTo mapping n m) ->
  exists f' e, get_field_slice f mapping dslice true = (f', dslice, Err e).
Proof. exact @field_slice_refused. Qed.
Print Assumptions C66_refused.

Example C66_refused_case : snd (get_field_slice ffield fmap fextra true) = Err KeyError /\
  snd (get_field_slice ffield fmap [("lat", Given (RInt 0))] true) = Err KeyError.
Proof. split; vm_compute; reflexivity. Qed.

(** The names that can be used: a standard name stands for the dimensions the
    dimension map stores for it, or for its variable's name if it stores none. *)
Theorem C66_names : forall st, Plain st ->
  exists st' m, get_name_mapping st = (st', Ok m) /\
    (forall k l, dget String.eqb m k = Some l <-> Standard st k /\ exists v, MapVariable st k v /\ MapNames st k v l) /\
    forall k, ~ In k ["realization"; "time"; "level"; "y"; "x"; "geom"] -> dget String.eqb st' k = dget String.eqb st k.
Proof. exact name_mapping_spec. Qed.
Print Assumptions C66_names.

Example C66_names_case : Plain umap /\ snd (get_name_mapping umap) = Ok [("time", ["t"]); ("y", ["lat"])].
Proof. split; [exact umap_plain|]. vm_compute. reflexivity. Qed.

(** Refuted: the caller's dictionary is not left alone; a lenient slice removes
    the names the field does not have from it. *)
Theorem C66_arguments_refuted :
  map fst (snd (fst (get_field_slice ffield fmap fextra false))) = ["y"; "time"] /\ map fst fextra = ["level"; "y"; "time"].
Proof. split; vm_compute; reflexivity. Qed.
Print Assumptions C66_arguments_refuted.

(** Refuted: a field whose axes share one dimension (the nodes of an unstructured
    grid) cannot be sliced by any name. *)
Theorem C66_shared_refuted : forall dslice strict,
  snd (get_field_slice ufield [("y", ["node"]); ("x", ["node"])] dslice strict) = Err ValueError.
Proof. intros dslice strict. reflexivity. Qed.
Print Assumptions C66_shared_refuted.

(** Refuted: asking for the names is no mere question; the variable's name becomes
    a dimension name in the dimension map itself. *)
Theorem C66_map_refuted :
  snd (DmapModel.get_dimension umap "y") = Ok [] /\
  snd (DmapModel.get_dimension (fst (get_name_mapping umap)) "y") = Ok ["lat"].
Proof. split; vm_compute; reflexivity. Qed.
Print Assumptions C66_map_refuted.
