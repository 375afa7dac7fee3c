(** C65: slicing collections and variables (src/ocgis/variable/base.py). *)
From Verif Require Import Py Spec PartitionModel DimensionModel DimensionSpec NdModel SliceModel SliceSpec SliceProofs SliceVarProofs SliceWitness.
Local Open Scope string_scope.
Local Open Scope Z_scope.

(** Slicing a collection by a dictionary selects, in every dimension named and
    its source indices, what Python selects, and in every variable the elements
    at those positions, axis by axis; the rest stays as it is. *)
Theorem C65_collection_partial : forall A (c : scoll A) dslice, Congruent c -> Sliceable c dslice ->
  exists c', slice_collection c dslice = Ok c' /\ SlicedTo c dslice c'.
Proof. exact @slice_collection_spec. Qed.
Print Assumptions C65_collection_partial.

(** Dimensions and arrays agree afterwards, so slicing can be repeated. *)
Theorem C65_congruent : forall A (c : scoll A) dslice c', Congruent c -> SlicedTo c dslice c' -> Congruent c'.
Proof. exact @slice_collection_congruent. Qed.
Print Assumptions C65_congruent.

Example C65_collection_case : Congruent wcoll /\ Sliceable wcoll wslice /\
  (do c <- slice_collection wcoll wslice; Ok (read c)) =
  Ok ([("time", 1); ("place", 2)],
      [("tas", (["time"; "place"], Some ([1; 2], [11; 13]), Some ([1; 2], [false; false])));
       ("name", (["place"], Some ([2], [101; 103]), None)); ("num", ([], Some ([], [7]), None))]).
Proof. split; [exact wcoll_congruent|]. split; [exact wslice_ok|]. vm_compute. reflexivity. Qed.

(** Slicing one variable, one slice for each of its dimensions, slices the
    collection it belongs to in the same way. *)
Theorem C65_variable_partial : forall A (c : scoll A) name v items, Congruent c -> In (name, v) (sc_vars c) ->
  sv_dims v <> [] -> List.length items = List.length (sv_dims v) ->
  Sliceable c (combine (sv_dims v) (map as_given items)) ->
  exists c' v', slice_variable c name items = Ok (c', v') /\ In (name, v') (sc_vars c') /\
    SlicedTo c (combine (sv_dims v) (map as_given items)) c'.
Proof. exact @slice_variable_spec. Qed.
Print Assumptions C65_variable_partial.

Example C65_variable_case : Congruent wcoll /\ In ("tas", wtas) (sc_vars wcoll) /\
  Sliceable wcoll (combine (sv_dims wtas) (map as_given witems)) /\
  (do r <- slice_variable wcoll "tas" witems; Ok (read (fst r), read_var (snd r))) =
  Ok (([("time", 1); ("place", 2)],
       [("tas", (["time"; "place"], Some ([1; 2], [10; 13]), Some ([1; 2], [true; false])));
        ("name", (["place"], Some ([2], [100; 103]), None)); ("num", ([], Some ([], [7]), None))]),
      (["time"; "place"], Some ([1; 2], [10; 13]), Some ([1; 2], [true; false]))).
Proof. split; [exact wcoll_congruent|]. split; [left; reflexivity|]. split; [exact witems_ok|]. vm_compute. reflexivity. Qed.

(** A collection without dimensions and a dictionary naming a dimension the
    collection does not have are refused. *)
Theorem C65_refused : forall A (c : scoll A) dslice,
  (sc_dims c = [] -> slice_collection c dslice = Err DimensionsRequiredError) /\
  (forall n i, In (n, i) dslice -> ~ In n (map fst (sc_dims c)) -> exists e, slice_collection c dslice = Err e).
Proof. exact @slice_refused. Qed.
Print Assumptions C65_refused.

Example C65_refused_case : slice_collection wcoll [("level", Given (RInt 0))] = Err KeyError.
Proof. reflexivity. Qed.

(** Refuted: with index arrays for two dimensions of a variable the array is
    indexed at pairs of positions instead of axis by axis, and loses an axis; with
    arrays of different lengths slicing fails. *)
Theorem C65_two_arrays_refuted :
  (do c <- slice_collection wcoll [("time", Given (RInts [0; 2])); ("place", Given (RInts [1; 3]))]; Ok (fst (read c), hd_error (snd (read c)))) =
    Ok ([("time", 2); ("place", 2)], Some ("tas", (["time"; "place"], Some ([2], [1; 23]), Some ([2], [false; false])))) /\
  slice_collection wcoll [("time", Given (RInts [0; 2])); ("place", Given (RBools [true; true; false; true]))] = Err IndexError.
Proof. split; vm_compute; reflexivity. Qed.
Print Assumptions C65_two_arrays_refuted.

(** Refuted: a Python list with a gap gives the one-dimensional variables of the
    collection an extra axis; a list of booleans and [None] are refused though
    the dimension and the other variables accept them. *)
Theorem C65_lists_refuted :
  (do c <- slice_collection wcoll [("place", Listed (RInts [1; 3]))]; Ok (fst (read c), nth_error (snd (read c)) 1)) =
    Ok ([("time", 3); ("place", 2)], Some ("name", (["place"], Some ([1; 2], [101; 103]), None))) /\
  slice_collection wcoll [("place", Listed (RBools [true; true; false; true]))] = Err IndexError /\
  slice_collection wcoll [("place", Given RNone)] = Err TypeError.
Proof. split; [|split]; vm_compute; reflexivity. Qed.
Print Assumptions C65_lists_refuted.

(** Refuted: the index -1 leaves a dimension of length one and arrays without
    elements. *)
Theorem C65_last_refuted :
  (do c <- slice_collection wcoll [("place", Given (RInt (-1)))]; Ok (fst (read c), nth_error (snd (read c)) 1)) =
    Ok ([("time", 3); ("place", 1)], Some ("name", (["place"], Some ([0], []), None))).
Proof. vm_compute. reflexivity. Qed.
Print Assumptions C65_last_refuted.
