(** C05-C07, C12-C15: slicing and distributing dimensions. *)
From Verif Require Import Py Spec PartitionModel DimensionModel DimensionSpec DimensionProofs DistSliceProofs.

(** C12 and C13, one slice.  A dimension standing for the sequence [l] (its
    length and, if it has one, its source index), sliced with an in-range
    argument, stands for what Python indexing selects from [l]; the name and the
    distribution are kept.  Partial: [InRange] leaves out slices with an end
    beyond the dimension, one-ended slices (see below), the index -1 and
    unordered index arrays, see the refutations. *)
Theorem C12_C13_getitem_partial : forall d l raw,
  Represents d l -> 0 < zlen l -> InRange (zlen l) raw ->
  exists d' l', dim_getitem d raw = Ok d' /\ py_select l raw = Ok l' /\ Represents d' l' /\
    (d_src d' = None <-> d_src d = None) /\
    d_name d' = d_name d /\ d_dist d' = d_dist d /\ d_empty d' = d_empty d.
Proof. exact dim_getitem_spec. Qed.
Print Assumptions C12_C13_getitem_partial.

(** C13, any sequence of slices. *)
Theorem C13_getitem_sequence_partial : forall raws d l,
  Represents d l -> InRangeSeq l raws ->
  exists d' l', fold_res dim_getitem raws d = Ok d' /\ fold_res py_select raws l = Ok l' /\
    Represents d' l' /\ (d_src d' = None <-> d_src d = None).
Proof. exact dim_getitem_seq. Qed.
Print Assumptions C13_getitem_sequence_partial.

(** C12 and C13, one-ended slices, for dimensions whose source index is an index
    array or absent. *)
Theorem C12_C13_one_ended_partial : forall d l s,
  Represents d l -> 0 < zlen l -> OneEnded (zlen l) s ->
  match d_src d with Some (SrcBounds _ _) => False | _ => True end ->
  exists d', dim_getitem d (RSlice s) = Ok d' /\ Represents d' (py_slice l s).
Proof. exact getitem_one_ended. Qed.
Print Assumptions C12_C13_one_ended_partial.

Definition case_dim (n : Z) (src : option srcidx) : dim := mkdim "x" (Some n) (Some n) src false false None None.

Example C12_C13_case :
  Represents (case_dim 6 (Some (SrcBounds 10 16))) [10; 11; 12; 13; 14; 15] /\
  InRangeSeq [10; 11; 12; 13; 14; 15]
    [RSlice (slice_of 1 (-1)); RInts [0; 2; 3]; RBools [true; false; true]; RInt (-2)] /\
  (exists d, fold_res dim_getitem [RSlice (slice_of 1 (-1)); RInts [0; 2; 3]; RBools [true; false; true]; RInt (-2)]
     (case_dim 6 (Some (SrcBounds 10 16))) = Ok d /\ d_src d = Some (SrcFancy [11])) /\
  OneEnded 6 (mkslice (Some (-2)) None).
Proof.
  split; [split; reflexivity|]. split.
  - split; [reflexivity|]. split; [cbn; lia|]. intros l1 E1. vm_compute in E1. injection E1 as <-.
    split; [reflexivity|]. split.
    { split; [discriminate|]. split; [cbn; lia|]. cbn. repeat (apply Forall_cons; [lia|]). apply Forall_nil. }
    intros l2 E2. vm_compute in E2. injection E2 as <-.
    split; [reflexivity|]. split; [reflexivity|]. intros l3 E3. vm_compute in E3. injection E3 as <-.
    split; [reflexivity|]. split; [cbn; lia|]. intros l4 E4. exact I.
  - split; [|cbn; lia]. eexists; split; [vm_compute; reflexivity|reflexivity].
Qed.

(** C12 refuted: valid Python slices whose length comes out wrong. *)
Theorem C12_length_refuted :
  exists d l s d' l', Represents d l /\ 0 < zlen l /\
    dim_getitem d (RSlice s) = Ok d' /\ py_select l (RSlice s) = Ok l' /\ dim_len d' <> zlen l'.
Proof.
  exists (case_dim 5 None), [0; 1; 2; 3; 4], (mkslice (Some 2) (Some 10)), (case_dim 5 None), [2; 3; 4].
  repeat split; vm_compute; congruence.
Qed.
Print Assumptions C12_length_refuted.

Theorem C12_first_three_refuted :
  exists d l d', Represents d l /\ dim_getitem d (RSlice (mkslice None (Some 3))) = Ok d' /\
    py_select l (RSlice (mkslice None (Some 3))) = Ok [0; 1; 2] /\ dim_len d' = 5.
Proof.
  exists (case_dim 5 None), [0; 1; 2; 3; 4]. eexists. repeat split; vm_compute; reflexivity.
Qed.
Print Assumptions C12_first_three_refuted.

(** C13 refuted: with a source index the last element cannot be picked with -1,
    and a one-ended slice raises. *)
Theorem C13_last_element_refuted :
  exists d l, Represents d l /\ py_select l (RInt (-1)) = Ok [14] /\ dim_getitem d (RInt (-1)) = Err ValueError /\
    dim_getitem d (RSlice (mkslice (Some 1) None)) = Err TypeError.
Proof. exists (case_dim 5 (Some (SrcBounds 10 15))), [10; 11; 12; 13; 14]. repeat split. Qed.
Print Assumptions C13_last_element_refuted.

(** C14, one dimension: the formatted slice selects what Python indexing with the
    argument selects (an index becomes a one-element selection). *)
Theorem C14_formatted_slice_partial : forall A (l : list A) raw,
  Formattable (zlen l) raw ->
  exists s, get_formatted_slice1 raw = Ok s /\ slc_select l s = py_select l raw.
Proof. exact @format_select_all. Qed.
Print Assumptions C14_formatted_slice_partial.

(** C14, several dimensions: as many slices as dimensions, each selecting along
    its own dimension (here the index lists [ls]) what was asked for. *)
Theorem C14_formatted_slice_nd_partial : forall A (ls : list (list A)) raws,
  1 < zlen raws -> Forall2 (fun l raw => Formattable (zlen l) raw) ls raws ->
  exists ss, get_formatted_slice_nd raws (zlen ls) = Ok ss /\ zlen ss = zlen ls /\
    map (fun p => slc_select (fst p) (snd p)) (combine ls ss) = map (fun p => py_select (fst p) (snd p)) (combine ls raws).
Proof. exact @format_nd_spec. Qed.
Print Assumptions C14_formatted_slice_nd_partial.

(** C14 refuted for the index -1: the slice (-1, 0) selects nothing. *)
Theorem C14_minus_one_refuted :
  exists (l : list Z) i s, - zlen l <= i < zlen l /\ get_formatted_slice1 (RInt i) = Ok s /\
    slc_select l s = Ok [] /\ py_select l (RInt i) = Ok [7].
Proof. exists [5; 6; 7], (-1). eexists. repeat split; vm_compute; congruence. Qed.
Print Assumptions C14_minus_one_refuted.

Example C14_case : Formattable 3 (RInt (-2)) /\ Formattable 3 (RInts [0; 2]) /\
  get_formatted_slice1 (RInt (-2)) = Ok (SSlice (slice_of (-2) (-1))) /\
  get_formatted_slice1 (RInts [0; 2]) = Ok (SInts [0; 2]) /\
  get_formatted_slice1 (RInts [1; 2]) = Ok (SSlice (slice_of 1 3)).
Proof.
  split; [cbn; lia|]. split; [|repeat split].
  cbn. repeat split; try lia; try discriminate. repeat constructor; lia.
Qed.

(** C15.  For increasing index arrays the optimised slice reads the same elements
    in the same order. *)
Theorem C15_optimal_slice_partial : forall A (l : list A) arr,
  arr <> [] -> Increasing arr -> Forall (fun i => 0 <= i < zlen l) arr ->
  exists s, get_optimal_slice_from_array arr = Ok s /\ slc_select l s = map_res (py_index l) arr.
Proof. exact (fun A l arr H1 H2 H3 => @format_select A l (RInts arr) (conj H1 (conj H2 H3))). Qed.
Print Assumptions C15_optimal_slice_partial.

(** C15: the reduced slice is the smallest contiguous range holding all the
    indices, whatever their order. *)
Theorem C15_reduced_slice : forall arr, arr <> [] ->
  exists a b, get_reduced_slice arr = Ok (slice_of a b) /\ a < b /\
    (forall x, In x arr -> a <= x < b) /\ In a arr /\ In (b - 1) arr.
Proof. exact reduced_slice_spec. Qed.
Print Assumptions C15_reduced_slice.

(** C15 refuted: repeated or decreasing index arrays are replaced by a slice
    that selects something else. *)
Theorem C15_optimal_slice_refuted :
  (exists (l : list Z) arr s, get_optimal_slice_from_array arr = Ok s /\
     slc_select l s = Ok [2] /\ map_res (py_index l) arr = Ok [2; 2; 2]) /\
  (exists (l : list Z) arr s, get_optimal_slice_from_array arr = Ok s /\
     slc_select l s = Ok [1; 2; 3] /\ map_res (py_index l) arr = Ok [3; 1; 2]).
Proof.
  split.
  - exists [0; 1; 2; 3], [2; 2; 2]. eexists. repeat split.
  - exists [0; 1; 2; 3], [3; 1; 2]. eexists. repeat split.
Qed.
Print Assumptions C15_optimal_slice_refuted.

Example C15_case : Increasing [1; 2; 3] /\ get_optimal_slice_from_array [1; 2; 3] = Ok (SSlice (slice_of 1 4)) /\
  Increasing [1; 2; 5] /\ get_optimal_slice_from_array [1; 2; 5] = Ok (SInts [1; 2; 5]).
Proof. repeat split; cbn; lia. Qed.

(** C05.  All ranks slice a distributed dimension with the same global slice:
    the parts together are the slice of the whole, and the new bounds are
    consecutive and agree on the total.  Partial: slices with both ends,
    [0 <= start < stop] (stop may lie beyond the end). *)
Theorem C05_distributed_slice_partial : forall dims ls a b,
  Distributed dims ls -> 0 <= a < b ->
  exists dims' ls',
    get_distributed_slice (map (fun d => (d, RSlice (slice_of a b))) dims) = Ok dims' /\
    concat ls' = py_slice (concat ls) (slice_of a b) /\
    NormalizedDistribution dims' ls' /\
    Forall2 (fun d d' => d_dist d' = true /\ d_name d' = d_name d /\
       (d_empty d' = false -> 0 < dim_len d' /\ (d_src d' = None <-> d_src d = None))) dims dims'.
Proof. exact distributed_slice_spec. Qed.
Print Assumptions C05_distributed_slice_partial.

(** C05, rank-local boolean masks: the parts together are the selection of the
    whole by the concatenated mask. *)
Theorem C05_distributed_mask : forall dims ls masks,
  Distributed dims ls -> Forall2 (fun m l => zlen m = zlen l) masks ls ->
  exists dims' ls',
    get_distributed_slice (combine dims (map RBools masks)) = Ok dims' /\
    concat ls' = bool_select (concat masks) (concat ls) /\
    NormalizedDistribution dims' ls' /\
    Forall2 (fun d d' => d_dist d' = true /\ d_name d' = d_name d /\
       (d_empty d' = false -> (d_src d' = None <-> d_src d = None))) dims dims'.
Proof. exact distributed_bools_spec. Qed.
Print Assumptions C05_distributed_mask.

Definition case_rank (lo hi : Z) : dim :=
  mkdim "x" (Some (hi - lo)) (Some (hi - lo)) (Some (SrcBounds lo hi)) true false (Some (lo, hi)) (Some (0, 8)).

Example C05_case :
  Distributed [case_rank 0 3; case_rank 3 6; case_rank 6 8] [[0; 1; 2]; [3; 4; 5]; [6; 7]] /\
  (exists dims, get_distributed_slice (map (fun d => (d, RSlice (slice_of 2 5))) [case_rank 0 3; case_rank 3 6; case_rank 6 8]) = Ok dims /\
    map d_src dims = [Some (SrcBounds 2 3); Some (SrcBounds 3 5); None] /\
    map bounds_local dims = [(0, 1); (1, 3); (0, 0)] /\ map bounds_global dims = [(0, 3); (0, 3); (0, 0)]).
Proof.
  split.
  - split; [repeat constructor|]. split; [repeat constructor|]. cbn. lia.
  - eexists. repeat split; vm_compute; reflexivity.
Qed.

(** C05 refuted: an empty slice of the whole (start above stop) does not give
    an empty distributed dimension. *)
Theorem C05_inverted_slice_refuted :
  exists dims ls a b dims', Distributed dims ls /\ 0 <= a /\ 0 <= b /\
    py_slice (concat ls) (slice_of a b) = [] /\
    get_distributed_slice (map (fun d => (d, RSlice (slice_of a b))) dims) = Ok dims' /\
    zsum (map dim_len dims') <> 0.
Proof.
  exists [mkdim "x" (Some 10) (Some 10) None true false (Some (0, 10)) (Some (0, 10))], [zrange 0 10], 5, 3.
  eexists. split; [|repeat split; vm_compute; congruence].
  split; [repeat constructor|]. split; [repeat constructor|]. vm_compute. repeat split; congruence.
Qed.
Print Assumptions C05_inverted_slice_refuted.

(** C06.  Local sizes become consecutive local bounds from 0 to their sum, which
    is the global extent everywhere; exactly the ranks with size zero are
    empty. *)
Theorem C06_create_distributed_dimension : forall name sizes src,
  Forall (fun s => 0 <= s) sizes -> match src with SrcVal _ => False | _ => True end ->
  exists dims, create_distributed_dimension name sizes src = Ok dims /\
    Forall2 (fun s d => d_name d = name /\ d_dist d = true /\ dim_len d = s /\ d_empty d = (s =? 0) /\
                        bounds_global d = (0, zsum sizes) /\ snd (bounds_local d) - fst (bounds_local d) = s) sizes dims /\
    Tiles 0 (zsum sizes) (map bounds_local dims).
Proof. exact create_distributed_dimension_spec. Qed.
Print Assumptions C06_create_distributed_dimension.

Example C06_case : exists dims, create_distributed_dimension "x" [3; 0; 2] SrcNone = Ok dims /\
  map bounds_local dims = [(0, 3); (3, 3); (3, 5)] /\ map d_empty dims = [false; true; false].
Proof. eexists. repeat split; vm_compute; reflexivity. Qed.

(** C07.  Read in rank order the values are start, start + 1, ..., each rank has
    as many as it has elements, and no value occurs twice. *)
Theorem C07_arange_from_dimension : forall lens start, Forall (fun n => 0 <= n) lens ->
  map zlen (arange_from_dimension lens start) = lens /\
  concat (arange_from_dimension lens start) = zrange start (start + zsum lens) /\
  NoDup (concat (arange_from_dimension lens start)).
Proof. exact arange_from_dimension_spec. Qed.
Print Assumptions C07_arange_from_dimension.

Theorem C07_create_ugid_global : forall sizes start, Forall (fun n => 0 <= n) sizes ->
  exists ids, create_ugid_global (map Some sizes) start = Ok ids /\
    map zlen ids = sizes /\ concat ids = zrange start (start + zsum sizes) /\ NoDup (concat ids).
Proof. exact create_ugid_global_spec. Qed.
Print Assumptions C07_create_ugid_global.

Example C07_case : create_ugid_global [Some 2; Some 0; Some 3] 1 = Ok [[1; 2]; []; [3; 4; 5]].
Proof. reflexivity. Qed.
