(** C139-C142: redistribution by source index, splits of an index space, scatter of
    collections with groups, and distributed slices of variables. *)
From Verif Require Import Lib Py Spec PartitionModel DimensionModel DimensionSpec DistModel NdModel SliceModel RedistModel RedistSpec RedistProofs RedistMore.
Local Open Scope Z_scope.

(** C139.  After redistribution the values of a variable from a file, read rank by rank,
    are the elements of the file that the ranks stood for, in the same order; no rank is
    lost and every rank with data has at least two elements.  The source indices together
    are increasing, and there are at least two of them. *)
Theorem C139_redistribution_partial : forall {A} name target passed (ranks : list (rrank A)) ls k (data : list A),
  (2 <= List.length ranks)%nat -> Passed passed ls -> Increasing (concat ls) -> Forall (fun i => 0 <= i < zlen data) (concat ls) -> 2 <= zlen (concat ls) ->
  Live target ranks -> FromFile k data ranks ->
  exists ranks' vals, redistribute name target passed ranks = Ok ranks' /\ Values k ranks' vals /\
    Forall2 (fun i y => nth_error data (Z.to_nat i) = Some y) (concat ls) (together vals) /\
    List.length ranks' = List.length ranks /\
    Forall (fun x => match x with Some l => (2 <= List.length l)%nat | None => True end) vals.
Proof. exact @redistributed. Qed.
Print Assumptions C139_redistribution_partial.

(** The case: eight elements in a file; rank 0 stands for the elements 1, 2, 4, 6, 7 and
    rank 1 for nothing. *)
Definition case_part (l : list Z) : dim :=
  mkdim "x" (Some (zlen l)) (Some (zlen l)) (Some (SrcFancy l)) true false (Some (0, zlen l)) (Some (0, zlen l)).
Definition case_none : dim := mkdim "x" (Some 0) (Some 0) None true true (Some (0, 0)) (Some (0, 0)).
Definition case_file : list Z := [10; 11; 12; 13; 14; 15; 16; 17].
Definition case_unread : rvar Z := mkrvar true (Some case_file) None None false None (-1) 0.
Definition case_gone : rvar Z := mkrvar true (Some case_file) None None false (Some true) (-1) 0.
Definition case_ranks (l : list Z) : list (rrank Z) := [mkrrank (case_part l) [case_unread]; mkrrank case_none [case_gone]].

Example C139_case :
  Passed [Some (case_part [1; 2; 4; 6; 7]); None] [[1; 2; 4; 6; 7]; []] /\ Live 0 (case_ranks [1; 2; 4; 6; 7]) /\ FromFile 0 case_file (case_ranks [1; 2; 4; 6; 7]) /\
  exists ranks', redistribute "x" 0 [Some (case_part [1; 2; 4; 6; 7]); None] (case_ranks [1; 2; 4; 6; 7]) = Ok ranks' /\
    Values 0 ranks' [Some [11; 12; 14]; Some [16; 17]].
Proof.
  split; [constructor; [eexists; split; reflexivity | constructor; [reflexivity | constructor]]|].
  split; [eexists; eexists; split; [left; reflexivity | split; reflexivity]|].
  split; [repeat constructor; eexists; repeat split; reflexivity|].
  eexists. split; [vm_compute; reflexivity|]. repeat constructor; eexists; split; vm_compute; reflexivity.
Qed.

(** C139 is false in general: the only element is lost; variables not from a file and
    values changed in memory become what new memory or the file holds; a variable
    without the dimension that was loaded on a rank emptied before becomes new memory;
    source indices that are not increasing come back in another order. *)
Theorem C139_single_refuted : exists passed (ranks ranks' : list (rrank Z)),
  Values 0 ranks [Some [13]; None] /\ redistribute "x" 0 passed ranks = Ok ranks' /\ Values 0 ranks' [None; None].
Proof.
  exists [Some (case_part [3]); None], (case_ranks [3]). eexists.
  split; [repeat constructor; eexists; split; reflexivity|]. split; [vm_compute; reflexivity|]. repeat constructor; eexists; split; reflexivity.
Qed.
Print Assumptions C139_single_refuted.

Definition case_memory (x : list Z) : rvar Z := mkrvar true None (Some x) None true None (-1) 0.
Definition case_changed (x : list Z) : rvar Z := mkrvar true (Some case_file) (Some x) None true None (-1) 0.
Definition case_other : rvar Z := mkrvar false (Some [5; 6]) (Some [5; 6]) None true None (-1) 2.
Definition case_other_gone : rvar Z := mkrvar false (Some [5; 6]) None None true (Some true) (-1) 2.
Theorem C139_memory_refuted : exists passed (ranks ranks' : list (rrank Z)),
  Values 1 ranks [Some [1; 2; 3; 4]; None] /\ Values 2 ranks [Some [5; 6; 7; 8]; None] /\ Values 3 ranks [Some [5; 6]; None] /\
  redistribute "x" 0 passed ranks = Ok ranks' /\
  Values 1 ranks' [Some [-1; -1]; Some [-1; -1]] /\ Values 2 ranks' [Some [10; 11]; Some [12; 13]] /\ Values 3 ranks' [Some [5; 6]; Some [-1; -1]].
Proof.
  exists [Some (case_part [0; 1; 2; 3]); None],
    [mkrrank (case_part [0; 1; 2; 3]) [case_unread; case_memory [1; 2; 3; 4]; case_changed [5; 6; 7; 8]; case_other];
     mkrrank case_none [case_gone; emptied (case_memory []); emptied (case_changed []); case_other_gone]]. eexists.
  split; [repeat constructor; eexists; split; reflexivity|]. split; [repeat constructor; eexists; split; reflexivity|]. split; [repeat constructor; eexists; split; reflexivity|].
  split; [vm_compute; reflexivity|]. repeat split; repeat constructor; eexists; split; reflexivity.
Qed.
Print Assumptions C139_memory_refuted.

(** Indices in another order, as after a fancy slice: the file is read in rising order. *)
Theorem C139_order_refuted : exists passed (ranks ranks' : list (rrank Z)),
  Passed passed [[3; 2; 1; 0]; []] /\ redistribute "x" 0 passed ranks = Ok ranks' /\ FromFile 0 case_file ranks /\
  Values 0 ranks' [Some [12; 13]; Some [10; 11]].
Proof.
  exists [Some (case_part [3; 2; 1; 0]); None], (case_ranks [3; 2; 1; 0]). eexists.
  split; [constructor; [eexists; split; reflexivity | constructor; [reflexivity | constructor]]|]. split; [vm_compute; reflexivity|].
  split; [repeat constructor; eexists; repeat split; reflexivity|]. repeat constructor; eexists; split; reflexivity.
Qed.
Print Assumptions C139_order_refuted.

(** C140.  The splits of an index space: no more pieces than asked for, at least one and
    at most as many as there are elements along every axis; all elements apart if there
    are enough pieces, and as many pieces as asked for if the first axis has enough
    elements. *)
Theorem C140_splits_partial : forall size shape, 1 <= size -> shape <> [] -> Forall (fun s => 1 <= s) shape ->
  exists splits, get_optimal_splits size shape = Ok splits /\ 1 <= pieces splits <= size /\ Forall2 (fun p s => 1 <= p <= s) splits shape /\
    (pieces shape <= size -> splits = shape) /\
    (forall s0, nth_error shape 0 = Some s0 -> size <= s0 -> pieces splits = size).
Proof. exact optimal_splits_spec. Qed.
Print Assumptions C140_splits_partial.

Example C140_case : get_optimal_splits 9 [5; 20] = Ok [3; 3] /\ get_optimal_splits 9 [2; 20] = Ok [2; 3] /\ get_optimal_splits 4 [5; 20] = Ok [4; 1].
Proof. repeat split. Qed.

(** C140 is false in general: the splits are not optimal. *)
Theorem C140_optimal_refuted : exists size shape splits best,
  get_optimal_splits size shape = Ok splits /\ Forall2 (fun p s => 1 <= p <= s) best shape /\ pieces best = size /\ pieces splits < pieces best.
Proof.
  exists 7, [2; 100], [2; 2], [1; 7]. split; [reflexivity|]. split; [repeat constructor; lia|]. split; reflexivity.
Qed.
Print Assumptions C140_optimal_refuted.

(** C141.  A collection without groups keeps its variables when it is scattered; one with
    groups, of whatever content, cannot be scattered at all. *)
Theorem C141_flat_partial : forall name vars, vars <> [] -> Forall (fun v => snd v = false) vars ->
  collection_scatter (mkvcoll name vars []) = Ok (mkvcoll name vars []).
Proof. exact collection_scatter_flat. Qed.
Print Assumptions C141_flat_partial.
Example C141_case : collection_scatter (mkvcoll "root" [("x"%string, false); ("y"%string, false)] []) = Ok (mkvcoll "root" [("x"%string, false); ("y"%string, false)] []).
Proof. reflexivity. Qed.

Theorem C141_groups_refuted : forall c, vc_children c <> [] -> exists e, collection_scatter c = Err e.
Proof. exact collection_scatter_groups. Qed.
Print Assumptions C141_groups_refuted.
Example C141_groups_case : collection_scatter (mkvcoll "root" [("x"%string, false)] [mkvcoll "child" [("y"%string, false)] []]) = Err KeyError.
Proof. reflexivity. Qed.

(** C142.  The distributed slice of a variable with any number of dimensions, any of them
    distributed: on every rank the elements of the slice that are in the part of the
    rank, in place, and an empty variable if there are none.  Its dimensions are the
    distributed slices of the dimensions (C05).  The slices are whole or
    have both ends, not negative; those of dimensions that are not distributed end in
    range. *)
Theorem C142_distributed_slice_partial : forall {A} (g : nd A) (ranks : list (dvar A)) (ss : list asked) (flags : list bool),
  Forall (fun v => Holds g v /\ Forall2 Axis (dv_dims v) ss /\ map d_dist (dv_dims v) = flags) ranks ->
  exists outs, variable_slice ranks (map to_raw ss) = Ok outs /\
    Forall2 (fun v o => match o with
      | None => Exists (fun p => snd (window (fst p) (snd p)) <= fst (window (fst p) (snd p))) (combine (dv_dims v) ss)
      | Some w =>
        nd_shape (dv_value w) = map (fun p => snd (window (fst p) (snd p)) - fst (window (fst p) (snd p))) (combine (dv_dims v) ss) /\
        forall idx, Inside (nd_shape (dv_value w)) idx ->
          nd_at (dv_value w) idx = nd_at g (shift (map (fun p => fst (window (fst p) (snd p))) (combine (dv_dims v) ss)) idx)
      end) ranks outs /\
    exists columns,
      Forall2 (fun p col => get_distributed_slice (map (fun v => (nth (fst p) (dv_dims v) no_dim, to_raw (snd p))) ranks) = Ok col) (combine (seq 0 (List.length ss)) ss) columns /\
      forall j w, nth_error outs j = Some (Some w) -> dv_dims w = map (fun col => nth j col no_dim) columns.
Proof. exact @variable_slice_spec. Qed.
Print Assumptions C142_distributed_slice_partial.

(** The case: three rows that every rank has and six columns over three ranks. *)
Definition case_rows : dim := mkdim "y" (Some 3) (Some 3) None false false None None.
Definition case_columns (a b : Z) : dim := mkdim "x" (Some (b - a)) (Some (b - a)) None true false (Some (a, b)) (Some (0, 6)).
Definition case_whole : nd Z := mknd [3; 6] (fun idx => 10 * nth 0 idx 0 + nth 1 idx 0).
Definition case_held (a b : Z) : dvar Z :=
  mkdvar [case_rows; case_columns a b] (mknd [3; b - a] (fun idx => 10 * nth 0 idx 0 + (nth 1 idx 0 + a))).

Lemma case_holds a b : Holds case_whole (case_held a b).
Proof.
  split; [reflexivity|]. cbn [case_held dv_value nd_shape]. intros idx X. inversion X as [|? i ? t _ X1]; subst. inversion X1 as [|? j ? t' _ X2]; subst. inversion X2; subst.
  cbn. lia.
Qed.
Lemma case_axes a b : a < b -> Forall2 Axis [case_rows; case_columns a b] [Some (1, 3); Some (1, 4)].
Proof.
  intros L. constructor; [|constructor; [|constructor]].
  - split; [reflexivity|]. split; [reflexivity|]. split; [reflexivity|]. split; [exists [0; 0; 0]; split; [reflexivity | exact Logic.I]|]. cbn. repeat split; lia.
  - split; [reflexivity|]. split; [cbn; lia|]. split; [reflexivity|].
    split; [exists (zrange a b); split; [cbn; rewrite zrange_zlen; lia | exact Logic.I]|]. split; [lia|]. intros H. discriminate H.
Qed.
Example C142_case :
  Forall (fun v => Holds case_whole v /\ Forall2 Axis (dv_dims v) [Some (1, 3); Some (1, 4)] /\ map d_dist (dv_dims v) = [false; true]) [case_held 0 2; case_held 2 4; case_held 4 6] /\
  match variable_slice [case_held 0 2; case_held 2 4; case_held 4 6] (map to_raw [Some (1, 3); Some (1, 4)]) with
  | Ok [Some w0; Some w1; None] => nd_shape (dv_value w0) = [2; 1] /\ nd_at (dv_value w0) [1; 0] = 21 /\ nd_shape (dv_value w1) = [2; 2] /\ nd_at (dv_value w1) [0; 1] = 13
  | _ => False
  end.
Proof.
  split; [|vm_compute; repeat split].
  repeat (constructor; [split; [apply case_holds | split; [apply case_axes; lia | reflexivity]]|]). constructor.
Qed.

(** C142 is false for slices with one end, of any dimension, and for slices that count from
    the end of a dimension that is not distributed: both are ordinary slices of the
    whole array and raise. *)
Theorem C142_one_ended_refuted :
  variable_slice [case_held 0 3; case_held 3 6] [RSlice slice_none; RSlice (mkslice (Some 2) None)] = Err ValueError /\
  variable_slice [case_held 0 3; case_held 3 6] [RSlice (mkslice None (Some 2)); RSlice slice_none] = Err ValueError.
Proof. split; vm_compute; reflexivity. Qed.
Print Assumptions C142_one_ended_refuted.
Theorem C142_negative_refuted :
  (exists w, np_getitem case_whole [SSlice (slice_of (-3) (-1)); SSlice slice_none] = Ok w /\ nd_shape w = [2; 6]) /\
  variable_slice [case_held 0 3; case_held 3 6] [RSlice (slice_of (-3) (-1)); RSlice slice_none] = Err TypeError.
Proof. split; [eexists; split; reflexivity | vm_compute; reflexivity]. Qed.
Print Assumptions C142_negative_refuted.
