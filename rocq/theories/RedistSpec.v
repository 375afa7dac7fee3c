(** What redistribution, splits, scattered collections and distributed slices mean
    (C139-C142). *)
From Verif Require Import Lib Py Spec PartitionModel DimensionModel DimensionSpec DistModel NdModel SliceModel RedistModel.
Local Open Scope Z_scope.

(** ** C139 *)
(** The ranks pass dimensions that stand for the source elements [ls]. *)
Definition Passed (passed : list (option dim)) (ls : list (list Z)) : Prop :=
  Forall2 (fun o l => match o with None => l = [] | Some d => exists s, d_src d = Some s /\ den s = l end) passed ls.
(** The values of the variable with number [k] on all ranks. *)
Definition Values {A} (k : nat) (ranks : list (rrank A)) (vals : list (option (list A))) : Prop :=
  Forall2 (fun r x => exists v, nth_error (rr_vars r) k = Some v /\ get_value (rr_dim r) v = Ok x) ranks vals.
(** Read rank by rank. *)
Definition together {A} (vals : list (option (list A))) : list A :=
  concat (map (fun x => match x with Some l => l | None => [] end) vals).
(** Every rank has the variable number [k], with the dimension, from the same data. *)
Definition FromFile {A} (k : nat) (data : list A) (ranks : list (rrank A)) : Prop :=
  Forall (fun r => exists v, nth_error (rr_vars r) k = Some v /\ rv_has v = true /\ rv_source v = Some data) ranks.
Definition Live {A} (target : nat) (ranks : list (rrank A)) : Prop :=
  exists r v, In r ranks /\ nth_error (rr_vars r) target = Some v /\ is_empty (rr_dim r) v = false.

(** ** C141 *)
Definition pieces (splits : list Z) : Z := fold_right Z.mul 1 splits.

(** ** C142 *)
(** What is asked for of one dimension: everything, or the elements from [a] up to [b]. *)
Definition asked := option (Z * Z).
Definition to_raw (s : asked) : rawslc := match s with None => RSlice slice_none | Some (a, b) => RSlice (slice_of a b) end.
(** The global indices of a dimension that are asked for and on this rank. *)
Definition window (d : dim) (s : asked) : Z * Z :=
  match s with
  | None => bounds_local d
  | Some (a, b) => (Z.max a (fst (bounds_local d)), Z.min b (snd (bounds_local d)))
  end.
(** The dimension of a rank, and a slice with both ends; it may reach beyond the end of a
    distributed dimension. *)
Definition Axis (d : dim) (s : asked) : Prop :=
  d_empty d = false /\ 0 < dim_len d /\ snd (bounds_local d) - fst (bounds_local d) = dim_len d /\ (exists l, Represents d l) /\
  match s with
  | None => True
  | Some (a, b) => 0 <= a < b /\ (d_dist d = false -> fst (bounds_local d) = 0 /\ b <= dim_len d)
  end.
Definition Inside (shape idx : list Z) : Prop := Forall2 (fun n i => 0 <= i < n) shape idx.
Definition shift (by_ idx : list Z) : list Z := map (fun p => fst p + snd p) (combine by_ idx).
(** A rank holds its part of the array [g]. *)
Definition Holds {A} (g : nd A) (v : dvar A) : Prop :=
  nd_shape (dv_value v) = map dim_len (dv_dims v) /\
  forall idx, Inside (nd_shape (dv_value v)) idx -> nd_at (dv_value v) idx = nd_at g (shift (map (fun d => fst (bounds_local d)) (dv_dims v)) idx).
