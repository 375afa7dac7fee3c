(** What slicing means, independently of the dimension code (C05-C07, C12-C15). *)
From Verif Require Import Py Spec DimensionModel.

(** The source elements a source index stands for, in order. *)
Definition den (s : srcidx) : list Z :=
  match s with SrcBounds a b => zrange a b | SrcFancy l => l end.

(** Python/NumPy indexing of a sequence [l] by what the user wrote. *)
Definition py_select {A} (l : list A) (raw : rawslc) : res (list A) :=
  match raw with
  | RInt i => do x <- py_index l i; Ok [x]
  | RSlice s => Ok (py_slice l s)
  | RInts idx => map_res (py_index l) idx
  | RBools m => if zlen m =? zlen l then Ok (bool_select m l) else Err IndexError
  | RNone => Ok l
  end.

(** A dimension stands for the sequence [l]: it has its length and, if it has a
    source index, its elements. *)
Definition Represents (d : dim) (l : list Z) : Prop :=
  zlen l = dim_len d /\ match d_src d with None => True | Some s => den s = l end.

Fixpoint Increasing (l : list Z) : Prop :=
  match l with
  | x :: ((y :: _) as t) => x < y /\ Increasing t
  | _ => True
  end.

(** Slices for which a dimension of length [n] behaves like a Python sequence:
    everything in range, with both ends written or none, index arrays increasing. *)
Definition InRange (n : Z) (raw : rawslc) : Prop :=
  match raw with
  | RInt i => (0 <= i < n) \/ (- n <= i < -1)
  | RSlice (mkslice None None) => True
  | RSlice (mkslice (Some a) (Some b)) =>
      (0 <= a <= b /\ b <= n) \/ (- n <= a <= b /\ b < 0) \/ (0 <= a /\ - n <= b < 0 /\ a <= n + b)
  | RSlice _ => False
  | RInts l => l <> [] /\ Increasing l /\ Forall (fun i => 0 <= i < n) l
  | RBools m => zlen m = n
  | RNone => True
  end.

(** A sequence of slices, each in range for what the previous ones left. *)
Fixpoint InRangeSeq (l : list Z) (raws : list rawslc) : Prop :=
  match raws with
  | [] => True
  | r :: t => 0 < zlen l /\ InRange (zlen l) r /\ forall l', py_select l r = Ok l' -> InRangeSeq l' t
  end.

(** What a formatted slice selects from a sequence. *)
Definition slc_select {A} (l : list A) (s : slc) : res (list A) :=
  match s with
  | SSlice s => Ok (py_slice l s)
  | SInts idx => map_res (py_index l) idx
  | SBools m => if zlen m =? zlen l then Ok (bool_select m l) else Err IndexError
  end.

(** A consecutive distribution over ranks of the sequence [concat ls]: rank [k]
    holds the part [nth k ls], its local bounds say where that part lies. *)
Definition Distributed (dims : list dim) (ls : list (list Z)) : Prop :=
  Forall2 Represents dims ls /\
  Forall (fun d => d_dist d = true /\ d_empty d = false /\ 0 < dim_len d /\
                   snd (bounds_local d) - fst (bounds_local d) = dim_len d) dims /\
  Tiles 0 (zlen (concat ls)) (map bounds_local dims).

Definition nonempty (d : dim) : bool := negb (d_empty d).

(** The state after a distributed operation: rank [k] holds [nth k ls]; empty
    ranks hold nothing; the local bounds of the other ranks are consecutive from
    0 to the total, which is everybody's global extent. *)
Definition NormalizedDistribution (dims : list dim) (ls : list (list Z)) : Prop :=
  Forall2 Represents dims ls /\
  Forall (fun d => d_empty d = true -> dim_len d = 0 /\ d_src d = None) dims /\
  Forall (fun d => d_empty d = false ->
            bounds_global d = (0, zlen (concat ls)) /\
            snd (bounds_local d) - fst (bounds_local d) = dim_len d) dims /\
  Tiles 0 (zlen (concat ls)) (map bounds_local (filter nonempty dims)).

(** Arguments [get_formatted_slice] translates faithfully on a sequence of
    length [n]: everything except the index -1 and unordered index arrays. *)
Definition Formattable (n : Z) (raw : rawslc) : Prop :=
  match raw with
  | RInt i => - n <= i < n /\ i <> -1
  | RInts l => l <> [] /\ Increasing l /\ Forall (fun i => 0 <= i < n) l
  | RSlice _ | RBools _ | RNone => True
  end.

(** One-ended slices a dimension of length [n] without BOUNDS source handles. *)
Definition OneEnded (n : Z) (s : pyslice) : Prop :=
  match s with
  | mkslice (Some a) None => (0 < a <= n) \/ (- n <= a < 0)
  | mkslice None (Some b) => - n <= b < 0
  | _ => False
  end.
