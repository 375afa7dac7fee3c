(** What an even, consecutive split of a range over ranks is (C01, C02, C04, C08). *)
From Verif Require Import Py Spec.

(** Number of elements an optional range holds. *)
Definition share (b : option (Z * Z)) : Z :=
  match b with None => 0 | Some (lo, hi) => hi - lo end.

Definition Owns (b : option (Z * Z)) (i : Z) : Prop :=
  match b with None => False | Some (lo, hi) => lo <= i < hi end.

(** [f r] is the half-open range rank [r] owns, [None] if it owns nothing. *)
Record EvenSplit (n s : Z) (f : Z -> option (Z * Z)) : Prop := {
  (* a range that is given is non-empty and inside the sequence *)
  es_range : forall r lo hi, 0 <= r < s -> f r = Some (lo, hi) -> 0 <= lo < hi /\ hi <= n;
  (* every element is owned by exactly one rank *)
  es_cover : forall i, 0 <= i < n -> exists r, 0 <= r < s /\ Owns (f r) i /\
               forall r', 0 <= r' < s -> Owns (f r') i -> r' = r;
  (* lower ranks own lower elements *)
  es_order : forall r1 r2 i j, 0 <= r1 < s -> 0 <= r2 < s -> r1 < r2 ->
               Owns (f r1) i -> Owns (f r2) j -> i < j;
  (* shares differ by at most one element *)
  es_even : forall r1 r2, 0 <= r1 < s -> 0 <= r2 < s -> share (f r1) <= share (f r2) + 1
}.

(** A cell of an n-dimensional slice decomposition selects an index tuple. *)
Fixpoint CellSelects (shape : list Z) (cell : list pyslice) (idx : list Z) : Prop :=
  match shape, cell, idx with
  | [], [], [] => True
  | n :: shape', s :: cell', i :: idx' => In i (slice_positions n s) /\ CellSelects shape' cell' idx'
  | _, _, _ => False
  end.
