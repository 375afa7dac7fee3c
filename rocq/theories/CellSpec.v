(** Specification for C134 - C138. *)
From Verif Require Import Py PartitionModel NdModel CoordModel EsmfModel CellModel CoordSpec.
Local Open Scope Z_scope.

(** ** C134, C135 *)
(** The coordinates of a grid of cell centres that depend on the row only (or on the
    column only) are those of a vector. *)
Definition AlongRows (arr : nd Q) (c : list Q) (n : Z) : Prop :=
  nd_shape arr = [zlen c; n] /\
  forall i j x, 0 <= j < n -> nth_error c i = Some x -> (nd_at arr [Z.of_nat i; j] == x)%Q.
Definition AlongColumns (arr : nd Q) (c : list Q) (m : Z) : Prop :=
  nd_shape arr = [m; zlen c] /\
  forall i j x, 0 <= i < m -> nth_error c j = Some x -> (nd_at arr [i; Z.of_nat j] == x)%Q.
(** Evenly spaced in both directions, possibly turned. *)
Definition Even (arr : nd Q) (m n : Z) (a p q : Q) : Prop :=
  nd_shape arr = [m; n] /\
  forall i j, 0 <= i < m -> 0 <= j < n -> (nd_at arr [i; j] == a + inject_Z i * p + inject_Z j * q)%Q.
(** The mean distance between neighbours of a monotone vector. *)
Definition mean_gap (c : list Q) : Q := (Qabs.Qabs (last c 0 - hd 0 c) / inject_Z (zlen c - 1))%Q.

(** ** C136 *)
Definition EvenVector (c : list Q) (a d : Q) : Prop :=
  forall k x, nth_error c k = Some x -> (x == a + inject_Z (Z.of_nat k) * d)%Q.
(** The bounds all ranks hold together. *)
Definition gathered (l : list (res (option cbounds))) : option (list (Q * Q)) :=
  fold_right (fun r acc =>
    match r, acc with
    | Ok None, Some k => Some k
    | Ok (Some (B1 b)), Some k => Some (b ++ k)
    | _, _ => None
    end) (Some []) l.
Definition SamePairs (a b : list (Q * Q)) : Prop := Forall2 (fun x y => fst x == fst y /\ snd x == snd y)%Q a b.

(** ** C137 *)
Definition InGeom (g : cgeom) (x y : Q) : Prop :=
  match g with
  | GPoint a b => (x == a /\ y == b)%Q
  | GBox a b c d => (a <= x <= c /\ b <= y <= d)%Q
  | GPolygon _ => False
  end.

(** ** C138 *)
(** The array [a] after the assignment of [src] to the elements [lo <= k < hi] of every
    axis. *)
Definition Assigned {A} (dst : nd A) (box : list (Z * Z)) (src a : nd A) : Prop :=
  nd_shape a = nd_shape dst /\
  forall idx, List.length idx = List.length box ->
    (Forall2 (fun ab i => fst ab <= i < snd ab) box idx ->
       nd_at a idx = nd_at src (map (fun abi => snd abi - fst (fst abi)) (combine box idx))) /\
    (~ Forall2 (fun ab i => fst ab <= i < snd ab) box idx -> nd_at a idx = nd_at dst idx).
(** The slices of every axis as index ranges. *)
Definition ranges (shape : list Z) (slc : list pyslice) : list (Z * Z) :=
  map (fun ns => slice_bounds (fst ns) (snd ns)) (combine shape slc).
