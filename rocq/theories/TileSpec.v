(** What regridding by chunks should do (C143 to C146). *)
From Verif Require Import Py NdModel ChunkModel CoordModel TileModel.
From Coq Require Import QArith Qminmax.
Local Open Scope Q_scope.

(** A grid with at least one cell whose bounds and mask have the shape of its centres. *)
Definition GoodGrid (g : tgrid) : Prop :=
  tg_ys g <> [] /\ tg_xs g <> [] /\
  match tg_bounds g with
  | Some (yb, xb) => List.length yb = List.length (tg_ys g) /\ List.length xb = List.length (tg_xs g)
  | None => True
  end /\
  match tg_mask g with
  | Some m => List.length m = List.length (tg_ys g) /\ Forall (fun r => List.length r = List.length (tg_xs g)) m
  | None => True
  end.

(** The centre [y, x] is not further than [reach] from a cell along either axis. *)
Definition near1 (reach : Q) (ends : Q * Q) (v : Q) : bool :=
  Qle_bool (Qmin (fst ends) (snd ends) - reach) v && Qle_bool v (Qmax (fst ends) (snd ends) + reach).
Definition near {V} (reach : Q) (cell : (Q * Q) * (Q * Q)) (p : Q * Q * V) : bool :=
  near1 reach (fst cell) (fst (fst p)) && near1 reach (snd cell) (snd (fst p)).
(** The regridding looks only at the source points within its reach: a cell has the same
    value if all others are left out. *)
Definition Local {V W} (reach : Q) (regrid : list (Q * Q * V) -> (Q * Q) * (Q * Q) -> W) : Prop :=
  forall points cell, regrid points cell = regrid (filter (near reach cell) points) cell.

(** The chunk lies in the grid. *)
Definition InGrid (g : tgrid) (cell : (Z * Z) * (Z * Z)) : Prop :=
  (0 <= fst (fst cell) < snd (fst cell))%Z /\ (snd (fst cell) <= zlen (tg_ys g))%Z /\
  (0 <= fst (snd cell) < snd (snd cell))%Z /\ (snd (snd cell) <= zlen (tg_xs g))%Z.
(** The position lies in the chunk. *)
Definition InChunk (cell : (Z * Z) * (Z * Z)) (j i : nat) : Prop :=
  (fst (fst cell) <= Z.of_nat j < snd (fst cell))%Z /\ (fst (snd cell) <= Z.of_nat i < snd (snd cell))%Z.
(** The source has a centre within the distance of the cell. *)
Definition Reached (reach : Q) (src : tgrid) (cell : (Q * Q) * (Q * Q)) : Prop :=
  exists y x, In y (tg_ys src) /\ In x (tg_xs src) /\ near reach cell (y, x, tt) = true.
(** The mean of the source points within half a step: an example of a regridding with a
    reach. *)
Definition sum_near (reach : Q) (points : list (Q * Q * Z)) (cell : (Q * Q) * (Q * Q)) : Z :=
  fold_right Z.add 0%Z (map snd (filter (near reach cell) points)).

(** An axis with equal steps. *)
Definition Steps (d : Q) (l : list Q) : Prop := forall k a b, nth_error l k = Some a -> nth_error l (S k) = Some b -> (b - a == d)%Q.
