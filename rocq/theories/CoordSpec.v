(** Vocabulary of C32, C33, C44, C45, C52, C53, C56 and C62. *)
From Verif Require Import Py Spec NdModel NdSpec AggSpec CoordModel.
Local Open Scope Q_scope.

(** ** C32 *)
Definition Within (lo hi x : Q) : Prop := lo <= x <= hi.
Definition SameCoords (a b : list Q) : Prop := Forall2 Qeq a b.
Definition SamePoint (p q : Q * Q) : Prop := fst p == fst q /\ snd p == snd q.
(** The points of a geometry, hole vertices included. *)
Definition points_of (g : geom) : list (Q * Q) :=
  match g with
  | GPoint x y => [(x, y)]
  | GMultiPoint pts => pts
  | GPolygon ext holes => ext ++ concat holes
  end.

(** ** C33 *)
(** Strictly ascending. *)
Definition Ascending (l : list Q) : Prop :=
  forall i j x y, (i < j)%nat -> nth_error l i = Some x -> nth_error l j = Some y -> x < y.
(** Row [i] of the x coordinates (the only row of a vectorized grid). *)
Definition x_row (g : grid) (x : nd Q) (i : Z) : list Q :=
  map (fun j => nd_at x (if g_vectorized g then [j] else [i; j])) (zrange 0 (snd (g_col g))).
(** [s] is the position of the first negative coordinate. *)
Definition FirstNegative (row : list Q) (s : Z) : Prop :=
  exists x, (0 <= s)%Z /\ nth_error row (Z.to_nat s) = Some x /\ x < 0 /\
    forall k y, (k < Z.to_nat s)%nat -> nth_error row k = Some y -> 0 <= y.
(** A grid as the API builds it: not empty, the x variable over the grid dimensions,
    all sizes of the row and column dimension equal to those of the grid. *)
Definition GoodGrid (g : grid) (xv : nvar Q) : Prop :=
  fst (g_row g) <> fst (g_col g) /\ (0 < snd (g_row g))%Z /\ (0 < snd (g_col g))%Z /\
  NoDup (map fst (g_vars g)) /\ In (g_x g, xv) (g_vars g) /\
  nv_dims xv = (if g_vectorized g then [g_col g] else [g_row g; g_col g]) /\
  forall name v, In (name, v) (g_vars g) -> GoodVar v /\
    (forall n, In (fst (g_row g), n) (nv_dims v) -> n = snd (g_row g)) /\
    (forall n, In (fst (g_col g), n) (nv_dims v) -> n = snd (g_col g)).
(** [a'] is [a] with every row moved by the shift of the row. *)
Definition RotatedRows {A} (names : list string) (shape : list Z) (row col : string) (ncol : Z) (shift : Z -> Z) (a a' : nd A) : Prop :=
  nd_shape a' = nd_shape a /\
  forall c, IndexOf shape (map c names) ->
    nd_at a' (map c names) = nd_at a (map (with_coord c col ((c col + shift (c row)) mod ncol)%Z) names).
(** The longitude as degrees east, 0 to 360. *)
Definition eastward (x : Q) : Q := if Qlt_le_dec x 0 then x + 360 else x.
(** The effect on one variable of the parent. *)
Definition VarReordered (g : grid) (shift : Z -> Z) (v v' : nvar Q) : Prop :=
  nv_dims v' = nv_dims v /\
  if str_mem (fst (g_col g)) (nv_names v) && str_mem (fst (g_row g)) (nv_names v) then
    RotatedRows (nv_names v) (nv_shape v) (fst (g_row g)) (fst (g_col g)) (snd (g_col g)) shift (nv_value v) (nv_value v') /\
    match nv_mask v, nv_mask v' with
    | None, None => True
    | Some m, Some m' => RotatedRows (nv_names v) (nv_shape v) (fst (g_row g)) (fst (g_col g)) (snd (g_col g)) shift m m'
    | _, _ => False
    end
  else v' = v.
(** The x variable of a vectorized grid is rotated by the shift of the only row. *)
Definition XReordered (g : grid) (shift : Z -> Z) (v v' : nvar Q) : Prop :=
  nv_dims v' = nv_dims v /\ nv_mask v' = nv_mask v /\ nd_shape (nv_value v') = nd_shape (nv_value v) /\
  forall i j, (0 <= i < snd (g_row g))%Z -> (0 <= j < snd (g_col g))%Z -> nd_at (nv_value v') [j] = nd_at (nv_value v) [((j + shift i) mod snd (g_col g))%Z].

(** ** C44 *)
Definition Descending (l : list Q) : Prop :=
  forall i j x y, (i < j)%nat -> nth_error l i = Some x -> nth_error l j = Some y -> y < x.
Definition Integral (x : Q) : Prop := exists z, x = inject_Z z.
(** The cell with the given edges contains the coordinate. *)
Definition InCell (b : Q * Q) (x : Q) : Prop := fst b <= x <= snd b \/ snd b <= x <= fst b.

(** ** C45 *)
(** Neighbouring cells share their corners. *)
Definition CornersAgree {A} (m n : Z) (c : nd A) : Prop :=
  (forall i j, (0 <= i < m)%Z -> (0 <= j)%Z -> (j + 1 < n)%Z ->
     nd_at c [i; j; 1%Z] = nd_at c [i; (j + 1)%Z; 0%Z] /\ nd_at c [i; j; 2%Z] = nd_at c [i; (j + 1)%Z; 3%Z]) /\
  (forall i j, (0 <= i)%Z -> (i + 1 < m)%Z -> (0 <= j < n)%Z ->
     nd_at c [i; j; 3%Z] = nd_at c [(i + 1)%Z; j; 0%Z] /\ nd_at c [i; j; 2%Z] = nd_at c [(i + 1)%Z; j; 1%Z]).
Definition transpose {A} (a : nd A) : nd A :=
  mknd (rev (nd_shape a)) (fun idx => nd_at a (rev idx)).

(** ** C53 *)
Definition InBox (box : Q * Q * Q * Q) (x y : Q) : Prop :=
  let '(minx, miny, maxx, maxy) := box in minx <= x <= maxx /\ miny <= y <= maxy.

(** ** C56 *)
Definition Selected (keep : bool) (lower upper x : Q) : Prop :=
  if keep then lower <= x <= upper else lower < x < upper.

(** ** C52 *)
Fixpoint join (sep : Z) (pieces : list (list Z)) : list Z :=
  match pieces with
  | [] => []
  | [p] => p
  | p :: rest => (p ++ sep :: join sep rest)%list
  end.
(** Selected in the plane, and in space when z bounds are given. *)
Definition SelectedPoint (keep : bool) (minx miny maxx maxy : Q) (zb : option (Q * Q)) (x y z : Q) : Prop :=
  Selected keep minx maxx x /\ Selected keep miny maxy y /\ match zb with None => True | Some (a, b) => Selected keep a b z end.
