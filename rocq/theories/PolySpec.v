(** Vocabulary for C97-C99. *)
From Coq Require Import QArith.
From Verif Require Import Py ChunkModel PolyModel.
Local Close Scope Q_scope.
Local Open Scope nat_scope.

Definition point : Type := Q * Q.
(** Strictly inside a box, and outside of it. *)
Definition Within (b : qbox) (pt : point) : Prop :=
  let '(x0, y0, x1, y1) := b in (x0 < fst pt < x1)%Q /\ (y0 < snd pt < y1)%Q.
Definition Beyond (b : qbox) (pt : point) : Prop :=
  let '(x0, y0, x1, y1) := b in (fst pt < x0)%Q \/ (x1 < fst pt)%Q \/ (snd pt < y0)%Q \/ (y1 < snd pt)%Q.
(** A box in another. *)
Definition Inside (a b : qbox) : Prop :=
  let '(ax0, ay0, ax1, ay1) := a in let '(bx0, by0, bx1, by1) := b in
  (bx0 <= ax0)%Q /\ (ax1 <= bx1)%Q /\ (by0 <= ay0)%Q /\ (ay1 <= by1)%Q.

(** How many polygons of a list cover a point (in their interior). *)
Definition covered {P} (covers : P -> point -> bool) (l : list P) (pt : point) : nat :=
  length (filter (fun p => covers p pt) l).

(** What is assumed of the geometry library: the intersection with a box covers the points
    of the polygon in the box once, and no others; the holes of the intersection come from
    holes in the box; the centroid of a hole is within the bounds of the hole. *)
Record PolygonLibrary {P H} (covers : P -> point -> bool) (holes : P -> list H) (hole_centroid : H -> point) (hole_bounds : H -> qbox)
    (bounds : P -> qbox) (cut : P -> qbox -> geometry P) (meets : P -> qbox -> bool) (good : P -> Prop) : Prop := {
  pl_bounds : forall p pt, good p -> covers p pt = true -> Within (bounds p) pt;
  pl_in : forall p b pt, good p -> Within b pt -> covered covers (polygons (cut p b)) pt = covered covers [p] pt;
  pl_out : forall p b pt, good p -> Beyond b pt -> covered covers (polygons (cut p b)) pt = 0;
  pl_only : forall p b pt, good p -> covers p pt = false -> covered covers (polygons (cut p b)) pt = 0;
  pl_meets : forall p b pt, good p -> Within b pt -> covers p pt = true -> meets p b = true;
  pl_holes : forall p b q h', good p -> In q (polygons (cut p b)) -> In h' (holes q) -> exists h, In h (holes p) /\ Inside (hole_bounds h) b;
  pl_centroid : forall p h, good p -> In h (holes p) -> Within (hole_bounds h) (hole_centroid h)
}.

(** Off the lines along which a polygon with holes is split, and off the lines of a grid of
    [n] rows and columns over a box. *)
Definition OffHoleLines {P H} (holes : P -> list H) (hole_centroid : H -> point) (p : P) (pt : point) : Prop :=
  forall h, In h (holes p) -> ~ (fst pt == fst (hole_centroid h))%Q /\ ~ (snd pt == snd (hole_centroid h))%Q.
Definition OffGridLines (b : qbox) (n : Z) (pt : point) : Prop :=
  let '(x0, y0, x1, y1) := b in
  forall i, (0 <= i <= n)%Z ->
    ~ (fst pt == x0 + inject_Z i * ((x1 - x0) / inject_Z n))%Q /\ ~ (snd pt == y0 + inject_Z i * ((y1 - y0) / inject_Z n))%Q.

(** How often a node occurs. *)
Definition occurrences {V} (veqb : V -> V -> bool) (x : V) (l : list V) : nat := length (filter (veqb x) l).
