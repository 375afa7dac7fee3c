(** Specification of C90-C92. *)
From Verif Require Import Py CoordModel WrapModel.
Local Open Scope Q_scope.

(** What is known of the geometry library.  [inside p (x, y)]: the polygon covers the
    point; [clip l lo hi] are the parts of the polygons between two meridians. *)
Definition translated (d : Q) (p : poly) : poly :=
  mkpoly (map (fun q => (fst q + d, snd q)) (p_ext p)) (map (map (fun q => (fst q + d, snd q))) (p_holes p)).
Record Library (inside : poly -> Q -> Q -> Prop) (clip : list poly -> Q -> Q -> list piece) : Prop := {
  lib_equal : forall p x x' y, x == x' -> inside p x y -> inside p x' y;
  lib_translated : forall p d x y, inside (translated d p) (x + d) y <-> inside p x y;
  (** a polygon lies between its outermost corners *)
  lib_hull : forall p x y, inside p x y -> exists a b, In a (p_ext p) /\ In b (p_ext p) /\ fst a <= x <= fst b;
  (** holes only take points away *)
  lib_holes : forall e h x y, inside (mkpoly e h) x y -> inside (mkpoly e []) x y;
  (** the polygons among the parts cover what lies strictly between the meridians, and
      nothing else *)
  lib_clip : forall l lo hi x y, lo < x < hi ->
    ((exists q, In (Area q) (clip l lo hi) /\ inside q x y) <-> exists p, In p l /\ inside p x y);
  lib_clip_corners : forall l lo hi p q, In (Area p) (clip l lo hi) -> In q (p_ext p) -> lo <= fst q <= hi;
  (** no holes arise *)
  lib_clip_holes : forall l lo hi q, (forall p, In p l -> p_holes p = []) -> In (Area q) (clip l lo hi) -> p_holes q = [];
  (** boxes; the part of a box is a box, a line or nothing *)
  lib_box : forall x0 y0 x1 y1 x y, x0 <= x1 -> y0 <= y1 -> (inside (box x0 y0 x1 y1) x y <-> x0 <= x <= x1 /\ y0 <= y <= y1);
  lib_clip_box : forall x0 y0 x1 y1 lo hi, (exists q, clip [box x0 y0 x1 y1] lo hi = [Area q]) \/ clip [box x0 y0 x1 y1] lo hi = [Line] \/ clip [box x0 y0 x1 y1] lo hi = []
}.

(** The geometry covers the point. *)
Definition Covers (inside : poly -> Q -> Q -> Prop) (g : region) (x y : Q) : Prop := exists p, In p (exploded g) /\ inside p x y.
Definition NoHoles (g : region) : Prop := forall p, In p (exploded g) -> p_holes p = [].
(** All corners lie between two meridians. *)
Definition CornersWithin (lo hi : Q) (g : region) : Prop := forall p q, In p (exploded g) -> In q (p_ext p) -> lo <= fst q <= hi.
(** The geometry reaches across the 180th meridian. *)
Definition Crosses (g : region) : Prop :=
  (exists p q, In p (exploded g) /\ In q (p_ext p) /\ fst q <= 180) /\ exists p q, In p (exploded g) /\ In q (p_ext p) /\ 180 < fst q.

(** C91.  The x coordinates a process holds, those of masked geometries left out. *)
Definition xs_of_target (t : wtarget) : list Q :=
  match t with EmptyTarget => [] | GridTarget xs => xs | GeomTarget l => flat_map (fun g => match g with Some xs => xs | None => [] end) l end.
