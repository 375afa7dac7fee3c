(** Weights, extents and index arrays as a user sees them. *)
From Verif Require Import Py ExtentModel.
From Coq Require Import QArith.

(** The area a geometry counts with: points count 1. *)
Definition CountedArea (a : Q) : Q := if Qeq_bool a 0 then 1 else a.

(** [m] is the largest of the numbers with [P]. *)
Definition LargestOf (P : Q -> Prop) (m : Q) : Prop := P m /\ forall x, P x -> x <= m.
Definition SmallestOf (P : Q -> Prop) (m : Q) : Prop := P m /\ forall x, P x -> m <= x.

(** The counted areas of the geometries that are not masked. *)
Definition CountedAreas {G} (area_of : G -> Q) (g : list (bool * G)) (x : Q) : Prop :=
  exists y, In (false, y) g /\ x = CountedArea (area_of y).
