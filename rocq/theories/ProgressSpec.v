(** Progress as a user sees it. *)
From Verif Require Import Py ProgressModel.
From Coq Require Import QArith.

(** Percentages that never go back. *)
Fixpoint NotBack (l : list Q) : Prop :=
  match l with
  | [] => True
  | x :: t => (forall y, In y t -> (x <= y)%Q) /\ NotBack t
  end.
(** Percentages from 0 to 100. *)
Definition InRange (l : list Q) : Prop := forall x, In x l -> (0 <= x <= 100)%Q.
Definition Progress (l : list Q) : Prop := NotBack l /\ InRange l.

(** Collections on ranks that take part. *)
Definition Present (ds : list (list yielded)) : Prop := forall ys y, In ys ds -> In y ys -> y_null y = false.
