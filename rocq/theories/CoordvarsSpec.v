(** Coordinates and axes as a user sees them. *)
From Verif Require Import Py CoordvarsModel.
From Coq Require Import String.
Local Open Scope string_scope.
Local Open Scope list_scope.

(** The order of abstractions: polygons before lines before points. *)
Definition rank (a : string) : nat := if String.eqb a "polygon" then 0 else if String.eqb a "line" then 1 else 2.
Definition Known (a : string) : Prop := a = "polygon" \/ a = "line" \/ a = "point".
