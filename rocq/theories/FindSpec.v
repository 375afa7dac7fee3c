(** Searches and geometry types as a user sees them. *)
From Verif Require Import Py FindModel.
From Coq Require Import String.

(** An attribute of the variable, of the key if one is given, has the value, or satisfies the
    predicate when no value is given. *)
Definition Matches (key value : option string) (pred : option (string -> bool)) (v : svar) : Prop :=
  exists k x, In (k, x) (sv_attrs v) /\ (forall k', key = Some k' -> k = k') /\
    match value with Some y => x = y | None => exists p, pred = Some p /\ p x = true end.

(** The number of attributes of the variable that match. *)
Definition hits (value : option string) (pred : option (string -> bool)) (v : svar) : nat :=
  List.length (filter (fun kx => match value with
                                 | Some y => String.eqb (snd kx) y
                                 | None => match pred with Some p => p (snd kx) | None => false end
                                 end) (sv_attrs v)).

(** Subsequences: the same elements in the same order, each at most as often. *)
Inductive Subsequence {A} : list A -> list A -> Prop :=
| sub_nil : Subsequence [] []
| sub_keep x a b : Subsequence a b -> Subsequence (x :: a) (x :: b)
| sub_skip x a b : Subsequence a b -> Subsequence a (x :: b).

(** Geometries of a list that has at least one. *)
Definition HasGeometry (l : list (option gkind)) : Prop := exists k, In (Some k) l.
