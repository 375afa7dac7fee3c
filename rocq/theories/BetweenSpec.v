(** Vocabulary of C21. *)
From Verif Require Import Py Spec BetweenModel.

(** A point is in the range: without its ends if [closed] (as the flag is called). *)
Definition InRange (closed : bool) (lower upper x : Q) : Prop :=
  if closed then (lower < x /\ x < upper)%Q else (lower <= x /\ x <= upper)%Q.

(** A point is in the cell with the given bounds, in whatever order these are. *)
Definition InCell (r : Q * Q) (x : Q) : Prop :=
  ((fst r <= x /\ x <= snd r) \/ (snd r <= x /\ x <= fst r))%Q.

(** The same without the upper end, unless the cell is a point. *)
Definition InCellLower (r : Q * Q) (x : Q) : Prop :=
  ((fst r <= x /\ x < snd r) \/ (snd r <= x /\ x < fst r) \/ (fst r == x /\ snd r == x))%Q.

(** Neighbouring cells share a coordinate.  As the code does, decided by the first
    two. *)
Definition Share (r s : Q * Q) : Prop := (fst r == fst s \/ fst r == snd s \/ snd r == fst s \/ snd r == snd s)%Q.
Definition Contiguous (bounds : list (Q * Q)) : Prop :=
  match bounds with r :: s :: _ => Share r s | _ => False end.

(** All cells are given in the order of the first: lower bound first, or upper
    bound first. *)
Definition SameOrder (bounds : list (Q * Q)) : Prop :=
  Forall (fun r => fst r <= snd r)%Q bounds \/
  (Forall (fun r => snd r <= fst r)%Q bounds /\ exists r t, bounds = r :: t /\ (snd r < fst r)%Q).

(** Position [k] of the variable meets the range. *)
Definition MeetsRange (values : list Q) (bounds : option (list (Q * Q))) (lower upper : Q) (closed use_bounds : bool) (k : nat) : Prop :=
  match bounds, use_bounds with
  | Some b, true =>
    exists r x, nth_error b k = Some r /\ InRange closed lower upper x /\
      ((closed = false /\ Contiguous b -> InCellLower r x) /\ (closed = true \/ ~ Contiguous b -> InCell r x))
  | _, _ => exists v, nth_error values k = Some v /\ InRange closed lower upper v
  end.
