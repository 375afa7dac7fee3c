(** What re-indexing coordinates should give (C10). *)
From Verif Require Import Py Spec.
Open Scope Z_scope.

(** [i] is the new index of [x]: the position of [x], from [start] on, in the
    unique values of all ranks one after the other. *)
Definition NewIndex (us : list (list Z)) (start x i : Z) : Prop :=
  start <= i /\ nth_error (concat us) (Z.to_nat (i - start)) = Some x.

(** Rank [r] will put questions to rank [o]: some old index on [r] lies between two
    of the unique values kept on [o]. *)
Definition Asks (arrs us : list (list Z)) (r o : nat) : Prop :=
  r <> o /\ exists arr u x a b, nth_error arrs r = Some arr /\ nth_error us o = Some u /\
    In x arr /\ In a u /\ In b u /\ a <= x <= b.

(** No two ranks other than the root wait for each other, not even through others:
    they can be put on levels such that questions only go down. *)
Definition Layered (arrs us : list (list Z)) : Prop :=
  exists level : nat -> nat, forall r o, r <> 0%nat -> o <> 0%nat -> Asks arrs us r o -> (level o < level r)%nat.
