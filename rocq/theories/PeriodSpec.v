(** Vocabulary of C85 and C86. *)
From Verif Require Import Py PeriodModel.

(** [n] columns from [a] on, [d] apart. *)
Fixpoint regular (a d : Z) (n : nat) : list Z :=
  match n with
  | O => []
  | S n' => a :: regular (a + d) d n'
  end.
Definition last_of (a d : Z) (n : nat) : Z := a + (Z.of_nat n - 1) * d.

(** The columns of the ranks: the first [n1], the next [n2], ... *)
Fixpoint split_over (ns : list nat) (l : list Z) : list (list Z) :=
  match ns with
  | [] => []
  | n :: t => firstn n l :: split_over t (skipn n l)
  end.
Definition total_of (ns : list nat) : nat := fold_right Nat.add O ns.

(** The resolution is [d]. *)
Definition Resolves (r : option (Z * Z)) (d : Z) : Prop := exists s n, r = Some (s, n) /\ 0 < n /\ s = d * n.
(** The resolution is smaller than [d]. *)
Definition Finer (r : option (Z * Z)) (d : Z) : Prop := exists s n, r = Some (s, n) /\ 0 < n /\ s < d * n.

(** All columns are on one side of zero. *)
Definition OneSide (a d : Z) (n : nat) : Prop := (0 <= a /\ 0 <= last_of a d n) \/ (a <= 0 /\ last_of a d n <= 0).
