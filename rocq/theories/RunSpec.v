(** What is said about the files of a run, independently of how it does it. *)
From Verif Require Import Py RunModel.
Local Open Scope string_scope.

(** What is at a name of the directory for output. *)
Definition at_name (f : fs) (n : string) : option node := dget String.eqb f n.

(** A run of at least one rank. *)
Definition ranked (c : cfg) : Prop := (0 < size c)%nat.

(** Every rank has returned without an exception. *)
Definition succeeded (c : cfg) (s : sys) : Prop := forall r, (r < size c)%nat -> s_rank s r = Left true.

(** What a rank writes last to a name, if anything. *)
Fixpoint last_write (l : list act) (n : string) : option string :=
  match l with
  | [] => None
  | Write m x :: t => match last_write t n with Some y => Some y | None => if String.eqb m n then Some x else None end
  | _ :: t => last_write t n
  end.

(** A rank writes nothing (to a name). *)
Definition silent (l : list act) : Prop := forall n x, ~ In (Write n x) l.
Definition silent_on (n : string) (l : list act) : Prop := forall x, ~ In (Write n x) l.

(** Only the rank [r] writes to the name. *)
Definition sole_writer (c : cfg) (r : nat) (n : string) : Prop :=
  forall r', (r' < size c)%nat -> r' <> r -> silent_on n (acts c r').

(** The directory of a run can be made: nothing is there, or a directory that may be overwritten. *)
Definition makeable (c : cfg) (f : fs) : Prop :=
  at_name f (c_prefix c) = None \/ (c_overwrite c = true /\ exists es, at_name f (c_prefix c) = Some (Dir es)).

(** A rank that meets no exception: none of its own, and no check that may refuse. *)
Definition harmless (c : cfg) (l : list act) : Prop :=
  ~ In Fail l /\ (c_overwrite c = true \/ forall n, ~ In (Check n) l).

(** How often a rank waits for the others. *)
Fixpoint syncs (l : list act) : nat :=
  match l with [] => 0 | Sync :: t => S (syncs t) | _ :: t => syncs t end.
