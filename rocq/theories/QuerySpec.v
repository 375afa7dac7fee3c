(** Datasets of a request as a user sees them. *)
From Verif Require Import Py.
From Coq Require Import String Ascii.
Local Open Scope string_scope.

(** A string without the separator. *)
Fixpoint NoBar (s : string) : Prop :=
  match s with EmptyString => True | String c t => c <> "|"%char /\ NoBar t end.

(** The strings with the separator between them. *)
Fixpoint join_bar (l : list string) : string :=
  match l with
  | [] => ""
  | [x] => x
  | x :: t => x ++ "|" ++ join_bar t
  end.

(** An argument for every dataset, or for none. *)
Definition ForEach (n : nat) (l : option (list string)) : Prop :=
  match l with None => True | Some l => List.length l = n /\ Forall NoBar l end.
Definition Argument (l : option (list string)) (i : nat) (x : option string) : Prop :=
  match l with None => x = None | Some l => exists y, nth_error l i = Some y /\ x = Some y end.
