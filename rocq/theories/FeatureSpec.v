(** What the attributes of a field made from records should be. *)
From Coq Require Import QArith.
From Verif Require Import Py NdModel FeatureModel.
Local Open Scope string_scope.
Local Open Scope list_scope.
Local Open Scope Z_scope.

(** A value of the kind of the value of the first record, or none. *)
Definition same_kind (first v : pval) : Prop :=
  match first, v with
  | PList, _ => False
  | _, PNone => True
  | PNone, PInt _ | PInt _, PInt _ => True
  | PFloat _, PFloat _ => True
  | PStr _, PStr _ => True
  | _, _ => False
  end.

(** The records all look like the first one: no key that it has not, values of the same kind. *)
Definition like_first (first p : props) : Prop :=
  NoDup (map fst p) /\ forall k v, In (k, v) p -> exists v0, dget String.eqb first k = Some v0 /\ same_kind v0 v.

(** The cell for a value that may be absent. *)
Definition cell_for (v : option pval) : cell := match v with None | Some PNone => Fill | Some w => Val w end.

(** The identifiers 1, 2, ... *)
Definition counted (n : nat) : list Z := map (fun i => Z.of_nat i + 1) (seq 0 n).

Definition masked (c : column) (i : nat) : bool := match c_mask c with None => false | Some m => nth i m false end.
