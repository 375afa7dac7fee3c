(** The coordinate variables of a field as a user sees them. *)
From Verif Require Import Py RoleModel.
From Coq Require Import String.
Local Open Scope string_scope.

(** A field: its variables are under their names, and their bounds are there. *)
Definition WellFormed (f : ffield) : Prop :=
  NoDup (map fst (ff_vars f)) /\ NoDup (map fst (ff_map f)) /\
  (forall n v, dget String.eqb (ff_vars f) n = Some v -> fv_name v = n) /\
  (forall n v b, dget String.eqb (ff_vars f) n = Some v -> fv_bounds v = Some b -> exists w, dget String.eqb (ff_vars f) b = Some w).

(** The collection of a variable: different names, the variable among them. *)
Definition Family (a : farg) : Prop := NoDup (map fv_name (fa_family a)) /\ In (fa_var a) (fa_family a).
Definition FamilyName (a : farg) (n : string) : Prop := In n (map fv_name (fa_family a)).

(** The names that leave the field: the coordinate variable before, unless it is the very same
    variable, and its bounds. *)
Definition Leaves (f : ffield) (key : string) (a : option farg) (n : string) : Prop :=
  exists c, coordinate f key = Some c /\
    (forall x, a = Some x -> fv_id (fa_var x) <> fv_id c) /\
    (n = fv_name c \/ fv_bounds c = Some n).

Definition HasVar (f : ffield) (n : string) : option fvar := dget String.eqb (ff_vars f) n.
