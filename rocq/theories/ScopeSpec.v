(** Vocabulary of C46 (scopes of base.py) and of the renaming part of C66. *)
From Verif Require Import Py Spec NdModel ScopeModel.

(** What a grid offers: points always, polygons if it has bounds. *)
Definition Offers (g : gridst) (a : abstr) : Prop := a = AbsPoint \/ (a = AbsPolygon /\ gr_bounds g = true).

(** The dimension objects of a variable: the cached ones of an orphan, otherwise
    those its collection files under its dimension names. *)
Definition DimensionsAre (v : varst) (ds : list Z) : Prop := var_dimensions v = (v, Ok ds).

(** The name [n] becomes [m]: the key it is listed under, if any. *)
Definition RenamesTo (mapping : list (string * list string)) (n m : string) : Prop :=
  (exists v, In (m, v) mapping /\ In n v) \/
  ((forall k v, In (k, v) mapping -> ~ In n v) /\ m = n).

(** A collection as its methods leave it: dimensions and variables are filed
    under their names, one per name. *)
Definition WellKeyed (c : collst) : Prop :=
  NoDup (map fst (cs_dims c)) /\ NoDup (map snd (cs_dims c)) /\
  (forall k d, In (k, d) (cs_dims c) -> cs_names c d = k) /\
  NoDup (map fst (cs_vars c)) /\ (forall k v, In (k, v) (cs_vars c) -> cs_vname c v = k).

(** The variables have dimensions of the collection. *)
Definition DimsKnown (c : collst) : Prop :=
  forall k v n, In (k, v) (cs_vars c) -> In n (cs_vdims c v) -> In n (map fst (cs_dims c)).

(** A mapping from new names to present names that cannot mix up dimensions: every
    name is listed under one key, a key stands for at most one of the dimensions,
    and a key that is the name of a dimension is listed under itself. *)
Definition CleanMapping (mapping : list (string * list string)) (names : list string) : Prop :=
  NoDup (map fst mapping) /\
  (forall k v k' v' n, In (k, v) mapping -> In (k', v') mapping -> In n v -> In n v' -> k = k') /\
  (forall k v n n', In (k, v) mapping -> In n names -> In n' names -> In n v -> In n' v -> n = n') /\
  (forall k v n, In (k, v) mapping -> In n names -> In n v -> In k names -> n = k).
