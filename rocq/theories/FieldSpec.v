(** Vocabulary of C66. *)
From Verif Require Import Py Spec DimensionModel DimensionSpec NdModel ScopeModel ScopeSpec SliceModel SliceSpec FieldModel.
From Verif Require DmapModel.
From Coq Require Import Permutation.

(** The slice of a collection, its dimensions in any order. *)
Definition SlicedField {A} (c : scoll A) (dslice : list (string * item)) (c' : scoll A) : Prop :=
  Permutation (map fst (sc_dims c')) (map fst (sc_dims c)) /\
  (forall n d, In (n, d) (sc_dims c) -> exists d', In (n, d') (sc_dims c') /\ d_name d' = n /\
     match dget String.eqb dslice n with
     | None => d' = d
     | Some i => forall l, Represents d l -> exists l', py_select l (item_raw i) = Ok l' /\ Represents d' l'
     end) /\
  Forall2 (fun kv kv' => fst kv' = fst kv /\ sv_dims (snd kv') = sv_dims (snd kv) /\
     exists sels, Forall2 (fun n ps => exists d, In (n, d) (sc_dims c) /\ Positions dslice n (dim_len d) ps)
                          (sv_dims (snd kv)) sels /\
       Both (Selected sels) (sv_value (snd kv)) (sv_value (snd kv')) /\
       Both (Selected sels) (sv_mask (snd kv)) (sv_mask (snd kv'))) (sc_vars c) (sc_vars c').

(** The dictionary [dslice] says the same as [own] with the standard names in
    place of the names of the field's dimensions. *)
Definition Translates (mapping : list (string * list string)) (names : list string) (dslice own : list (string * item)) : Prop :=
  Forall2 (fun p q => snd p = snd q /\ In (fst q) names /\ RenamesTo mapping (fst q) (fst p)) dslice own.

(** The field is as it was: its dimensions under their names, its variables with
    their dimension names. *)
Definition SameField {A} (f f' : field A) : Prop :=
  cs_dims (fi_coll f') = cs_dims (fi_coll f) /\ cs_vars (fi_coll f') = cs_vars (fi_coll f) /\ view f' = view f.

(** The entries of a slice dictionary that name a dimension of the field. *)
Inductive Keeps (P : string -> Prop) : list (string * item) -> list (string * item) -> Prop :=
| KNil : Keeps P [] []
| KKeep p l l' : P (fst p) -> Keeps P l l' -> Keeps P (p :: l) (p :: l')
| KDrop p l l' : ~ P (fst p) -> Keeps P l l' -> Keeps P (p :: l) l'.

(** What a dimension map says about a standard name: its variable, and its
    dimension names, which are the variable's name if none are stored. *)
Definition MapVariable (st : DmapModel.storage) (k v : string) : Prop :=
  exists e, dget String.eqb st k = Some (DmapModel.IEntry e) /\ DmapModel.et_variable e = Some (Some v).
Definition MapNames (st : DmapModel.storage) (k v : string) (l : list string) : Prop :=
  exists e, dget String.eqb st k = Some (DmapModel.IEntry e) /\
    match DmapModel.et_dimension e with Some (n :: t) => l = n :: t | _ => l = [v] end.
Definition Plain (st : DmapModel.storage) : Prop :=
  forall k, In k ["realization"; "time"; "level"; "y"; "x"; "geom"]%string -> forall i, dget String.eqb st k = Some i -> exists e, i = DmapModel.IEntry e.
(** The standard names that can be sliced: geometries only with one dimension. *)
Definition Standard (st : DmapModel.storage) (k : string) : Prop :=
  In k ["realization"; "time"; "level"; "y"; "x"]%string \/
  (k = "geom"%string /\ exists e n, dget String.eqb st k = Some (DmapModel.IEntry e) /\ DmapModel.et_dimension e = Some [n]).
