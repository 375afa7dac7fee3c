(** What equality of dimension maps and the rules for entries mean. *)
From Verif Require Import Py DmapModel.
Local Open Scope string_scope.
Local Open Scope Z_scope.

(** Equality of Python dictionaries: the same keys, and equal values; an entry is a
    dictionary of elements, whose attributes are a dictionary again. *)
Definition AttrsEq (a b : option attrs) : Prop :=
  match a, b with
  | None, None => True
  | Some a, Some b => forall k, dget String.eqb a k = dget String.eqb b k
  | _, _ => False
  end.
Definition EntryEq (a b : entry) : Prop :=
  et_variable a = et_variable b /\ et_bounds a = et_bounds b /\ et_dimension a = et_dimension b
  /\ AttrsEq (et_attrs a) (et_attrs b) /\ et_section a = et_section b.

Inductive DmEq : dmap -> dmap -> Prop :=
| DmEq_intro st st' : (forall k, ItemEq (dget String.eqb st k) (dget String.eqb st' k)) -> DmEq (DMap st) (DMap st')
with ItemEq : option item -> option item -> Prop :=
| ItemEq_none : ItemEq None None
| ItemEq_entry e e' : EntryEq e e' -> ItemEq (Some (IEntry e)) (Some (IEntry e'))
| ItemEq_special s : ItemEq (Some (ISpecial s)) (Some (ISpecial s))
| ItemEq_groups g g' :
    (forall n, OptEq (dget String.eqb g n) (dget String.eqb g' n)) -> ItemEq (Some (IGroups g)) (Some (IGroups g'))
| ItemEq_topology t t' :
    (forall n, TopEq (dget String.eqb t n) (dget String.eqb t' n)) -> ItemEq (Some (ITopology t)) (Some (ITopology t'))
with OptEq : option dmap -> option dmap -> Prop :=
| OptEq_none : OptEq None None
| OptEq_some d d' : DmEq d d' -> OptEq (Some d) (Some d')
with TopEq : option (option dmap) -> option (option dmap) -> Prop :=
| TopEq_none : TopEq None None
| TopEq_null : TopEq (Some None) (Some None)
| TopEq_some d d' : DmEq d d' -> TopEq (Some (Some d)) (Some (Some d')).

(** Keys whose entries are set by [set_variable]. *)
Definition coordinate_keys : list string :=
  ["attribute_host"; "element_node_connectivity"; "geom"; "level"; "time"; "realization"; "x"; "y"].

(** Maps a user builds by successful calls, never asking for what was not set:
    variables, bounds, coordinate systems, drivers, spatial masks without
    attributes of their own, groups, and reading what has been set. *)
Inductive Built : dmap -> Prop :=
| BNew : Built (DMap [])
| BVariable st st' key v dimension bounds att pos dimensionless section :
    Built (DMap st) -> set_variable st key v dimension bounds att pos dimensionless section = (st', None) -> Built (DMap st')
| BBounds st st' key b : Built (DMap st) -> In key coordinate_keys -> set_bounds st key b = (st', None) -> Built (DMap st')
| BCrs st st' v : Built (DMap st) -> set_crs st v = (st', None) -> Built (DMap st')
| BDriver st st' d : Built (DMap st) -> set_driver st d = (st', None) -> Built (DMap st')
| BMask st st' v : Built (DMap st) -> dvar_attrs v = [] -> set_spatial_mask st v None None = (st', None) -> Built (DMap st')
| BGroup st st' name g : Built (DMap st) -> Built g -> set_group st name g = (st', None) -> Built (DMap st')
| BRead st st' o key :
    Built (DMap st) -> In o [OGetVariable key; OGetBounds key; OGetDimension key; OGetAttrs key] -> In key coordinate_keys ->
    dmem String.eqb st key = true -> step st o = (st', None) -> Built (DMap st')
| BReadCrs st st' : Built (DMap st) -> dmem String.eqb st "crs" = true -> step st OGetCrs = (st', None) -> Built (DMap st')
| BReadMask st st' :
    Built (DMap st) -> dmem String.eqb st "spatial_mask" = true -> step st OGetSpatialMask = (st', None) -> Built (DMap st')
| BReadGroup st st' name : Built (DMap st) -> step st (OGetGroup name) = (st', None) -> Built (DMap st').

(** The bounds and the dimension that [set_variable] is to store: what is given,
    else what the variable has.  Of several dimensions the position chooses one. *)
Definition wanted_bounds (v : dvar) (bounds : option string) : option string :=
  match bounds, v with
  | Some b, _ => Some b
  | None, DVar _ vb _ _ => vb
  | None, _ => None
  end.
Inductive WantedDimension (v : dvar) (dimension : option (list string)) (pos : option Z) (dimensionless : bool) : list string -> Prop :=
| WDGiven d : dimension = Some d -> WantedDimension v dimension pos dimensionless d
| WDName : dimension = None -> (forall n b dims a, v <> DVar n b dims a) -> WantedDimension v dimension pos dimensionless []
| WDScalar n b a : dimension = None -> v = DVar n b [] a -> WantedDimension v dimension pos dimensionless []
| WDLess n b dims a : dimension = None -> v = DVar n b dims a -> dimensionless = true -> WantedDimension v dimension pos dimensionless []
| WDOne n b d a : dimension = None -> v = DVar n b [d] a -> dimensionless = false -> WantedDimension v dimension pos dimensionless [d]
| WDPos n b dims a p d :
    dimension = None -> v = DVar n b dims a -> 1 < zlen dims -> dimensionless = false -> pos = Some p ->
    py_index dims p = Ok d -> WantedDimension v dimension pos dimensionless [d].

(** The first of several dictionaries that has the key. *)
Fixpoint first_of (ds : list attrs) (k : string) : option string :=
  match ds with
  | [] => None
  | d :: t => match dget String.eqb d k with Some x => Some x | None => first_of t k end
  end.
Definition attrs_before (st : storage) (key : string) : attrs :=
  match dget String.eqb st key with Some (IEntry e) => match et_attrs e with Some a => a | None => [] end | _ => [] end.

(** Operations that set the entry of a key. *)
Definition Sets (key : string) (o : op) : Prop :=
  match o with
  | OSetVariable k _ _ _ _ _ _ _ => k = key
  | OSetBounds k _ => k = key
  | _ => False
  end.

(** Python dictionaries have one value per key. *)
Definition WfDict (d : attrs) : Prop := NoDup (map fst d).
Definition WfOpt (d : option attrs) : Prop := match d with Some d => WfDict d | None => True end.
Definition WfOp (o : op) : Prop :=
  match o with
  | OSetVariable _ v _ _ att _ _ _ => WfDict (dvar_attrs v) /\ WfOpt att
  | OSetSpatialMask v att d => WfDict (dvar_attrs v) /\ WfOpt att /\ WfOpt d
  | _ => True
  end.
