(** Model of driver/dimension_map.py.  References are to that file unless another
    is named. *)
From Verif Require Import Py.
Local Open Scope string_scope.
Local Open Scope Z_scope.

Definition attrs := list (string * string).

(** The dictionary of an entry: each element may be absent.  [et_variable] and
    [et_bounds] hold [None] or a name.  A section is given by its items. *)
Record entry := mkentry {
  et_variable : option (option string);
  et_bounds : option (option string);
  et_dimension : option (list string);
  et_attrs : option attrs;
  et_section : option (list (option Z)) }.
Definition empty_entry : entry := mkentry None None None None None.

(** 23-24: the storage of a dimension map.  [ISpecial] stands for the values of
    the driver, the grid abstraction and the isomorphism flag. *)
Inductive dmap := DMap (storage : list (string * item))
with item :=
| IEntry (e : entry)
| ISpecial (s : string)
| IGroups (g : list (string * dmap))
| ITopology (t : list (string * option dmap)).
Definition storage := list (string * item).
Definition storage_of (d : dmap) : storage := match d with DMap st => st end.

(** constants.py:246-274. *)
Definition entry_keys : list string :=
  ["attribute_host"; "crs"; "driver"; "element_node_connectivity"; "geom"; "grid_abstraction"; "is_isomorphic";
   "level"; "spatial_mask"; "time"; "topology"; "realization"; "x"; "y"].
Definition special_keys : list string := ["grid_abstraction"; "spatial_mask"; "crs"; "driver"; "topology"; "is_isomorphic"].
(** constants.py:547-571: the attributes of the templates. *)
Definition template_attrs (key : string) : attrs :=
  if String.eqb key "realization" then [("axis", "R")]
  else if String.eqb key "time" then [("axis", "T")]
  else if String.eqb key "geom" then [("axis", "ocgis_geom")]
  else if String.eqb key "spatial_mask" then
    [("ocgis_role", "spatial_mask"); ("description", "values matching fill value are spatially masked")]
  else if String.eqb key "element_node_connectivity" then [("standard_name", "face_node_connectivity")]
  else if String.eqb key "attribute_host" then [("cf_role", "mesh_topology"); ("standard_name", "mesh_topology")]
  else [].

(** [d.update(e)]. *)
Definition dict_update (d e : attrs) : attrs := fold_left (fun d kv => dset String.eqb d (fst kv) (snd kv)) e d.

(** What is given as a variable: nothing, a name, or a variable object with its
    name, bounds, dimension names and attributes. *)
Inductive dvar :=
| DNone
| DName (s : string)
| DVar (name : string) (bounds : option string) (dims : list string) (att : attrs).
Definition dvar_name (v : dvar) : option string :=
  match v with DNone => None | DName s => Some s | DVar n _ _ _ => Some n end.
Definition dvar_attrs (v : dvar) : attrs := match v with DVar _ _ _ a => a | _ => [] end.

Definition put_entry (st : storage) (key : string) (e : entry) : storage := dset String.eqb st key (IEntry e).

(** 598-602 [_get_entry_].  An entry that is no dictionary of elements (a special
    key used through the methods for variables) gives TypeError here; the code
    fails on these in several ways or stores elements among topologies. *)
Definition get_entry (st : storage) (key : string) : storage * res entry :=
  if negb (existsb (String.eqb key) entry_keys) then (st, Err DimensionMapError)
  else match dget String.eqb st key with
       | Some (IEntry e) => (st, Ok e)
       | Some _ => (st, Err TypeError)
       | None => (put_entry st key empty_entry, Ok empty_entry)
       end.

(** 591-596 [_get_element_]: what is read is also stored. *)
Definition get_element {A} (st : storage) (key : string) (elt : entry -> option A) (put : entry -> A -> entry) (default : A) : storage * res A :=
  if String.eqb key "crs" then (st, Err DimensionMapError)
  else let '(st, r) := get_entry st key in
       match r with
       | Err e => (st, Err e)
       | Ok e => match elt e with
                 | Some x => (st, Ok x)
                 | None => (put_entry st key (put e default), Ok default)
                 end
       end.
(** 283-335 [get_variable] without a parent, 155-162 [get_bounds], 176-191
    [get_dimension] without dimensions, 132-139 [get_attrs]. *)
Definition get_variable (st : storage) (key : string) : storage * res (option string) :=
  get_element st key et_variable (fun e v => mkentry (Some v) (et_bounds e) (et_dimension e) (et_attrs e) (et_section e)) None.
Definition get_bounds (st : storage) (key : string) : storage * res (option string) :=
  get_element st key et_bounds (fun e v => mkentry (et_variable e) (Some v) (et_dimension e) (et_attrs e) (et_section e)) None.
Definition get_dimension (st : storage) (key : string) : storage * res (list string) :=
  get_element st key et_dimension (fun e v => mkentry (et_variable e) (et_bounds e) (Some v) (et_attrs e) (et_section e)) [].
Definition get_attrs (st : storage) (key : string) : storage * res attrs :=
  get_element st key et_attrs (fun e v => mkentry (et_variable e) (et_bounds e) (et_dimension e) (Some v) (et_section e)) [].
(** 164-174 [get_crs] and 240-248 [get_spatial_mask], without a parent. *)
Definition get_name (st : storage) (key : string) : storage * res (option string) :=
  let '(st, r) := get_entry st key in
  match r with
  | Err e => (st, Err e)
  | Ok e => match et_variable e with
            | Some x => (st, Ok x)
            | None => (put_entry st key (mkentry (Some None) (et_bounds e) (et_dimension e) (et_attrs e) (et_section e)), Ok None)
            end
  end.
Definition get_crs (st : storage) := get_name st "crs".
Definition get_spatial_mask (st : storage) := get_name st "spatial_mask".
(** 193-204 [get_driver]; the default is that of constants.py. *)
Definition get_driver (st : storage) (default : string) : string :=
  match dget String.eqb st "driver" with Some (ISpecial s) => s | _ => default end.

(** 389-400 [set_bounds]. *)
Definition set_bounds (st : storage) (key : string) (bounds : option string) : storage * option exc :=
  let '(st, r) := get_entry st key in
  match r with
  | Err e => (st, Some e)
  | Ok e =>
      match et_variable e with
      | None => (st, Some KeyError)
      | Some None => (st, Some DimensionMapError)
      | Some _ => (put_entry st key (mkentry (et_variable e) (Some bounds) (et_dimension e) (et_attrs e) (et_section e)), None)
      end
  end.

(** 402-410 [set_crs]. *)
Definition set_crs (st : storage) (v : option string) : storage * option exc :=
  let '(st, r) := get_entry st "crs" in
  match r with
  | Err e => (st, Some e)
  | Ok e => (put_entry st "crs" (mkentry (Some v) (et_bounds e) (et_dimension e) (et_attrs e) (et_section e)), None)
  end.

(** constants.py:389-397 without the abstract base driver, which has no key of its
    own; driver/registry.py:19-60. *)
Definition driver_keys : list string :=
  ["csv"; "netcdf"; "netcdf-cf"; "netcdf-esmf-unstruct"; "netcdf-scrip"; "vector"; "netcdf-ugrid"].
(** 412-416 [set_driver], given a key. *)
Definition set_driver (st : storage) (driver : string) : storage * option exc :=
  if existsb (String.eqb driver) driver_keys then (dset String.eqb st "driver" (ISpecial driver), None) else (st, Some ValueError).
(** 418-419 [set_grid_abstraction]. *)
Definition set_grid_abstraction (st : storage) (a : string) : storage := dset String.eqb st "grid_abstraction" (ISpecial a).

(** 441-469 [set_spatial_mask]. *)
Definition set_spatial_mask (st : storage) (v : dvar) (att default_attrs : option attrs) : storage * option exc :=
  let d := match default_attrs with Some d => d | None => template_attrs "spatial_mask" end in
  let d := dict_update (dict_update d (dvar_attrs v)) (match att with Some a => a | None => [] end) in
  let '(st, r) := get_entry st "spatial_mask" in
  match r with
  | Err e => (st, Some e)
  | Ok e => (put_entry st "spatial_mask" (mkentry (Some (dvar_name v)) (et_bounds e) (et_dimension e) (Some d) (et_section e)), None)
  end.

(** 512-531: bounds and dimension taken from a variable object. *)
Definition fill_from_variable (v : dvar) (dimension : option (list string)) (bounds : option string) (pos : option Z)
    (dimensionless : bool) : res (option string * option (list string)) :=
  match v with
  | DVar _ vb dims _ =>
      let bounds := match bounds with None => vb | b => b end in
      match dimension with
      | Some _ => Ok (bounds, dimension)
      | None =>
          do pos <- (if 1 <? zlen dims then
                       match pos with
                       | None => if dimensionless then Ok None else Err DimensionMapError
                       | p => Ok p
                       end
                     else if zlen dims =? 1 then Ok (Some 0) else Ok None);
          match pos with
          | Some p => if dimensionless then Ok (bounds, None) else do d <- py_index dims p; Ok (bounds, Some [d])
          | None => Ok (bounds, None)
          end
      end
  | _ => Ok (bounds, dimension)
  end.

(** 471-559 [set_variable]. *)
Definition set_variable (st : storage) (key : string) (v : dvar) (dimension : option (list string)) (bounds : option string)
    (att : option attrs) (pos : option Z) (dimensionless : bool) (section : option (list (option Z))) : storage * option exc :=
  if existsb (String.eqb key) special_keys then (st, Some DimensionMapError)                       (* 499-500 *)
  else if match section, pos, dimension with Some _, None, None => true | _, _, _ => false end
  then (st, Some DimensionMapError)                                                                (* 501-502 *)
  else
    let '(st, r) := get_entry st key in                                                            (* 504 *)
    match r with
    | Err e => (st, Some e)
    | Ok e =>
        match dvar_name v with
        | None => (dremove String.eqb st key, None)                                                (* 506-508 *)
        | Some name =>
            match fill_from_variable v dimension bounds pos dimensionless with                     (* 510-531 *)
            | Err x => (st, Some x)
            | Ok (bounds, dimension) =>
                let dimension := match dimension with Some d => d | None => [] end in              (* 536-539 *)
                let a := match att with Some a => a | None => template_attrs key end in            (* 541-546 *)
                let a := dict_update a (dvar_attrs v) in                                           (* 548-550 *)
                let a := dict_update a (match et_attrs e with Some c => c | None => [] end) in     (* 552-556 *)
                (put_entry st key (mkentry (Some (Some name)) (Some bounds) (Some dimension) (Some a)
                                     (match section with Some s => Some s | None => et_section e end)), None)
            end
        end
    end.

(** 421-429 [set_group] and 617-644 [get_dmap_group], for a name; sequences of
    names are not modelled.  A group that exists already stays. *)
Definition set_group (st : storage) (name : string) (g : dmap) : storage * option exc :=
  match dget String.eqb st "groups" with
  | Some (IGroups gs) =>
      if dmem String.eqb gs name then (st, None)
      else (dset String.eqb st "groups" (IGroups (dset String.eqb gs name g)), None)
  | Some _ => (st, Some TypeError)
  | None => (dset String.eqb st "groups" (IGroups [(name, g)]), None)
  end.
(** 216-228 [get_group]. *)
Definition get_group (st : storage) (name : string) : storage * res dmap :=
  let st := if dmem String.eqb st "groups" then st else dset String.eqb st "groups" (IGroups []) in
  match dget String.eqb st "groups" with
  | Some (IGroups gs) => match dget String.eqb gs name with Some g => (st, Ok g) | None => (st, Err DimensionMapError) end
  | _ => (st, Err TypeError)
  end.
(** 250-281 [get_topology]. *)
Definition get_topology (st : storage) (name : string) (create : bool) : storage * res (option dmap) :=
  let default := if create then Some (DMap []) else None in
  match dget String.eqb st "topology" with
  | None =>
      if create then (dset String.eqb st "topology" (ITopology [(name, default)]), Ok default) else (st, Ok None)
  | Some (ITopology t) =>
      let r := match dget String.eqb t name with Some x => x | None => default end in
      (dset String.eqb st "topology" (ITopology (dset String.eqb t name r)), Ok r)
  | Some _ => (st, Err TypeError)
  end.

(** Plain dictionaries, as made by [as_dict]. *)
Inductive ddict := DDict (l : list (string * dvalue))
with dvalue :=
| VEntry (e : entry)
| VText (s : string)
| VGroups (g : list (string * ddict))
| VTopology (t : list (string * ddict)).

(** 43-57 [as_dict]; AttributeError for a topology that is [None]. *)
Fixpoint as_dict (d : dmap) : res ddict :=
  match d with
  | DMap st =>
      do l <- (fix items (l : list (string * item)) : res (list (string * dvalue)) :=
                 match l with
                 | [] => Ok []
                 | (k, i) :: t =>
                     do v <- match i with
                             | IEntry e => Ok (VEntry e)
                             | ISpecial s => Ok (VText s)
                             | IGroups g =>
                                 do g <- (fix go (g : list (string * dmap)) : res (list (string * ddict)) :=
                                            match g with
                                            | [] => Ok []
                                            | (n, x) :: g => do y <- as_dict x; do ys <- go g; Ok ((n, y) :: ys)
                                            end) g;
                                 Ok (VGroups g)
                             | ITopology tp =>
                                 do g <- (fix go (g : list (string * option dmap)) : res (list (string * ddict)) :=
                                            match g with
                                            | [] => Ok []
                                            | (n, Some x) :: g => do y <- as_dict x; do ys <- go g; Ok ((n, y) :: ys)
                                            | (n, None) :: _ => Err AttributeError
                                            end) tp;
                                 Ok (VTopology g)
                             end;
                     do vs <- items t;
                     Ok ((k, v) :: vs)
                 end) st;
      Ok (DDict l)
  end.

Definition lift (x : storage * option exc) : res storage := match x with (st, None) => Ok st | (_, Some e) => Err e end.
(** 72-88: one item of the dictionary; groups come later. *)
Definition from_item (st : storage) (kv : string * dvalue) : res storage :=
  let '(k, v) := kv in
  if String.eqb k "groups" then Ok st
  else if String.eqb k "driver" then
    match v with VText s => lift (set_driver st s) | _ => Err ValueError end
  else
    match v with
    | VText _ => Err AttributeError                        (* a text has no [pop] *)
    | VGroups _ | VTopology _ => Err DimensionMapError
    | VEntry e =>
        match et_variable e with
        | None => Err DimensionMapError
        | Some variable =>
            if String.eqb k "crs" then lift (set_crs st variable)
            else if String.eqb k "spatial_mask" then
              match et_bounds e, et_dimension e, et_attrs e, et_section e with
              | None, None, None, None => Ok st
              | _, _, _, _ => lift (set_spatial_mask st (match variable with Some s => DName s | None => DNone end) None None)
              end
            else lift (set_variable st k (match variable with Some s => DName s | None => DNone end)
                         (et_dimension e) (match et_bounds e with Some b => b | None => None end) (et_attrs e) None false (et_section e))
        end
    end.

(** 59-91 [from_dict]. *)
Fixpoint from_dict (d : ddict) : res dmap :=
  match d with
  | DDict l =>
      do st <- fold_res from_item l [];
      do st <- (fix groups (m : list (string * dvalue)) (st : storage) : res storage :=
                  match m with
                  | [] => Ok st
                  | (k, VGroups g) :: m =>
                      if String.eqb k "groups" then
                        (fix go (g : list (string * ddict)) (st : storage) : res storage :=
                           match g with
                           | [] => Ok st
                           | (n, x) :: g => do y <- from_dict x; do st <- lift (set_group st n y); go g st
                           end) g st
                      else groups m st
                  | _ :: m => groups m st
                  end) l st;
      Ok (DMap st)
  end.

(** A user's operations on a dimension map.  [set_property] (431-439) is left out. *)
Inductive op :=
| OSetVariable (key : string) (v : dvar) (dimension : option (list string)) (bounds : option string) (att : option attrs)
    (pos : option Z) (dimensionless : bool) (section : option (list (option Z)))
| OSetBounds (key : string) (b : option string)
| OSetCrs (v : option string)
| OSetDriver (d : string)
| OSetGridAbstraction (a : string)
| OSetSpatialMask (v : dvar) (att default_attrs : option attrs)
| OSetGroup (name : string) (g : dmap)
| OGetVariable (key : string)
| OGetBounds (key : string)
| OGetDimension (key : string)
| OGetAttrs (key : string)
| OGetCrs
| OGetSpatialMask
| OGetGroup (name : string)
| OGetTopology (name : string) (create : bool).

Definition outcome {A} (x : storage * res A) : storage * option exc :=
  match x with (st, Ok _) => (st, None) | (st, Err e) => (st, Some e) end.
(** The map after the operation and the exception it raised, if any. *)
Definition step (st : storage) (o : op) : storage * option exc :=
  match o with
  | OSetVariable key v dimension bounds att pos dimensionless section =>
      set_variable st key v dimension bounds att pos dimensionless section
  | OSetBounds key b => set_bounds st key b
  | OSetCrs v => set_crs st v
  | OSetDriver d => set_driver st d
  | OSetGridAbstraction a => (set_grid_abstraction st a, None)
  | OSetSpatialMask v att d => set_spatial_mask st v att d
  | OSetGroup name g => set_group st name g
  | OGetVariable key => outcome (get_variable st key)
  | OGetBounds key => outcome (get_bounds st key)
  | OGetDimension key => outcome (get_dimension st key)
  | OGetAttrs key => outcome (get_attrs st key)
  | OGetCrs => outcome (get_crs st)
  | OGetSpatialMask => outcome (get_spatial_mask st)
  | OGetGroup name => outcome (get_group st name)
  | OGetTopology name create => outcome (get_topology st name create)
  end.
(** A history of operations, whose exceptions the user catches. *)
Definition run (st : storage) (ops : list op) : storage := fold_left (fun st o => fst (step st o)) ops st.
