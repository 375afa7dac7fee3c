(** Model of setting the coordinate variables, the geometry and the coordinate system of a field:
    src/ocgis/collection/field.py and what it uses of variable/base.py and driver/dimension_map.py.
    A variable is its identity, its name and the name of its bounds; values, attributes, dimensions
    and tags are left out (CollModel.v and DmapModel.v have them). *)
From Verif Require Import Py.
From Coq Require Import String.
Local Open Scope string_scope.

Record fvar := mkfvar { fv_id : Z; fv_name : string; fv_bounds : option string }.

(** The variables by name, the dimension map (for each entry key the name of the variable and of
    its bounds) and the name of the coordinate system in the dimension map. *)
Record ffield := mkffield {
  ff_vars : list (string * fvar);
  ff_map : list (string * (string * option string));
  ff_crs : option string }.
Definition with_vars (f : ffield) (l : list (string * fvar)) : ffield := mkffield l (ff_map f) (ff_crs f).
Definition with_map (f : ffield) (m : list (string * (string * option string))) : ffield := mkffield (ff_vars f) m (ff_crs f).
Definition with_crs (f : ffield) (c : option string) : ffield := mkffield (ff_vars f) (ff_map f) c.

(** An exception, or VariableNotInCollection. *)
Inductive failure := Fails (e : exc) | NotInCollection.

(** field.py:1074-1092 [get_field_property] (not strict), and the properties that use it. *)
Definition coordinate (f : ffield) (key : string) : option fvar :=
  match dget String.eqb (ff_map f) key with
  | None => None
  | Some (n, _) => dget String.eqb (ff_vars f) n
  end.

(** variable/base.py:2194-2224 [remove_variable], for a name in the field: the variable and its
    bounds.  Bounds that are not in the collection raise a KeyError (373-383). *)
Definition remove_variable (f : ffield) (n : string) : ffield * option failure :=
  match dget String.eqb (ff_vars f) n with
  | None => (f, Some (Fails KeyError))
  | Some v =>
      match fv_bounds v with
      | None => (with_vars f (dremove String.eqb (ff_vars f) n), None)
      | Some b =>
          match dget String.eqb (ff_vars f) b with
          | None => (f, Some (Fails KeyError))
          | Some _ => (with_vars f (dremove String.eqb (dremove String.eqb (ff_vars f) n) b), None)
          end
      end
  end.

(** variable/base.py:1850-1877 [add_variable]: all the variables of the collection of the
    variable, the variable among them (a variable without a collection is alone). *)
Fixpoint add_variables (f : ffield) (l : list fvar) (force : bool) : ffield * option failure :=
  match l with
  | [] => (f, None)
  | v :: t =>
      if negb force && dmem String.eqb (ff_vars f) (fv_name v) then (f, Some (Fails VariableInCollectionError))
      else add_variables (with_vars f (dset String.eqb (ff_vars f) (fv_name v) v)) t force
  end.

(** A variable to set: with the variables of its collection, and whether its dimension is known
    (given, or the variable has at most one, or none is needed). *)
Record farg := mkfarg { fa_var : fvar; fa_family : list fvar; fa_placed : bool }.

(** driver/dimension_map.py:471-556 [set_variable]. *)
Definition map_variable (f : ffield) (key : string) (a : option farg) : ffield * option failure :=
  match a with
  | None => (with_map f (dremove String.eqb (ff_map f) key), None)                                       (* 505-507 *)
  | Some x =>
      if fa_placed x
      then (with_map f (dset String.eqb (ff_map f) key (fv_name (fa_var x), fv_bounds (fa_var x))), None)
      else (f, Some (Fails DimensionMapError))                                                           (* 513-517 *)
  end.

(** field.py:1121-1136 [set_field_property], behind [set_time], [set_level], [set_x], [set_y],
    [set_realization], [set_level_repr] (894-976) and [set_geom]. *)
Definition set_property (f : ffield) (key : string) (a : option farg) (force should_add : bool) : ffield * option failure :=
  let '(f1, e1) :=
    match dget String.eqb (ff_map f) key with                                                            (* 1124 *)
    | Some (curr, _) =>
        match dget String.eqb (ff_vars f) curr with                                                      (* 1127 *)
        | Some c =>
            if should_add && negb (match a with Some x => Z.eqb (fv_id c) (fv_id (fa_var x)) | None => false end)
            then remove_variable f curr else (f, None)                                                   (* 1128-1129 *)
        | None => (f, None)
        end
    | None => (f, None)
    end in
  match e1 with
  | Some e => (f1, Some e)
  | None =>
      let '(f2, e2) := match a with
                       | Some x => if should_add then add_variables f1 (fa_family x) force else (f1, None)  (* 1134-1135 *)
                       | None => (f1, None)
                       end in
      match e2 with
      | Some e => (f2, Some e)
      | None => map_variable f2 key a                                                                    (* 1136 *)
      end
  end.

(** field.py:215-222 [crs], with dimension_map.py:164-174 and 605-614: None when there is no name,
    an exception when the name is not in the field. *)
Inductive crs_read := NoCrs | TheCrs (v : fvar) | CrsRaises.
Definition read_crs (f : ffield) : crs_read :=
  match ff_crs f with
  | None => NoCrs
  | Some n => match dget String.eqb (ff_vars f) n with Some v => TheCrs v | None => CrsRaises end
  end.

(** field.py:797-815 [set_crs], for a coordinate system that is in no other collection; the
    attributes that [format_spatial_object] sets are left out. *)
Definition set_crs (f : ffield) (value : option fvar) (force should_add : bool) : ffield * option failure :=
  match read_crs f with
  | CrsRaises => (f, Some NotInCollection)
  | old =>
      let f1 := match old with TheCrs v => with_vars f (dremove String.eqb (ff_vars f) (fv_name v)) | _ => f end in
      match value with
      | None => (with_crs f1 None, None)
      | Some v =>
          let '(f2, e) := if should_add then add_variables f1 [v] force else (f1, None) in
          match e with Some e => (f2, Some e) | None => (with_crs f2 (Some (fv_name v)), None) end
      end
  end.

(** field.py:833-860 [set_geom] without a coordinate system given ([crs='auto']): [crs] is the
    coordinate system of the geometry variable. *)
Definition set_geom (f : ffield) (a : option farg) (crs : option fvar) (force should_add : bool) : ffield * option failure :=
  match a with
  | None => (f, Some (Fails AttributeError))                                                             (* 848, 853 *)
  | Some x =>
      match set_crs f crs true should_add with
      | (f1, Some e) => (f1, Some e)
      | (f1, None) => set_property f1 "geom" a force should_add
      end
  end.
