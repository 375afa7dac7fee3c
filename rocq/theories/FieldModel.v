(** Model of slicing a field by standard dimension names: [Field.get_field_slice]
    and [get_name_mapping] of src/ocgis/collection/field.py, with
    [revert_renamed_dimensions_on_variables] of src/ocgis/base.py. *)
From Verif Require Import Py PartitionModel DimensionModel NdModel ScopeModel SliceModel.
From Verif Require DmapModel.
Local Open Scope string_scope.
Local Open Scope Z_scope.

(** A field: the collection of named objects (ScopeModel), what its dimension
    objects are apart from their name, and value and mask of its variable
    objects. *)
Record field (A : Type) := mkfield {
  fi_coll : collst;
  fi_dim : Z -> dim;
  fi_data : Z -> option (nd A) * option (nd bool)
}.
Arguments mkfield {A}. Arguments fi_coll {A}. Arguments fi_dim {A}. Arguments fi_data {A}.

Definition named (d : dim) (n : string) : dim :=
  mkdim n (d_size d) (d_size_current d) (d_src d) (d_dist d) (d_empty d) (d_bounds_local d) (d_bounds_global d).

(** The dimensions and variables as slicing sees them. *)
Definition view {A} (f : field A) : scoll A :=
  let c := fi_coll f in
  mkscoll (map (fun p => (fst p, named (fi_dim f (snd p)) (cs_names c (snd p)))) (cs_dims c))
          (map (fun p => (fst p, mksvar (cs_vdims c (snd p)) (fst (fi_data f (snd p))) (snd (fi_data f (snd p))))) (cs_vars c)).
Definition with_coll {A} (f : field A) (c : collst) : field A := mkfield c (fi_dim f) (fi_data f).

(** field.py:1096-1118 [get_name_mapping]: the standard names and the lists of
    dimension names stored with them.  A list that is empty gets the name of the
    variable, in the dimension map itself (1115-1116).  Also the dimension map
    afterwards. *)
Definition append_dimension (st : DmapModel.storage) (k n : string) : DmapModel.storage :=
  match DmapModel.get_entry st k with
  | (st, Ok e) => DmapModel.put_entry st k (DmapModel.mkentry (DmapModel.et_variable e) (DmapModel.et_bounds e)
                    (Some ((match DmapModel.et_dimension e with Some l => l | None => [] end) ++ [n])%list)
                    (DmapModel.et_attrs e) (DmapModel.et_section e))
  | (st, Err _) => st
  end.
Fixpoint map_names (st : DmapModel.storage) (keys : list string) (acc : list (string * list string))
  : DmapModel.storage * res (list (string * list string)) :=
  match keys with
  | [] => (st, Ok acc)
  | k :: t =>
    match DmapModel.get_variable st k with                                      (* 1106 *)
    | (st, Err e) => (st, Err e)
    | (st, Ok None) => map_names st t acc
    | (st, Ok (Some variable_name)) =>
      match DmapModel.get_dimension st k with                                   (* 1108 *)
      | (st, Err e) => (st, Err e)
      | (st, Ok []) => map_names (append_dimension st k variable_name) t (dset String.eqb acc k [variable_name])   (* 1110-1117 *)
      | (st, Ok names) => map_names st t (dset String.eqb acc k names)
      end
    end
  end.
Definition get_name_mapping (st : DmapModel.storage) : DmapModel.storage * res (list (string * list string)) :=
  match DmapModel.get_dimension st "geom" with                                  (* 1102 *)
  | (st, Err e) => (st, Err e)
  | (st, Ok geom) =>
    map_names st (["realization"; "time"; "level"; "y"; "x"] ++ (if zlen geom =? 1 then ["geom"] else []))%list []
  end.

(** base.py:316-328 [revert_renamed_dimensions_on_variables] on the slice.  A
    dimension object the slice shares with the field has its own name back
    already (310); 323 then gives it the name it has. *)
Definition swap_back (k : string) (r : list (string * dim) * list string) (b : string * string)
  : list (string * dim) * list string :=
  let '(ki, vi) := b in
  if String.eqb k vi && negb (String.eqb ki vi) then                            (* 322 *)
    match dget String.eqb (fst r) k with
    | None => r
    | Some d => (dset String.eqb (dset String.eqb (fst r) k (named d ki)) ki (named d ki),   (* 323-324 *)
                 if str_mem k (snd r) then snd r else (snd r ++ [k])%list)      (* 325-326 *)
    end
  else r.
Definition revert_dims (back : list (string * string)) (dims : list (string * dim)) : list (string * dim) :=
  let '(dims1, to_swap) := fold_left (fun r k => fold_left (swap_back k) back r) (map fst dims) (dims, []) in   (* 320-321 *)
  fold_left (fun d k => dremove String.eqb d k) to_swap dims1.                  (* 327-328 *)
Definition revert {A} (vdims : list (string * list string)) (back : list (string * string)) (r : scoll A) : res (scoll A) :=
  do vars <- map_res (fun p => match dget String.eqb vdims (fst p) with
                               | None => Err KeyError
                               | Some names => Ok (fst p, mksvar names (sv_value (snd p)) (sv_mask (snd p)))
                               end) (sc_vars r);                                (* 317-318 *)
  Ok (mkscoll (revert_dims back (sc_dims r)) vars).

(** field.py:561-604 [get_field_slice], not distributed: the field and the
    caller's dictionary afterwards, and the slice or the exception. *)
Definition get_field_slice {A} (f : field A) (mapping : list (string * list string)) (dslice : list (string * item)) (strict : bool)
  : field A * list (string * item) * res (scoll A) :=
  let '(c1, back, e1) := rename_enter (fi_coll f) mapping in
  let dslice1 := match e1 with
                 | Some _ => dslice
                 | None => if strict then dslice else filter (fun p => dmem String.eqb (cs_dims c1) (fst p)) dslice   (* 579-582 *)
                 end in
  let sliced := slice_collection (view (with_coll f c1)) dslice1 in             (* 601 *)
  let '(c3, e) := renamed_dimensions_on_variables (fi_coll f) mapping
                    (fun c => (c, match sliced with Ok _ => None | Err e => Some e end)) in
  (with_coll f c3, dslice1,
   match e with
   | Some e => Err e
   | None => do r <- sliced; revert (original_vdims (fi_coll f)) back r         (* 603 *)
   end).
