(** Model of the context managers of src/ocgis/base.py that change an object for
    the duration of a [with] block.  A block's body is any function of the
    object's state; it ends normally ([None]) or with an exception. *)
From Verif Require Import Py NdModel.

Definition body_of (S : Type) := S -> S * option exc.

(** constants.py:185-189 [GridAbstraction]. *)
Inductive abstr := AbsAuto | AbsPoint | AbsLine | AbsPolygon.
Definition abstr_eqb (a b : abstr) : bool :=
  match a, b with
  | AbsAuto, AbsAuto | AbsPoint, AbsPoint | AbsLine, AbsLine | AbsPolygon, AbsPolygon => true
  | _, _ => false
  end.

(** A grid: the abstraction stored in its dimension map, absent or present, and
    whether its archetype variable has bounds. *)
Record gridst := mkgrid { gr_stored : option abstr; gr_bounds : bool }.

(** driver/dimension_map.py:206-214 [get_grid_abstraction]; spatial/grid.py:816-821
    [_get_auto_abstraction_]; spatial/grid.py:117-131, the [abstraction] getter. *)
Definition get_abstraction (g : gridst) : abstr :=
  let a := match gr_stored g with None => AbsAuto | Some a => a end in
  if abstr_eqb a AbsAuto then (if gr_bounds g then AbsPolygon else AbsPoint) else a.

(** spatial/grid.py:133-136, the setter; driver/dimension_map.py:418-419. *)
Definition set_abstraction (g : gridst) (a : abstr) : gridst :=
  if abstr_eqb a AbsAuto then g else mkgrid (Some a) (gr_bounds g).

(** spatial/grid.py:823-827 [_get_available_abstractions_]. *)
Definition available_abstractions (g : gridst) : list abstr :=
  AbsPoint :: (if gr_bounds g then [AbsPolygon] else []).

(** base.py:182-193 [grid_abstraction_scope]. *)
Definition grid_scope_enter (g : gridst) (a : abstr) (strict : bool) : res gridst :=
  if existsb (abstr_eqb a) (available_abstractions g) then Ok (set_abstraction g a)     (* 185-186 *)
  else if strict then Err ValueError else Ok g.                                         (* 188-189 *)
Definition grid_abstraction_scope (g : gridst) (a : abstr) (strict : bool) (body : body_of gridst)
  : gridst * option exc :=
  let orig := get_abstraction g in                                                      (* 184 *)
  match grid_scope_enter g a strict with
  | Err e => (g, Some e)
  | Ok g1 => let '(g2, e) := body g1 in (set_abstraction g2 orig, e)                    (* 190-193 *)
  end.

(** A variable as far as its parent matters: its parent if it has one, the names
    of its dimensions, the cache of dimension objects; and the dimensions (name
    and object) of every collection there is. *)
Record varst := mkvarst {
  vs_parent : option Z;
  vs_dims : option (list string);
  vs_cache : option (list Z);
  vs_colls : list (Z * list (string * Z))
}.

(** A collection number not in use. *)
Definition fresh_coll (l : list (Z * list (string * Z))) : Z := 1 + fold_right Z.max 0 (map fst l).

(** variable/base.py:443-455 [_get_dimensions_], with 126-133 [parent] and
    1593-1594: asking an orphan for its parent makes an empty one. *)
Definition var_dimensions (v : varst) : varst * res (list Z) :=
  match vs_dims v with
  | None => (v, Ok [])
  | Some names =>
    match vs_parent v, vs_cache v with
    | None, Some ds => (v, Ok ds)
    | p, c =>
      match names with
      | [] => (v, Ok [])
      | _ =>
        let v' := match p with
                  | Some _ => v
                  | None => let k := fresh_coll (vs_colls v) in
                            mkvarst (Some k) (vs_dims v) c (vs_colls v ++ [(k, [])])
                  end in
        match vs_parent v' with
        | None => (v', Err AttributeError)
        | Some k =>
          match dget Z.eqb (vs_colls v') k with
          | None => (v', Err AttributeError)
          | Some dims => (v', map_res (fun n => match dget String.eqb dims n with
                                                | Some d => Ok d | None => Err KeyError end) names)
          end
        end
      end
    end
  end.

Definition set_parent (v : varst) (p : option Z) : varst := mkvarst p (vs_dims v) (vs_cache v) (vs_colls v).
Definition set_cache (v : varst) (c : option (list Z)) : varst := mkvarst (vs_parent v) (vs_dims v) c (vs_colls v).

(** base.py:221-235 [orphaned]. *)
Definition orphaned (v : varst) (keep : bool) (body : body_of varst) : varst * option exc :=
  let '(v1, r) := if keep then                                                          (* 223-224 *)
                    match var_dimensions v with
                    | (v', Ok ds) => (set_cache v' (Some ds), None)
                    | (v', Err e) => (v', Some e)
                    end
                  else (v, None) in
  match r with
  | Some e => (v1, Some e)
  | None =>
    let original_parent := vs_parent v1 in                                              (* 225-227 *)
    let v2 := match original_parent with Some _ => set_parent v1 None | None => v1 end in  (* 228 *)
    let '(v3, e) := body v2 in
    let v4 := match original_parent with Some _ => set_parent v3 original_parent | None => v3 end in   (* 232-233 *)
    (if keep then set_cache v4 None else v4, e)                                         (* 234-235 *)
  end.

(** Names of dimension objects, by object. *)
Definition names_of := Z -> string.
Definition set_name (h : names_of) (d : Z) (n : string) : names_of := fun x => if x =? d then n else h x.

(** base.py:267-270: the first key whose names contain [n]. *)
Fixpoint first_key (mapping : list (string * list string)) (n : string) : option string :=
  match mapping with
  | [] => None
  | (k, v) :: t => if str_mem n v then Some k else first_key t n
  end.

(** base.py:261-274 [renamed_dimensions]. *)
Definition rename_one (mapping : list (string * list string)) (h : names_of) (d : Z) : names_of :=
  match first_key mapping (h d) with Some k => set_name h d k | None => h end.
Definition renamed_dimensions (h : names_of) (dimensions : list Z) (mapping : list (string * list string))
  (body : body_of names_of) : names_of * option exc :=
  let original_names := map h dimensions in                                             (* 263 *)
  let h1 := fold_left (rename_one mapping) dimensions h in                              (* 266-270 *)
  let '(h2, e) := body h1 in
  (fold_left (fun h p => set_name h (fst p) (snd p)) (combine dimensions original_names) h2, e).   (* 273-274 *)

(** A collection: names of all dimension objects, names and dimension names of
    all variable objects, its dimensions and its variables (key and object). *)
Record collst := mkcoll {
  cs_names : names_of;
  cs_vname : Z -> string;
  cs_vdims : Z -> list string;
  cs_dims : list (string * Z);
  cs_vars : list (string * Z)
}.

(** base.py:286-294: rename the dimension objects and build the dictionary of
    dimensions; also the names replaced so far (291).  [pop] of an absent key
    raises KeyError. *)
Record renaming := mkren { rn_names : names_of; rn_dims : list (string * Z); rn_back : list (string * string) }.
Definition rename_dim (k : string) (v : list string) (r : renaming * option exc) (kv : string * Z)
  : renaming * option exc :=
  let '(ki, vi) := kv in
  match snd r with
  | Some _ => r
  | None =>
    if str_mem ki v then
      let dims1 := dset String.eqb (rn_dims (fst r)) k vi in                            (* 289 *)
      let original_name := rn_names (fst r) vi in                                       (* 290 *)
      let back := dset String.eqb (rn_back (fst r)) original_name k in                  (* 291 *)
      let names := set_name (rn_names (fst r)) vi k in                                  (* 292 *)
      if String.eqb original_name k then (mkren names dims1 back, None)                 (* 293 *)
      else if dmem String.eqb dims1 original_name
           then (mkren names (dremove String.eqb dims1 original_name) back, None)       (* 294 *)
           else (mkren names dims1 back, Some KeyError)
    else r
  end.
Definition rename_dims (mapping : list (string * list string)) (dims : list (string * Z)) (h : names_of)
  : renaming * option exc :=
  fold_left (fun r kv => fold_left (rename_dim (fst kv) (snd kv)) dims r) mapping (mkren h dims [], None).

(** base.py:295-301: the new dimension names of one variable. *)
Definition rename_vdim (mapping : list (string * list string)) (to_set : list string) (vdn : string)
  : res (list string) :=
  fold_res (fun to_set kv =>
    if str_mem vdn (snd kv) then do i <- str_index to_set vdn; Ok (set_nth to_set i (fst kv))
    else Ok to_set) mapping to_set.
Definition rename_vdims (mapping : list (string * list string)) (names : list string) : res (list string) :=
  fold_res (rename_vdim mapping) names names.

(** base.py:279-304: what the body finds, or the exception raised on the way
    together with the state at that moment; and 282, 291, what is remembered. *)
Definition set_vdims (c : collst) (f : Z -> list string) : collst :=
  mkcoll (cs_names c) (cs_vname c) f (cs_dims c) (cs_vars c).
Definition original_vdims (c : collst) : list (string * list string) :=
  fold_left (fun d kv => dset String.eqb d (cs_vname c (snd kv)) (cs_vdims c (snd kv))) (cs_vars c) [].   (* 282 *)
Fixpoint assign_vdims (vname : Z -> string) (vals : list (string * list string)) (vars : list (string * Z))
  (f : Z -> list string) : res (Z -> list string) :=
  match vars with
  | [] => Ok f
  | (_, v) :: t =>
    match dget String.eqb vals (vname v) with
    | None => Err KeyError
    | Some names => assign_vdims vname vals t (fun x => if x =? v then names else f x)
    end
  end.
Definition rename_enter (c : collst) (mapping : list (string * list string))
  : collst * list (string * string) * option exc :=
  let '(r, e) := rename_dims mapping (cs_dims c) (cs_names c) in
  let c1 := mkcoll (rn_names r) (cs_vname c) (cs_vdims c) (cs_dims c) (cs_vars c) in
  match e with
  | Some e => (c1, [], Some e)
  | None =>
    match map_res (fun p => do n <- rename_vdims mapping (snd p); Ok (fst p, n)) (original_vdims c) with   (* 295-301 *)
    | Err e => (c1, [], Some e)
    | Ok news =>
      match assign_vdims (cs_vname c) news (cs_vars c) (cs_vdims c) with                (* 302-303 *)
      | Err e => (c1, [], Some e)
      | Ok f => (mkcoll (rn_names r) (cs_vname c) f (rn_dims r) (cs_vars c), rn_back r, None)   (* 304 *)
      end
    end
  end.

(** base.py:308-313: the exit.  The variables of the collection at that moment
    get the remembered dimension names; one with an unknown name raises KeyError
    and those after it stay as they are. *)
Fixpoint restore_vdims (vname : Z -> string) (vals : list (string * list string)) (vars : list (string * Z))
  (f : Z -> list string) : (Z -> list string) * option exc :=
  match vars with
  | [] => (f, None)
  | (_, v) :: t =>
    match dget String.eqb vals (vname v) with
    | None => (f, Some KeyError)
    | Some names => restore_vdims vname vals t (fun x => if x =? v then names else f x)
    end
  end.
Definition rename_exit (c0 c : collst) : collst * option exc :=
  let names := fold_left (fun h kv => set_name h (snd kv) (fst kv)) (cs_dims c0) (cs_names c) in   (* 309-310 *)
  let '(f, e) := restore_vdims (cs_vname c) (original_vdims c0) (cs_vars c) (cs_vdims c) in       (* 312-313 *)
  (mkcoll names (cs_vname c) f (cs_dims c0) (cs_vars c), e).                            (* 311 *)

(** base.py:277-313 [renamed_dimensions_on_variables].  An exception of the exit
    replaces that of the body. *)
Definition renamed_dimensions_on_variables (c : collst) (mapping : list (string * list string))
  (body : body_of collst) : collst * option exc :=
  let '(c1, _, e1) := rename_enter c mapping in
  let '(c2, e2) := match e1 with Some e => (c1, Some e) | None => body c1 end in
  let '(c3, e3) := rename_exit c c2 in
  (c3, match e3 with Some e => Some e | None => e2 end).
