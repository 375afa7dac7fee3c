(** Model of src/ocgis/collection/spatial.py and of [add_child] in
    src/ocgis/variable/base.py 1811-1824. *)
From Verif Require Import Py.

(** A field: its name and its variables.  Fields are values here; one changed
    after it was added is outside the model. *)
Record sfield (V : Type) := mksfield { f_name : string; f_vars : list (string * V) }.
Arguments mksfield {V}. Arguments f_name {V}. Arguments f_vars {V}.

(** A container field: the unique identifier of its geometry if it has one, and
    its children.  A container belongs to one collection. *)
Record container (V : Type) := mkcont { c_ugid : option Z; c_children : list (string * sfield V) }.
Arguments mkcont {V}. Arguments c_ugid {V}. Arguments c_children {V}.

(** The collection: [children], keyed by the identifier or [None]. *)
Definition scoll (V : Type) := list (option Z * container V).
Definition key_eqb (a b : option Z) : bool :=
  match a, b with Some x, Some y => x =? y | None, None => true | _, _ => false end.

(** base.py:1811-1824 [add_child]. *)
Definition add_child {V} (c : container V) (f : sfield V) (force : bool) : res (container V) :=
  if dmem String.eqb (c_children c) (f_name f) && negb force then Err ValueError
  else Ok (mkcont (c_ugid c) (dset String.eqb (c_children c) (f_name f) f)).

(** spatial.py:91-117 [add_field]: the collection afterwards, also when an
    exception is raised. *)
Definition add_field {V} (s : scoll V) (f : sfield V) (cont : option (container V)) (force : bool) : scoll V * res unit :=
  let '(key, given) := match cont with
                       | Some c => match c_ugid c with Some u => (Some u, c) | None => (None, mkcont None []) end
                       | None => (None, mkcont None [])
                       end in
  let s := if dmem key_eqb s key then s else dset key_eqb s key given in
  match dget key_eqb s key with
  | Some c => match add_child c f force with
              | Ok c' => (dset key_eqb s key c', Ok tt)
              | Err e => (s, Err e)
              end
  | None => (s, Err KeyError)
  end.

(** The [container_ugid] argument of [get_element]: absent, an identifier, or a
    container field, which cannot be hashed. *)
Inductive cont_arg (V : Type) := CNone | CUgid (u : Z) | CField (c : container V).
Arguments CNone {V}. Arguments CUgid {V}. Arguments CField {V}.

Definition lookup {K W} (eqk : K -> K -> bool) (d : list (K * W)) (k : K) : res W :=
  match dget eqk d k with Some x => Ok x | None => Err KeyError end.

(** spatial.py:119-154 [get_element] with a field name or for a container with
    fields: with no field name and no field the container itself is returned,
    which is [Err NameError] here as is a collection without containers
    (UnboundLocalError). *)
Definition get_field {V} (s : scoll V) (name : option string) (arg : cont_arg V) : res (sfield V) :=
  do c <- match arg with
          | CNone => match s with [] => Err NameError | (_, c) :: _ => Ok c end
          | CUgid u => lookup key_eqb s (Some u)
          | CField c => lookup key_eqb s (c_ugid c)
          end;
  match name with
  | None => match c_children c with [] => Err NameError | (_, f) :: _ => Ok f end
  | Some n => lookup String.eqb (c_children c) n
  end.
Definition get_variable {V} (s : scoll V) (name : option string) (vname : string) (arg : cont_arg V) : res V :=
  do f <- get_field s name arg; lookup String.eqb (f_vars f) vname.

(** spatial.py:21-26 [__getitem__] with an identifier or [None]. *)
Definition get_container {V} (s : scoll V) (k : option Z) : res (container V) := lookup key_eqb s k.

(** spatial.py:156-166 [iter_fields]. *)
Definition iter_fields {V} (s : scoll V) : list (sfield V) :=
  flat_map (fun kc => map snd (c_children (snd kc))) s.

(** spatial.py:168-180 [iter_melted] without tag: identifier, field name,
    variable name and variable. *)
Definition iter_melted {V} (s : scoll V) : list (option Z * string * string * V) :=
  flat_map (fun kc => flat_map (fun nf => map (fun nv => (fst kc, fst nf, fst nv, snd nv)) (f_vars (snd nf))) (c_children (snd kc))) s.

(** spatial.py:33-44 [archetype_field]. *)
Definition archetype_field {V} (s : scoll V) : option (sfield V) :=
  match iter_fields s with [] => None | f :: _ => Some f end.

(** spatial.py:69-80 [has_container_geometries]. *)
Definition has_container_geometries {V} (s : scoll V) : bool :=
  match s with [] => false | (k, _) :: _ => match k with Some _ => true | None => false end end.

(** A history of [add_field] calls. *)
Definition call (V : Type) := (sfield V * option (container V) * bool)%type.
Fixpoint run {V} (s : scoll V) (calls : list (call V)) : scoll V :=
  match calls with
  | [] => s
  | (f, c, force) :: t => run (fst (add_field s f c force)) t
  end.
