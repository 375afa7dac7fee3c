(** Model of named objects, variables and variable collections as objects in a
    heap.  References are to variable/base.py unless another file is named. *)
From Verif Require Import Py.
Local Open Scope string_scope.
Local Open Scope Z_scope.

(** ** base.py:36-118 [AbstractNamedObject] *)
(** [no_source] is [None] for UNINITIALIZED (-999, never a name); a name is a text. *)
Record named := mknamed { nm_name : option string; nm_source : option string; nm_aliases : list string }.
(** base.py:100-118 [set_name]. *)
Definition named_set (x : named) (name : string) (aliases : list string) : named :=
  let source := match nm_source x with
                | Some s => Some s
                | None => match nm_name x with None => Some name | Some n => Some n end
                end in
  mknamed (Some name) source (aliases ++ [name])%list.
(** base.py:50-56. *)
Definition named_new (name : string) (aliases : list string) (source : option string) : named :=
  named_set (mknamed None source []) name aliases.
(** base.py:67-78 [source_name]. *)
Definition source_name (x : named) : option string := match nm_source x with Some s => Some s | None => nm_name x end.
(** base.py:80-86 [append_alias] and 88-95 [is_matched_by_alias]. *)
Definition append_alias (x : named) (a : string) : named := mknamed (nm_name x) (nm_source x) (nm_aliases x ++ [a])%list.
Definition is_matched_by_alias (x : named) (a : string) : bool := existsb (String.eqb a) (nm_aliases x).

(** ** Objects *)
(** variable/dimension.py:44-67: name, size, current size and source index.
    Distribution, emptiness and identifiers are not modelled. *)
Record dim := mkdim { d_name : string; d_size : option Z; d_cur : option Z; d_src : option (list Z) }.
(** 267-318: name, [_dimensions], the shape of the value if there is one,
    [_bounds_name] and [_parent].  Values, masks, attributes and units are not
    modelled here. *)
Record var := mkvar {
  v_name : string; v_dims : option (list string); v_value : option (list Z); v_bounds : option string; v_parent : option Z }.
(** 1735-1759: variables, dimensions and tags.  Children are not modelled here. *)
Record coll := mkcoll { c_vars : list (string * Z); c_dims : list (string * Z); c_tags : list (string * list string) }.

(** The heap: objects by address; the addresses from [h_next] on are free. *)
Record heap := mkheap { h_dim : Z -> dim; h_var : Z -> var; h_coll : Z -> coll; h_next : Z }.
Definition no_dim : dim := mkdim "" None None None.
Definition no_var : var := mkvar "" None None None None.
Definition no_coll : coll := mkcoll [] [] [].
Definition empty_heap : heap := mkheap (fun _ => no_dim) (fun _ => no_var) (fun _ => no_coll) 0.

Definition upd {A} (f : Z -> A) (i : Z) (x : A) : Z -> A := fun j => if j =? i then x else f j.

(** Programs that change the heap and may raise; the changes made before an
    exception stay. *)
Definition M (A : Type) := heap -> heap * res A.
Definition mret {A} (x : A) : M A := fun h => (h, Ok x).
Definition mraise {A} (e : exc) : M A := fun h => (h, Err e).
Definition mbind {A B} (m : M A) (f : A -> M B) : M B :=
  fun h => let '(h, r) := m h in match r with Ok x => f x h | Err e => (h, Err e) end.
Notation "x <-- m ;; k" := (mbind m (fun x => k)) (at level 60, m at next level, right associativity).
Notation "m ;;; k" := (mbind m (fun _ => k)) (at level 60, right associativity).
Fixpoint mfor {A} (l : list A) (f : A -> M unit) : M unit :=
  match l with [] => mret tt | x :: t => f x ;;; mfor t f end.

Definition get_dim (i : Z) : M dim := fun h => (h, Ok (h_dim h i)).
Definition get_var (i : Z) : M var := fun h => (h, Ok (h_var h i)).
Definition get_coll (i : Z) : M coll := fun h => (h, Ok (h_coll h i)).
Definition put_dim (i : Z) (x : dim) : M unit := fun h => (mkheap (upd (h_dim h) i x) (h_var h) (h_coll h) (h_next h), Ok tt).
Definition put_var (i : Z) (x : var) : M unit := fun h => (mkheap (h_dim h) (upd (h_var h) i x) (h_coll h) (h_next h), Ok tt).
Definition put_coll (i : Z) (x : coll) : M unit := fun h => (mkheap (h_dim h) (h_var h) (upd (h_coll h) i x) (h_next h), Ok tt).
Definition new_dim (x : dim) : M Z :=
  fun h => (mkheap (upd (h_dim h) (h_next h) x) (h_var h) (h_coll h) (h_next h + 1), Ok (h_next h)).
Definition new_var (x : var) : M Z :=
  fun h => (mkheap (h_dim h) (upd (h_var h) (h_next h) x) (h_coll h) (h_next h + 1), Ok (h_next h)).
Definition new_coll (x : coll) : M Z :=
  fun h => (mkheap (h_dim h) (h_var h) (upd (h_coll h) (h_next h) x) (h_next h + 1), Ok (h_next h)).

Definition set_vars (c : coll) (l : list (string * Z)) : coll := mkcoll l (c_dims c) (c_tags c).
Definition set_dims (c : coll) (l : list (string * Z)) : coll := mkcoll (c_vars c) l (c_tags c).
Definition set_tags (c : coll) (l : list (string * list string)) : coll := mkcoll (c_vars c) (c_dims c) l.
Definition with_parent (v : var) (p : option Z) : var := mkvar (v_name v) (v_dims v) (v_value v) (v_bounds v) p.
Definition with_dims (v : var) (d : option (list string)) : var := mkvar (v_name v) d (v_value v) (v_bounds v) (v_parent v).
Definition with_bounds (v : var) (b : option string) : var := mkvar (v_name v) (v_dims v) (v_value v) b (v_parent v).
Definition with_name (v : var) (n : string) : var := mkvar n (v_dims v) (v_value v) (v_bounds v) (v_parent v).

(** A dictionary lookup that may raise KeyError. *)
Definition lookup {V} (d : list (string * V)) (k : string) : M V :=
  match dget String.eqb d k with Some x => mret x | None => mraise KeyError end.
(** [d.pop(k)]. *)
Definition pop_var (c : Z) (k : string) : M unit :=
  cc <-- get_coll c ;;
  if dmem String.eqb (c_vars cc) k then put_coll c (set_vars cc (dremove String.eqb (c_vars cc) k)) else mraise KeyError.
Definition pop_dim (c : Z) (k : string) : M unit :=
  cc <-- get_coll c ;;
  if dmem String.eqb (c_dims cc) k then put_coll c (set_dims cc (dremove String.eqb (c_dims cc) k)) else mraise KeyError.

(** 122-133 [parent]: a new collection for an orphan (1593-1594). *)
Definition parent_of (v : Z) : M Z :=
  x <-- get_var v ;;
  match v_parent x with
  | Some c => mret c
  | None => c <-- new_coll no_coll ;; put_var v (with_parent x (Some c)) ;;; mret c
  end.

(** ** Dimensions *)
(** variable/dimension.py:266-293 [eq]. *)
Definition opt_eqb (a b : option Z) : bool := match a, b with Some x, Some y => x =? y | None, None => true | _, _ => false end.
Fixpoint list_eqb (a b : list Z) : bool :=
  match a, b with [], [] => true | x :: a, y :: b => (x =? y) && list_eqb a b | _, _ => false end.
Definition src_eqb (a b : option (list Z)) : bool :=
  match a, b with Some x, Some y => list_eqb x y | None, None => true | _, _ => false end.
Definition dim_eq (a b : dim) (check_src : bool) : bool :=
  String.eqb (d_name a) (d_name b) && opt_eqb (d_size a) (d_size b) && opt_eqb (d_cur a) (d_cur b)
  && (negb check_src || src_eqb (d_src a) (d_src b)).
(** variable/dimension.py:99-106 [len]. *)
Definition dim_len (d : dim) : Z :=
  match d_size d with Some n => n | None => match d_cur d with Some n => n | None => 0 end end.

(** 1826-1843 [add_dimension]. *)
Definition add_dimension (c d : Z) (force check_src : bool) : M unit :=
  cc <-- get_coll c ;; dd <-- get_dim d ;;
  match dget String.eqb (c_dims cc) (d_name dd) with
  | Some e =>
      if force then put_coll c (set_dims cc (dset String.eqb (c_dims cc) (d_name dd) d))
      else ed <-- get_dim e ;; if dim_eq ed dd check_src then mret tt else mraise DimensionMismatchError
  | None => put_coll c (set_dims cc (dset String.eqb (c_dims cc) (d_name dd) d))
  end.

(** 448-456: the dimension objects of a variable (no cached dimensions). *)
Definition resolve (c : coll) (names : list string) : res (list Z) :=
  map_res (fun n => match dget String.eqb (c_dims c) n with Some d => Ok d | None => Err KeyError end) names.
Definition lift_res {A} (r : res A) : M A := match r with Ok x => mret x | Err e => mraise e end.
Definition dimensions_of (v : Z) : M (list Z) :=
  x <-- get_var v ;;
  match v_dims x with
  | None => mret []
  | Some names => c <-- parent_of v ;; cc <-- get_coll c ;; lift_res (resolve cc names)
  end.
Fixpoint names_of (l : list Z) : M (list string) :=
  match l with [] => mret [] | d :: t => dd <-- get_dim d ;; r <-- names_of t ;; mret (d_name dd :: r) end.
Definition dimension_names_of (v : Z) : M (list string) := ds <-- dimensions_of v ;; names_of ds.

(** 2338-2355 and 2634-2648: the shape must fit; unlimited dimensions take the
    length of the value. *)
Fixpoint shape_fits (shape : list Z) (ds : list dim) : bool :=
  match shape, ds with
  | [], [] => true
  | s :: shape, d :: ds => match d_size d with None => true | Some n => s =? n end && shape_fits shape ds
  | _, _ => false
  end.
Fixpoint dims_of (l : list Z) : M (list dim) :=
  match l with [] => mret [] | d :: t => dd <-- get_dim d ;; r <-- dims_of t ;; mret (dd :: r) end.
Fixpoint update_current (shape : list Z) (l : list Z) : M unit :=
  match shape, l with
  | s :: shape, d :: l =>
      dd <-- get_dim d ;;
      match d_size dd with
      | None => put_dim d (mkdim (d_name dd) None (Some s) (d_src dd))
      | Some _ => mret tt
      end ;;; update_current shape l
  | _, _ => mret tt
  end.
Definition update_unlimited (value : option (list Z)) (ds : list Z) : M unit :=
  match value with
  | None => mret tt
  | Some shape => dd <-- dims_of ds ;; if shape_fits shape dd then update_current shape ds else mraise ValueError
  end.

(** A dimension is given as an object or by name. *)
Inductive dimarg := DObj (d : Z) | DNm (n : string).
(** 468-478, one dimension: registered in the parent, made from the shape if only
    named (2437-2448). *)
Definition place_dim (c : Z) (value : option (list Z)) (idx : Z) (a : dimarg) : M string :=
  match a with
  | DObj d => add_dimension c d false true ;;; dd <-- get_dim d ;; mret (d_name dd)
  | DNm n =>
      cc <-- get_coll c ;;
      if dmem String.eqb (c_dims cc) n then mret n
      else s <-- lift_res (py_index (match value with Some s => s | None => [] end) idx) ;;
           d <-- new_dim (mkdim n (Some s) None None) ;; add_dimension c d false true ;;; mret n
  end.
Fixpoint place_dims (c : Z) (value : option (list Z)) (idx : Z) (l : list dimarg) : M (list string) :=
  match l with
  | [] => mret []
  | a :: t => n <-- place_dim c value idx a ;; r <-- place_dims c value (idx + 1) t ;; mret (n :: r)
  end.
Fixpoint nodupb (l : list string) : bool :=
  match l with [] => true | x :: t => negb (existsb (String.eqb x) t) && nodupb t end.

(** 267-318 [Variable.__init__] without bounds: the variable enters its parent
    first, in place of another of its name. *)
Definition new_variable (name : string) (value : option (list Z)) (dimensions : option (list dimarg)) (parent : option Z) : M Z :=
  match value, dimensions with
  | Some _, None => mraise ValueError
  | _, _ =>
      c <-- (match parent with Some c => mret c | None => new_coll no_coll end) ;;
      v <-- new_var (mkvar name None value None (Some c)) ;;
      cc <-- get_coll c ;; put_coll c (set_vars cc (dset String.eqb (c_vars cc) name v)) ;;;
      match dimensions with
      | None => mret v
      | Some l =>
          names <-- place_dims c value 0 l ;;
          if nodupb names then
            x <-- get_var v ;; put_var v (with_dims x (Some names)) ;;;
            ds <-- dimensions_of v ;; update_unlimited value ds ;;; mret v
          else mraise ValueError
      end
  end.

(** ** Adding *)
(** 1861-1865: an orphan. *)
Definition add_orphan (c v : Z) (force : bool) : M unit :=
  x <-- get_var v ;; cc <-- get_coll c ;;
  if negb force && dmem String.eqb (c_vars cc) (v_name x) then mraise VariableInCollectionError
  else put_coll c (set_vars cc (dset String.eqb (c_vars cc) (v_name x) v)) ;;; put_var v (with_parent x (Some c)).
(** 1850-1877 [add_variable]: the dimensions and all variables of its parent come
    along. *)
Definition add_variable (c v : Z) (force : bool) : M unit :=
  x <-- get_var v ;;
  match v_parent x with
  | None => add_orphan c v force
  | Some s =>
      let check_src := match v_value x with Some _ => false | None => true end in
      sc <-- get_coll s ;;
      mfor (map snd (c_dims sc)) (fun d => add_dimension c d force check_src) ;;;
      sc <-- get_coll s ;;
      mfor (map snd (c_vars sc)) (fun w => y <-- get_var w ;; put_var w (with_parent y None) ;;; add_orphan c w force)
  end.

(** ** Copying *)
(** 1908-1922 [VariableCollection.copy]: the dimension objects are shared. *)
Definition copy_coll (c : Z) : M Z :=
  cc <-- get_coll c ;; c' <-- new_coll cc ;;
  mfor (map snd (c_vars cc)) (fun v =>
    x <-- get_var v ;; v' <-- new_var (with_parent x (Some c')) ;;
    nc <-- get_coll c' ;; put_coll c' (set_vars nc (dset String.eqb (c_vars nc) (v_name x) v'))) ;;;
  mret c'.
(** 846-861 [Variable.copy]. *)
Definition copy_var (v : Z) : M Z :=
  x <-- get_var v ;;
  match v_parent x with
  | None => new_var x
  | Some c => c' <-- copy_coll c ;; nc <-- get_coll c' ;; lookup (c_vars nc) (v_name x)
  end.

(** 373-384 [bounds] and 993-1002 [has_bounds]. *)
Definition bounds_of (v : Z) : M (option Z) :=
  x <-- get_var v ;;
  match v_parent x, v_bounds x with
  | Some c, Some b => cc <-- get_coll c ;; w <-- lookup (c_vars cc) b ;; mret (Some w)
  | _, _ => mret None
  end.
Definition keep_names (v : Z) (keep_bounds : bool) : M (list string) :=
  x <-- get_var v ;;
  if keep_bounds then
    b <-- bounds_of v ;;
    match b with None => mret [v_name x] | Some w => y <-- get_var w ;; mret [v_name x; v_name y] end
  else mret [v_name x].

(** 1137-1146: the dimensions not used by the extracted variable are dropped from
    its collection.  [orig] is the variable extracted from. *)
Definition drop_dims (orig ret : Z) (keep_bounds : bool) : M unit :=
  keep <-- dimension_names_of ret ;;
  b <-- (if keep_bounds then bounds_of ret else mret None) ;;
  more <-- (match b with None => mret [] | Some w => dimension_names_of w end) ;;
  p <-- parent_of orig ;; pc <-- get_coll p ;;
  rp <-- parent_of ret ;;
  mfor (filter (fun k => negb (existsb (String.eqb k) (keep ++ more)%list)) (map fst (c_dims pc))) (fun k => pop_dim rp k).

(** 1117-1135 for [clean_break=False]. *)
Definition extract_keep (v : Z) (keep_bounds : bool) : M Z :=
  r <-- copy_var v ;;
  x <-- get_var v ;;
  match v_parent x with
  | None => mret tt
  | Some _ =>
      keep <-- keep_names v keep_bounds ;;
      rp <-- parent_of r ;; rc <-- get_coll rp ;;
      mfor (map snd (c_vars rc)) (fun w =>
        y <-- get_var w ;; if existsb (String.eqb (v_name y)) keep then mret tt else pop_var rp (v_name y))
  end ;;;
  x <-- get_var v ;; rp <-- parent_of r ;; rc <-- get_coll rp ;; r <-- lookup (c_vars rc) (v_name x) ;;
  drop_dims v r keep_bounds ;;; mret r.

(** ** Removing *)
(** 2172-2192 [remove_orphaned_dimensions]. *)
Definition used_by (c : coll) (h : heap) (d : string) : bool :=
  existsb (fun kv => match v_dims (h_var h (snd kv)) with Some l => existsb (String.eqb d) l | None => false end) (c_vars c).
Definition remove_orphaned_dimensions (c : Z) (dims : list string) : M unit :=
  fun h =>
    let unused := filter (fun d => negb (used_by (h_coll h c) h d)) dims in
    mfor unused (fun d => pop_dim c d) h.
Fixpoint remove_first (l : list string) (n : string) : list string :=
  match l with [] => [] | x :: t => if String.eqb n x then t else x :: remove_first t n end.
(** A set of names. *)
Fixpoint dedup (l : list string) : list string :=
  match l with [] => [] | x :: t => if existsb (String.eqb x) t then dedup t else x :: dedup t end.
(** 2194-2224 [remove_variable], given a name. *)
Definition remove_variable (c : Z) (name : string) (remove_bounds : bool) : M Z :=
  cc <-- get_coll c ;; v <-- lookup (c_vars cc) name ;;
  check <-- dimension_names_of v ;;
  x <-- get_var v ;;
  b <-- (if remove_bounds then bounds_of v else mret None) ;;
  nc <-- (match b with
          | None => mret ([v_name x], check)
          | Some w => y <-- get_var w ;; more <-- dimension_names_of w ;; mret ([v_name x; v_name y], dedup (check ++ more)%list)
          end) ;;
  ret <-- extract_keep v remove_bounds ;;
  mfor (fst nc) (fun rn =>
    cc <-- get_coll c ;; put_coll c (set_tags cc (map (fun t => (fst t, remove_first (snd t) rn)) (c_tags cc))) ;;;
    pop_var c rn) ;;;
  remove_orphaned_dimensions c (snd nc) ;;; mret ret.

(** 1117-1135 for [clean_break=True]. *)
Definition extract_clean (v : Z) (keep_bounds : bool) : M Z :=
  r <-- copy_var v ;;
  x <-- get_var v ;;
  match v_parent x with
  | None => mret tt
  | Some c =>
      keep <-- keep_names v keep_bounds ;;
      rp <-- parent_of r ;; cc <-- get_coll c ;;
      let out := filter (fun k => negb (existsb (String.eqb k) keep)) (map fst (c_vars cc)) in
      mfor keep (fun k => _ <-- remove_variable c k true ;; mret tt) ;;;
      mfor out (fun k => pop_var rp k)
  end ;;;
  x <-- get_var v ;; rp <-- parent_of r ;; rc <-- get_coll rp ;; r <-- lookup (c_vars rc) (v_name x) ;;
  drop_dims v r keep_bounds ;;; mret r.
Definition extract (v : Z) (keep_bounds clean_break : bool) : M Z :=
  if clean_break then extract_clean v keep_bounds else extract_keep v keep_bounds.

(** ** Renaming and bounds *)
(** 156-165 [set_name] of a variable. *)
Definition set_name (v : Z) (name : string) : M unit :=
  x <-- get_var v ;;
  match v_parent x with
  | None => mret tt
  | Some c =>
      cc <-- get_coll c ;;
      match dget String.eqb (c_vars cc) (v_name x) with
      | None => mret tt
      | Some w => put_coll c (set_vars cc (dset String.eqb (dremove String.eqb (c_vars cc) (v_name x)) name w))
      end
  end ;;;
  put_var v (with_name x name).
Fixpoint replace_first (l : list string) (old new : string) : list string :=
  match l with [] => [] | x :: t => if String.eqb old x then new :: t else x :: replace_first t old new end.
(** 2226-2243 [rename_dimension]. *)
Definition rename_dimension (c : Z) (old new : string) : M unit :=
  cc <-- get_coll c ;; d <-- lookup (c_dims cc) old ;; dd <-- get_dim d ;;
  put_dim d (mkdim new (d_size dd) (d_cur dd) (d_src dd)) ;;;
  put_coll c (set_dims cc (dset String.eqb (dremove String.eqb (c_dims cc) old) new d)) ;;;
  mfor (map snd (c_vars cc)) (fun v =>
    x <-- get_var v ;;
    match v_dims x with Some l => put_var v (with_dims x (Some (replace_first l old new))) | None => mret tt end).
(** 1429-1469 [set_bounds]: [None] drops them. *)
Definition set_bounds (v : Z) (b : option Z) (force : bool) : M unit :=
  p <-- parent_of v ;; x <-- get_var v ;;
  match b with
  | None =>
      match v_bounds x with None => mret tt | Some n => pop_var p n end ;;;
      put_var v (with_bounds x None)
  | Some w => y <-- get_var w ;; put_var v (with_bounds x (Some (v_name y))) ;;; add_variable p w force
  end.

(** ** Tags *)
(** 1924-1935 [create_tag]. *)
Definition create_tag (c : Z) (tag : string) : M unit :=
  cc <-- get_coll c ;;
  if dmem String.eqb (c_tags cc) tag then mraise ValueError else put_coll c (set_tags cc (dset String.eqb (c_tags cc) tag [])).
(** 1970-1997 [get_by_tag] with [names_only=True] and without. *)
Definition tag_names (c : Z) (tag : string) (create : bool) : M (list string) :=
  cc <-- get_coll c ;;
  (if negb (dmem String.eqb (c_tags cc) tag) && create then create_tag c tag else mret tt) ;;;
  cc <-- get_coll c ;; lookup (c_tags cc) tag.
Fixpoint tagged (vars : list (string * Z)) (names : list string) (strict : bool) : res (list Z) :=
  match names with
  | [] => Ok []
  | n :: t =>
      match dget String.eqb vars n with
      | Some v => do r <- tagged vars t strict; Ok (v :: r)
      | None => if strict then Err KeyError else tagged vars t strict
      end
  end.
Definition get_by_tag (c : Z) (tag : string) (create strict : bool) : M (list Z) :=
  names <-- tag_names c tag create ;; cc <-- get_coll c ;; lift_res (tagged (c_vars cc) names strict).
(** 1885-1899: each name in turn, refused if it is there already. *)
Fixpoint append_names (names to_append : list string) : res (list string) :=
  match to_append with
  | [] => Ok names
  | t :: rest => if existsb (String.eqb t) names then Err ValueError else append_names (names ++ [t])%list rest
  end.
(** 1879-1900 [append_to_tags]. *)
Definition append_to_tags (c : Z) (tag : string) (to_append : list string) (create : bool) : M unit :=
  names <-- tag_names c tag create ;; names <-- lift_res (append_names names to_append) ;;
  cc <-- get_coll c ;; put_coll c (set_tags cc (dset String.eqb (c_tags cc) tag names)).

(** A user's operations; exceptions are caught and the history goes on. *)
Inductive cop :=
| CNewDim (d : dim)
| CNewColl
| CNewVariable (name : string) (value : option (list Z)) (dimensions : option (list dimarg)) (parent : option Z)
| CAddDimension (c d : Z) (force check_src : bool)
| CAddVariable (c v : Z) (force : bool)
| CCopy (c : Z)
| CExtract (v : Z) (keep_bounds clean_break : bool)
| CRemove (c : Z) (name : string) (remove_bounds : bool)
| CSetName (v : Z) (name : string)
| CRenameDimension (c : Z) (old new : string)
| CSetBounds (v : Z) (b : option Z) (force : bool)
| CCreateTag (c : Z) (tag : string)
| CAppendTag (c : Z) (tag : string) (names : list string) (create : bool)
| CGetTag (c : Z) (tag : string) (create strict : bool).
Definition cstep (h : heap) (o : cop) : heap :=
  match o with
  | CNewDim d => fst (new_dim d h)
  | CNewColl => fst (new_coll no_coll h)
  | CNewVariable name value dimensions parent => fst (new_variable name value dimensions parent h)
  | CAddDimension c d force check_src => fst (add_dimension c d force check_src h)
  | CAddVariable c v force => fst (add_variable c v force h)
  | CCopy c => fst (copy_coll c h)
  | CExtract v keep_bounds clean_break => fst (extract v keep_bounds clean_break h)
  | CRemove c name remove_bounds => fst (remove_variable c name remove_bounds h)
  | CSetName v name => fst (set_name v name h)
  | CRenameDimension c old new => fst (rename_dimension c old new h)
  | CSetBounds v b force => fst (set_bounds v b force h)
  | CCreateTag c tag => fst (create_tag c tag h)
  | CAppendTag c tag names create => fst (append_to_tags c tag names create h)
  | CGetTag c tag create strict => fst (get_by_tag c tag create strict h)
  end.
Definition crun (ops : list cop) : heap := fold_left cstep ops empty_heap.
