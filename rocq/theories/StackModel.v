(** Model of [stack] (src/ocgis/variable/base.py:2544-2631), of [VariableCollection.groups_to_variable]
    (2003-2051) and of what they use.

    A variable has its dimensions by value (name, length, unlimited or not), its value and
    mask as arrays, its attributes as far as they are units, and the name of its bounds.
    Data types are left out: the values of all variables are of one type, and assigning
    does not convert them.  Sourced variables are loaded. *)
From Verif Require Import Py NdModel.
Local Open Scope string_scope.
Local Open Scope list_scope.
Local Open Scope Z_scope.

Record dim := mkdim { d_name : string; d_len : Z; d_unlimited : bool }.

Record var (A : Type) := mkvar {
  v_name : string;
  v_dims : list dim;
  v_value : nd A;
  v_mask : option (nd bool);
  v_units : option string;
  v_bounds : option string }.
Arguments mkvar {A}. Arguments v_name {A}. Arguments v_dims {A}. Arguments v_value {A}. Arguments v_mask {A}.
Arguments v_units {A}. Arguments v_bounds {A}.

Definition dim_names {A} (v : var A) : list string := map d_name (v_dims v).

(** ** Assignment to a part of an array

    [arr[slices] = value] of NumPy with slices of step one: the shape of the value is aligned
    at its end with the shape of the part; lengths one are repeated; further leading axes of
    the value must have length one. *)
Fixpoint fits_rev (r s : list Z) : bool :=
  match r, s with
  | [], _ => true
  | x :: r', [] => (x =? 1) && fits_rev r' []
  | x :: r', y :: s' => ((x =? y) || (x =? 1)) && fits_rev r' s'
  end.
Fixpoint source_rev (r i : list Z) : list Z :=
  match r, i with
  | [], _ => []
  | _ :: r', [] => 0 :: source_rev r' []
  | x :: r', j :: i' => (if x =? 1 then 0 else j) :: source_rev r' i'
  end.
Definition fits (r s : list Z) : bool := fits_rev (rev r) (rev s).
Definition source (r i : list Z) : list Z := rev (source_rev (rev r) (rev i)).

Fixpoint inside (lo hi idx : list Z) : bool :=
  match lo, hi, idx with
  | [], [], [] => true
  | a :: lo', b :: hi', i :: idx' => (a <=? i) && (i <? b) && inside lo' hi' idx'
  | _, _, _ => false
  end.
Fixpoint minus (idx lo : list Z) : list Z :=
  match idx, lo with
  | i :: idx', a :: lo' => (i - a) :: minus idx' lo'
  | _, _ => []
  end.

Definition np_assign {A} (arr : nd A) (lo hi : list Z) (value : nd A) : res (nd A) :=
  if fits (nd_shape value) (minus hi lo)
  then Ok (mknd (nd_shape arr)
             (fun idx => if inside lo hi idx then nd_at value (source (nd_shape value) (minus idx lo)) else nd_at arr idx))
  else Err ValueError.

(** ** [Variable.__setitem__], variable/base.py:339-370, for a variable without bounds *)
Definition no_mask (shape : list Z) : nd bool := mknd shape (fun _ => false).

Definition set_item {A} (v : var A) (lo hi : list Z) (w : var A) : res (var A) :=
  do value <- np_assign (v_value v) lo hi (v_value w);
  do mask <- match v_mask w with
             | None => Ok (v_mask v)
             | Some m =>
                 do m' <- np_assign (match v_mask v with Some k => k | None => no_mask (nd_shape (v_value v)) end) lo hi m;
                 Ok (Some m')
             end;
  Ok (mkvar (v_name v) (v_dims v) value mask (v_units v) (v_bounds v)).

(** ** [stack] of variables, variable/base.py:2582-2629 *)

(** [dimensions_dict[name]]: the last one of a name. *)
Definition len_of {A} (name : string) (v : var A) : res Z :=
  match find (fun d => String.eqb (d_name d) name) (rev (v_dims v)) with
  | Some d => Ok (d_len d)
  | None => Err KeyError
  end.

Definition new_dims {A} (arch : var A) (name : string) (size : Z) : list dim :=
  map (fun d => if String.eqb (d_name d) name then mkdim (d_name d) size (d_unlimited d) else d) (v_dims arch).

(** The slices of the outgoing variable while the stack dimension runs from [a] to [b]. *)
Definition starts {A} (arch : var A) (name : string) (a : Z) : list Z :=
  map (fun d => if String.eqb (d_name d) name then a else 0) (v_dims arch).
Definition stops {A} (arch : var A) (name : string) (b : Z) : list Z :=
  map (fun d => if String.eqb (d_name d) name then b else d_len d) (v_dims arch).

Fixpoint fill_stack {A} (arch : var A) (name : string) (prev : Z) (targets : list (var A)) (acc : var A) : res (var A) :=
  match targets with
  | [] => Ok acc
  | v :: t =>
      do n <- len_of name v;
      do acc' <- set_item acc (starts arch name prev) (stops arch name (prev + n)) v;
      fill_stack arch name (prev + n) t acc'
  end.

Definition stack_variables {A} (fill : A) (targets : list (var A)) (name : string) : res (var A) :=
  match targets with
  | [] => Err IndexError
  | arch :: _ =>
      do sizes <- map_res (len_of name) targets;
      let dims := new_dims arch name (fold_right Z.add 0 sizes) in
      fill_stack arch name 0 targets
        (mkvar (v_name arch) dims (mknd (map d_len dims) (fun _ => fill)) None (v_units arch) None)
  end.

(** ** [stack] of collections, variable/base.py:2568-2580

    A collection is the list of its variables in their order, names once.  Field coordinates
    get their bounds from the dimension map again when asked for (collection/field.py:1076-1093). *)
Definition coll (A : Type) := list (string * var A).

Definition has_dim {A} (name : string) (v : var A) : bool := existsb (String.eqb name) (dim_names v).

Definition lookup {A} (c : coll A) (n : string) : res (var A) :=
  match dget String.eqb c n with Some v => Ok v | None => Err KeyError end.

(** [ret[n] = v] of an ordered dictionary is [dset]. *)
Definition stack_collections {A} (fill : A) (targets : list (coll A)) (name : string) : res (coll A) :=
  match targets with
  | [] => Err IndexError
  | arch :: _ =>
      let to_stack := map fst (filter (fun nv => has_dim name (snd nv)) arch) in
      do stacked <- map_res (fun n => do vs <- map_res (fun c => lookup c n) targets; stack_variables fill vs name) to_stack;
      Ok (fold_left (fun c s => dset String.eqb c (v_name s) s) stacked arch)
  end.

(** [get_field_property], collection/field.py:1076-1093, for a coordinate whose bounds the dimension map names;
    the mask of the bounds, which is set again, is left out. *)
Definition coordinate {A} (c : coll A) (n : string) (bounds : option string) : option (var A) :=
  match dget String.eqb c n with
  | None => None
  | Some v =>
      match bounds with
      | None => Some v
      | Some b => Some (mkvar (v_name v) (v_dims v) (v_value v) (v_mask v) (v_units v)
                          (match dget String.eqb c b with Some _ => Some b | None => None end))
      end
  end.

(** ** [groups_to_variable], variable/base.py:2003-2051

    The groups are the children with their names; [name] is the name of the new variable and
    [dname] its dimension.  The names of the groups become its value, given by [encode]. *)
Definition stacked_group_dims {A} (v : var A) (dname : string) (size : Z) : list dim :=
  let dims := map (fun d => mkdim (d_name d) (d_len d) false) (v_dims v) in
  map (fun d => if String.eqb (d_name d) dname then mkdim dname size false else d) dims.

Fixpoint fill_groups {A} (dims : list dim) (dname : string) (n : string) (k : Z) (groups : list (string * coll A)) (value : nd A) : res (nd A) :=
  match groups with
  | [] => Ok value
  | (_, c) :: t =>
      do w <- lookup c n;
      do value' <- np_assign value (map (fun d => if String.eqb (d_name d) dname then k else 0) dims)
                     (map (fun d => if String.eqb (d_name d) dname then k + 1 else d_len d) dims) (v_value w);
      fill_groups dims dname n (k + 1) t value'
  end.

Definition group_variable {A} (fill : A) (groups : list (string * coll A)) (dname : string) (v : var A) : res (var A) :=
  let dims := stacked_group_dims v dname (Z.of_nat (length groups)) in
  do value <- fill_groups dims dname (v_name v) 0 groups (mknd (map d_len dims) (fun _ => fill));
  Ok (mkvar (v_name v) dims value None None None).

(** A collection with its dimensions. *)
Record gcoll (A : Type) := mkgcoll { gc_dims : list (string * dim); gc_vars : coll A }.
Arguments mkgcoll {A}. Arguments gc_dims {A}. Arguments gc_vars {A}.

(** [remove_variable], variable/base.py:2194-2224, with the bounds and the dimensions nobody uses. *)
Definition remove_variable {A} (c : gcoll A) (n : string) : res (gcoll A) :=
  do v <- lookup (gc_vars c) n;
  do b <- match v_bounds v with None => Ok [] | Some b => do w <- lookup (gc_vars c) b; Ok [(b, w)] end;
  let gone := n :: map fst b in
  let dims := dim_names v ++ List.concat (map (fun nw => dim_names (snd nw)) b) in
  let vars := filter (fun nv => negb (existsb (String.eqb (fst nv)) gone)) (gc_vars c) in
  Ok (mkgcoll (filter (fun nd => negb (existsb (String.eqb (fst nd)) dims) || existsb (fun nv => has_dim (fst nd) (snd nv)) vars) (gc_dims c)) vars).

(** [Dimension.eq], variable/dimension.py:266-293, without source indices. *)
Definition dim_eqb (d e : dim) : bool :=
  (String.eqb (d_name d) (d_name e) && (d_len d =? d_len e) && Bool.eqb (d_unlimited d) (d_unlimited e))%bool.

(** [add_dimension] and [add_variable], variable/base.py:1826-1843, 1850-1877, without [force], for a new variable. *)
Definition add_dimension (l : list (string * dim)) (d : dim) : res (list (string * dim)) :=
  match dget String.eqb l (d_name d) with
  | Some e => if dim_eqb e d then Ok l else Err DimensionMismatchError
  | None => Ok (dset String.eqb l (d_name d) d)
  end.
Definition add_variable {A} (c : gcoll A) (v : var A) : res (gcoll A) :=
  do dims <- fold_left (fun a d => do l <- a; add_dimension l d) (v_dims v) (Ok (gc_dims c));
  if dmem String.eqb (gc_vars c) (v_name v) then Err VariableInCollectionError
  else Ok (mkgcoll dims (dset String.eqb (gc_vars c) (v_name v) v)).

Definition replace_by_groups {A} (fill : A) (groups : list (string * coll A)) (dname : string) (ret : gcoll A) (v : var A) : res (gcoll A) :=
  do ret1 <- remove_variable ret (v_name v);
  do new <- group_variable fill groups dname v;
  add_variable ret1 new.

(** [dims] are the dimensions of the first group. *)
Definition groups_to_variable {A} (fill : A) (encode : string -> A) (dims : list (string * dim)) (groups : list (string * coll A))
  (name dname : string) : res (gcoll A) :=
  match groups with
  | [] => Err StopIteration
  | (_, first) :: _ =>
      let size := Z.of_nat (length groups) in
      let label := mkvar name [mkdim dname size false]
                     (mknd [size] (fun idx => nth (Z.to_nat (nth 0 idx 0)) (map (fun g => encode (fst g)) groups) fill)) None None None in
      do ret <- fold_left (fun a nv => do r <- a; replace_by_groups fill groups dname r (snd nv))
                  (filter (fun nv => has_dim dname (snd nv)) first) (Ok (mkgcoll dims first));
      add_variable ret label
  end.
