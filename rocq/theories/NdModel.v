(** Model of arrays with named dimensions: src/ocgis/util/broadcaster.py, the
    helpers [get_swap_chain] and [get_trimmed_array_by_mask] of
    src/ocgis/util/helpers.py, and mask setting in src/ocgis/variable/base.py. *)
From Verif Require Import Py PartitionModel.

(** A NumPy array: its shape and the element at every index. *)
Record nd (A : Type) := mknd { nd_shape : list Z; nd_at : list Z -> A }.
Arguments mknd {A}. Arguments nd_shape {A}. Arguments nd_at {A}.

Definition zprodl (l : list Z) : Z := fold_right Z.mul 1 l.

(** Position of an index in the C order of a shape, and back. *)
Fixpoint ravel (shape idx : list Z) : Z :=
  match shape, idx with
  | _ :: s, i :: t => i * zprodl s + ravel s t
  | _, _ => 0
  end.
Fixpoint unravel (shape : list Z) (k : Z) : list Z :=
  match shape with
  | [] => []
  | _ :: s => (k / zprodl s) :: unravel s (k mod zprodl s)
  end.

(** [arr.reshape(shape)]. *)
Definition np_reshape {A} (arr : nd A) (shape : list Z) : res (nd A) :=
  if zprodl (nd_shape arr) =? zprodl shape
  then Ok (mknd shape (fun idx => nd_at arr (unravel (nd_shape arr) (ravel shape idx))))
  else Err ValueError.

(** Exchange of the elements at two positions of a list. *)
Fixpoint set_nth {A} (l : list A) (n : nat) (x : A) : list A :=
  match l, n with
  | [], _ => []
  | _ :: t, O => x :: t
  | y :: t, S n' => y :: set_nth t n' x
  end.
Definition swap_list {A} (i j : nat) (l : list A) : list A :=
  match nth_error l i, nth_error l j with
  | Some a, Some b => set_nth (set_nth l i b) j a
  | _, _ => l
  end.

(** [arr.swapaxes(i, j)]. *)
Definition np_swapaxes {A} (i j : nat) (arr : nd A) : nd A :=
  mknd (swap_list i j (nd_shape arr)) (fun idx => nd_at arr (swap_list i j idx)).

(** [np.squeeze(arr, axis=axes)]: ValueError unless all these have size one. *)
Fixpoint drop_axes (k : nat) (axes : list nat) (shape : list Z) : list Z :=
  match shape with
  | [] => []
  | n :: s => if existsb (Nat.eqb k) axes then drop_axes (S k) axes s else n :: drop_axes (S k) axes s
  end.
Fixpoint add_axes (k : nat) (axes : list nat) (shape idx : list Z) : list Z :=
  match shape with
  | [] => []
  | _ :: s =>
    if existsb (Nat.eqb k) axes then 0 :: add_axes (S k) axes s idx
    else match idx with [] => [] | i :: t => i :: add_axes (S k) axes s t end
  end.
Definition np_squeeze {A} (axes : list nat) (arr : nd A) : res (nd A) :=
  if forallb (fun a => match nth_error (nd_shape arr) a with Some n => n =? 1 | None => false end) axes
  then Ok (mknd (drop_axes 0 axes (nd_shape arr)) (fun idx => nd_at arr (add_axes 0 axes (nd_shape arr) idx)))
  else Err ValueError.

(** [l.index(x)]: ValueError if absent. *)
Fixpoint str_index (l : list string) (x : string) : res nat :=
  match l with
  | [] => Err ValueError
  | y :: t => if String.eqb y x then Ok O else do k <- str_index t x; Ok (S k)
  end.
Definition str_mem (x : string) (l : list string) : bool := existsb (String.eqb x) l.

(** util/helpers.py:692-712 [get_swap_chain]. *)
Definition swap_step (desired : list string) (st : list string * list (nat * nat)) (src : nat)
  : res (list string * list (nat * nat)) :=
  let '(running, ops) := st in
  match nth_error running src, nth_error desired src with
  | Some a, Some b =>
    if String.eqb a b then Ok st
    else do dst <- str_index running b; Ok (swap_list src dst running, ops ++ [(src, dst)])
  | _, _ => Err IndexError
  end.
Definition get_swap_chain (actual desired : list string) : res (list (nat * nat)) :=
  if forallb (fun x => str_mem x desired) actual && forallb (fun x => str_mem x actual) desired   (* 699 *)
  then do st <- fold_res (swap_step desired) (seq 0 (List.length actual)) (actual, []); Ok (snd st)
  else Err AssertionError.

(** [l.insert(i, x)]. *)
Definition py_insert {A} (l : list A) (i : nat) (x : A) : list A := firstn i l ++ x :: skipn i l.

Fixpoint enumerate {A} (k : nat) (l : list A) : list (nat * A) :=
  match l with [] => [] | x :: t => (k, x) :: enumerate (S k) t end.

(** util/broadcaster.py:8-34 [broadcast_array_by_dimension_names].  The mask of a
    masked array, swapped alongside at 22-27, goes through the same operations. *)
Definition broadcast_array {A} (arr : nd A) (src_names dst_names : list string) : res (nd A) :=
  let singletons := filter (fun p => negb (str_mem (snd p) src_names)) (enumerate 0 dst_names) in     (* 10 *)
  let matching := filter (fun dn => str_mem dn src_names) dst_names in                                (* 12 *)
  let to_squeeze := filter (fun dn => negb (str_mem dn matching)) src_names in                        (* 14 *)
  do st <- match to_squeeze with
           | [] => Ok (src_names, arr)
           | _ =>
             do axes <- map_res (str_index src_names) to_squeeze;                                     (* 17 *)
             do arr' <- np_squeeze axes arr;                                                          (* 19 *)
             Ok (filter (fun dn => str_mem dn dst_names) src_names, arr')                             (* 18 *)
           end;
  let '(src_names', arr1) := st in
  do chain <- get_swap_chain src_names' matching;                                                     (* 21 *)
  let arr2 := fold_left (fun a sc => np_swapaxes (fst sc) (snd sc) a) chain arr1 in                   (* 22-28 *)
  let shape := fold_left (fun s p => py_insert s (fst p) 1) singletons (nd_shape arr2) in             (* 30-32 *)
  np_reshape arr2 shape.                                                                              (* 33 *)

(** A variable as far as masks and broadcasting are concerned. *)
Record nvar (A : Type) := mknvar { nv_dims : list (string * Z); nv_value : nd A; nv_mask : option (nd bool) }.
Arguments mknvar {A}. Arguments nv_dims {A}. Arguments nv_value {A}. Arguments nv_mask {A}.

Definition nv_names {A} (v : nvar A) : list string := map fst (nv_dims v).
Definition nv_shape {A} (v : nvar A) : list Z := map snd (nv_dims v).

Fixpoint listZ_eqb (a b : list Z) : bool :=
  match a, b with [], [] => true | x :: a', y :: b' => (x =? y) && listZ_eqb a' b' | _, _ => false end.

(** variable/base.py:458-495 [set_dimensions], 765-823 [set_value] and 1026-1053
    [set_mask] inside [broadcast_variable] check that shapes agree. *)
Definition check_shape {A} (a : nd A) (shape : list Z) (e : exc) : res unit :=
  if listZ_eqb (nd_shape a) shape then Ok tt else Err e.

(** util/broadcaster.py:48-76 [broadcast_variable]. *)
Definition broadcast_variable {A} (v : nvar A) (dst_names : list string) : res (nvar A) :=
  let src_names := nv_names v in
  do value <- broadcast_array (nv_value v) src_names dst_names;                                       (* 58 *)
  do mask <- match nv_mask v with
             | None => Ok None
             | Some m => do m' <- broadcast_array m src_names dst_names; Ok (Some m')                 (* 60-63 *)
             end;
  do dims <- map_res (fun n => match dget String.eqb (nv_dims v) n with
                               | Some k => Ok (n, k) | None => Err KeyError end) dst_names;           (* 66 *)
  do _ <- check_shape value (map snd dims) ValueError;
  do _ <- match mask with None => Ok tt | Some m => check_shape m (map snd dims) AssertionError end;
  Ok (mknvar dims value mask).

(** util/broadcaster.py:37-45 [broadcast_scope] around a body that changes the
    variable and may raise.  If the first broadcast raises, [finally] still runs. *)
Definition broadcast_scope {A} (v : nvar A) (dst_names : list string) (body : nvar A -> nvar A * option exc)
  : res (nvar A * option exc) :=
  let original := nv_names v in
  let '(v1, o) := match broadcast_variable v dst_names with Ok v1 => body v1 | Err e => (v, Some e) end in
  do v2 <- broadcast_variable v1 original; Ok (v2, o).

(** variable/base.py:1026-1053 [set_mask] without [cascade]; the bounds variable
    is treated separately below. *)
Definition np_or (a b : nd bool) : nd bool := mknd (nd_shape a) (fun idx => nd_at a idx || nd_at b idx).
Definition var_set_mask {A} (v : nvar A) (mask : option (nd bool)) (update : bool) : res (nvar A) :=
  do _ <- match mask with None => Ok tt | Some m => check_shape m (nv_shape v) AssertionError end;    (* 1036-1038 *)
  let mask' :=
    if update then
      match nv_mask v, mask with
      | Some old, Some m => Some (np_or m old)                                                        (* 1040-1041 *)
      | old, None => old                                                                              (* 1045-1046 *)
      | None, Some m => Some m
      end
    else mask in
  Ok (mknvar (nv_dims v) (nv_value v) mask').

(** [itertools.product] of the index ranges of a shape. *)
Definition indices (shape : list Z) : list (list Z) := list_product (map (zrange 0) shape).

(** variable/base.py:2429-2434 [get_mapping_for_slice].  The order of the pairs
    comes from a set and is irrelevant. *)
Definition get_mapping_for_slice (names_source names_destination : list string) : res (list (nat * nat)) :=
  map_res (fun n => do a <- str_index names_source n; do b <- str_index names_destination n; Ok (a, b))
    (filter (fun n => str_mem n names_source) names_destination).

(** [mask_target[template] = True] where the template has an index or
    [slice(None)] per dimension. *)
Fixpoint matches (template : list (option Z)) (idx : list Z) : bool :=
  match template, idx with
  | [], [] => true
  | None :: t, _ :: u => matches t u
  | Some a :: t, i :: u => (i =? a) && matches t u
  | _, _ => false
  end.
Definition set_true (m : nd bool) (template : list (option Z)) : nd bool :=
  mknd (nd_shape m) (fun idx => matches template idx || nd_at m idx).

Fixpoint strs_eqb (a b : list string) : bool :=
  match a, b with [], [] => true | x :: a', y :: b' => String.eqb x y && strs_eqb a' b' | _, _ => false end.

(** variable/base.py:2503-2536 [set_mask_by_variable] with the slice map it
    computes itself (the callers pass the same one). *)
Definition set_mask_by_variable {A B} (source : nvar A) (target : nvar B) (update : bool) : res (nvar B) :=
  match nv_mask source with
  | None => Ok target                                                                                 (* 2510-2511 *)
  | Some mask_source =>
    let names_source := nv_names source in
    let names_destination := nv_names target in
    do slice_map <- get_mapping_for_slice names_source names_destination;
    if strs_eqb names_source names_destination then var_set_mask target (Some mask_source) update     (* 2519-2520 *)
    else
      let mask_target := match nv_mask target with
                         | Some m => m
                         | None => mknd (nv_shape target) (fun _ => false)                            (* 2523-2524 *)
                         end in
      let '(_, m) :=
        fold_left (fun st slc =>
          let '(template, m) := st in
          if nd_at mask_source slc then
            let template' := fold_left (fun t p => set_nth t (snd p) (Some (nth (fst p) slc 0))) slice_map template in
            (template', set_true m template')
          else (template, m))
          (indices (nv_shape source)) (repeat None (List.length (nv_dims target)), mask_target) in
      (* the mask of the target is changed in place even before it is set again *)
      var_set_mask (mknvar (nv_dims target) (nv_value target)
                      (match nv_mask target with Some _ => Some m | None => None end)) (Some m) update
  end.

(** variable/base.py:2244-2266 [VariableCollection.set_mask]; every variable of a
    collection with its name. *)
Definition collection_set_mask {A} (vars : list (string * nvar A)) (name : string) (exclude : list string) (update : bool)
  : res (list (string * nvar A)) :=
  match dget String.eqb vars name with
  | None => Err KeyError
  | Some source =>
    map_res (fun kv =>
      let '(k, v) := kv in
      if str_mem k exclude then Ok kv                                                                 (* 2259-2260 *)
      else if String.eqb name k || (zlen (nv_dims v) =? 0) then Ok kv                                 (* 2261 *)
      else
        do slice_map <- get_mapping_for_slice (nv_names source) (nv_names v);
        match slice_map with
        | [] => Ok kv
        | _ => do v' <- set_mask_by_variable source v update; Ok (k, v')                              (* 2264-2265 *)
        end) vars
  end.

(** util/helpers.py:715-785 [get_trimmed_array_by_mask] for two-dimensional
    masks: a list of rows, all of [ncol] elements. *)
Definition row_all (mask : list (list bool)) (r : nat) : bool := forallb (fun b => b) (nth r mask []).
Definition col_all (mask : list (list bool)) (c : nat) : bool := forallb (fun row => nth c row true) mask.

(** The first index of 0..n-1 for which [p] fails, and the last one plus one; the
    initial values if there is none (734-746). *)
Definition first_not (p : nat -> bool) (n : nat) : nat :=
  match find (fun i => negb (p i)) (seq 0 n) with Some i => i | None => O end.
Definition last_not (p : nat -> bool) (n : nat) : nat :=
  match find (fun i => negb (p (n - (i + 1))%nat)) (seq 0 n) with Some i => (n - (i + 1) + 1)%nat | None => n end.

Definition trim_slices (mask : list (list bool)) (ncol : nat) : res ((nat * nat) * (nat * nat)) :=
  if forallb (fun row => forallb (fun b => b) row) mask then Err AllElementsMaskedError              (* 731-732 *)
  else
    let nrow := List.length mask in
    Ok ((first_not (row_all mask) nrow, last_not (row_all mask) nrow),
        (first_not (col_all mask) ncol, last_not (col_all mask) ncol)).

Definition cut2 {A} (m : list (list A)) (s : (nat * nat) * (nat * nat)) : list (list A) :=
  let '((r0, r1), (c0, c1)) := s in
  map (fun row => firstn (c1 - c0) (skipn c0 row)) (firstn (r1 - r0) (skipn r0 m)).

(** The array with its mask; returns both cut and the slices used. *)
Definition get_trimmed_array_by_mask {A} (values : list (list A)) (mask : list (list bool)) (ncol : nat)
  : res (list (list A) * list (list bool) * ((nat * nat) * (nat * nat))) :=
  do s <- trim_slices mask ncol; Ok (cut2 values s, cut2 mask s, s).

(** The same for one dimension. *)
Definition trim_slices_1d (mask : list bool) : res (nat * nat) :=
  if forallb (fun b => b) mask then Err AllElementsMaskedError
  else let p i := nth i mask true in Ok (first_not p (List.length mask), last_not p (List.length mask)).
