(** Model of src/ocgis/variable/dimension.py and of the slice formatting
    helpers it uses. *)
From Verif Require Import Py PartitionModel.

(** Source indices, variable/dimension.py:505-512 [identify_source_index_type]:
    a NumPy array is FANCY, anything else is a (start, stop) BOUNDS tuple. *)
Inductive srcidx := SrcBounds (a b : Z) | SrcFancy (l : list Z).

(** What a user may pass as a one-dimensional slice: an integer, a slice, an
    integer array/list, a boolean array/list, [None].  Strings and floats, which
    [get_formatted_slice] would try to convert with [int], are not modelled. *)
Inductive rawslc :=
| RInt (i : Z) | RSlice (s : pyslice) | RInts (l : list Z) | RBools (l : list bool) | RNone.

(** What comes out of formatting: a slice object or an index/boolean array. *)
Inductive slc := SSlice (s : pyslice) | SInts (l : list Z) | SBools (l : list bool).

(** [np.any(np.diff(arr) > 1)]. *)
Fixpoint any_diff_gt1 (l : list Z) : bool :=
  match l with
  | x :: ((y :: _) as t) => (y - x >? 1) || any_diff_gt1 t
  | _ => false
  end.

(** util/helpers.py:624-633 [get_optimal_slice_from_array], default arguments,
    integer arrays. *)
Definition get_optimal_slice_from_array (arr : list Z) : res slc :=
  if any_diff_gt1 arr then Ok (SInts arr)
  else do a <- list_min arr; do b <- list_max arr; Ok (SSlice (slice_of a (b + 1))).

(** util/helpers.py:660-663 [get_reduced_slice]. *)
Definition get_reduced_slice (arr : list Z) : res pyslice :=
  do a <- list_min arr; do b <- list_max arr; Ok (slice_of a (b + 1)).

(** util/helpers.py:436-464 [_format_singleton_] inside [get_formatted_slice]. *)
Definition format_singleton (s : rawslc) : res slc :=
  match s with
  | RInt i => Ok (SSlice (slice_of i (i + 1)))
  | RSlice s => Ok (SSlice s)
  | RInts l => get_optimal_slice_from_array l
  | RBools l => Ok (SBools l)
  | RNone => Ok (SSlice slice_none)
  end.

(** util/helpers.py:435-490 [get_formatted_slice] for [n_dims = 1]. *)
Definition get_formatted_slice1 (s : rawslc) : res slc := format_singleton s.

(** util/helpers.py:435-490 [get_formatted_slice] for [n_dims > 1] given a
    sequence of per-dimension slices (475-480); a sequence of the wrong length
    raises IndexError. *)
Definition get_formatted_slice_nd (ss : list rawslc) (n_dims : Z) : res (list slc) :=
  if n_dims =? 1 then
    match ss with [s] => do x <- format_singleton s; Ok [x] | _ => Err IndexError end
  else if n_dims >? 1 then
    if zlen ss =? n_dims then map_res format_singleton ss else Err IndexError
  else Err NotImplementedError.

(** util/helpers.py:155-173 [get_added_slice]. *)
Definition or0 (a : option Z) : Z := match a with None => 0 | Some x => x end.
Definition get_added_slice (s1 s2 : pyslice) : pyslice :=
  slice_of (or0 (sl_start s1) + or0 (sl_start s2)) (or0 (sl_stop s1) + or0 (sl_stop s2)).

(** The dimension object (variable/dimension.py:44-67); aliases and uid, which
    no modelled function reads, are left out. *)
Record dim := mkdim {
  d_name : string;
  d_size : option Z;
  d_size_current : option Z;
  d_src : option srcidx;
  d_dist : bool;
  d_empty : bool;
  d_bounds_local : option (Z * Z);
  d_bounds_global : option (Z * Z)
}.

(** variable/dimension.py:99-106 [__len__], with [size_current] 201-211. *)
Definition dim_len (d : dim) : Z :=
  match d_size d with
  | Some n => n
  | None => match d_size_current d with Some n => n | None => 0 end
  end.

(** variable/dimension.py:145-164 and 117-136, the bounds properties. *)
Definition bounds_local (d : dim) : Z * Z :=
  match d_bounds_local d with Some b => b | None => (0, dim_len d) end.
Definition bounds_global (d : dim) : Z * Z :=
  match d_bounds_global d with Some b => b | None => (0, dim_len d) end.

(** variable/dimension.py:227-243, the [_src_idx] setter. *)
Definition set_src_idx (d : dim) (value : option srcidx) : res dim :=
  let d' := mkdim (d_name d) (d_size d) (d_size_current d) value (d_dist d) (d_empty d)
                  (d_bounds_local d) (d_bounds_global d) in
  match value with
  | None => Ok d'
  | Some (SrcFancy l) => if zlen l =? dim_len d then Ok d' else Err ValueError
  | Some (SrcBounds a b) => if b - a =? dim_len d then Ok d' else Err ValueError
  end.

(** The [src_idx] argument: absent, the string 'auto', or a value. *)
Inductive srcarg := SrcNone | SrcAuto | SrcVal (s : srcidx).

(** variable/dimension.py:367-395 [set_size]. *)
Definition set_size (d : dim) (value : option Z) (src : srcarg) : res dim :=
  let src' := match value, src with
              | None, _ => None
              | Some v, SrcAuto => Some (SrcBounds 0 v)
              | Some _, SrcNone => None
              | Some _, SrcVal s => Some s
              end in
  let size' := match d_size d with None => None | Some _ => value end in        (* 387-388 *)
  let d1 := mkdim (d_name d) size' value (d_src d) (d_dist d) (d_empty d) None (d_bounds_global d) in
  do d2 <- set_src_idx d1 src';
  if d_dist d then
    match d_size d2, d_size_current d2 with
    | None, None => Err ValueError                                              (* 393-395 *)
    | _, _ => Ok d2
    end
  else Ok d2.

(** variable/dimension.py:249-264 [convert_to_empty]. *)
Definition convert_to_empty (d : dim) : res dim :=
  if d_dist d then
    Ok (mkdim (d_name d) (Some 0) (Some 0) None (d_dist d) true (Some (0, 0)) (Some (0, 0)))
  else Err ValueError.

(** variable/dimension.py:44-67 [__init__]. *)
Definition py_or (a b : option Z) : option Z :=
  match a with Some x => if x =? 0 then b else a | None => b end.

Definition dim_init (name : string) (size size_current : option Z) (src : srcarg) (dist is_empty : bool)
  : res dim :=
  if is_empty && negb dist then Err ValueError
  else
    let d0 := mkdim name size size_current None dist is_empty None None in
    if is_empty then convert_to_empty d0
    else
      let sc := match size_current with None => size | _ => size_current end in
      set_size d0 (py_or size sc) src.

(** variable/dimension.py:515-547 [slice_source_index].  A [None] end compared
    with 0 raises TypeError (534, 539); a FANCY index is indexed by NumPy: an
    index out of range or a boolean array of the wrong length raises IndexError. *)
Definition fancy_getitem (l : list Z) (s : slc) : res (list Z) :=
  match s with
  | SSlice s => Ok (py_slice l s)
  | SInts idx => map_res (py_index l) idx
  | SBools m => if zlen m =? zlen l then Ok (bool_select m l) else Err IndexError
  end.

Fixpoint where_true (m : list bool) (k : Z) : list Z :=
  match m with [] => [] | b :: t => if b then k :: where_true t (k + 1) else where_true t (k + 1) end.

Definition slice_source_index (s : slc) (src : option srcidx) : res (option srcidx) :=
  match s with
  | SSlice sl =>
    if pyslice_eqb sl slice_none then Ok src                                    (* 516-517 *)
    else
      match src with
      | None => Ok None
      | Some (SrcFancy l) => Ok (Some (SrcFancy (py_slice l sl)))               (* 523 *)
      | Some (SrcBounds a b) =>
        let offset := a in
        let lo := 0 in let hi := b - offset in                                  (* 531 *)
        match sl_start sl, sl_stop sl with
        | Some start, Some stop =>
          let lo' := if start <? 0 then hi + start
                     else if start >? lo then start else lo in                  (* 534-537 *)
          let hi' := if stop <? 0 then hi + stop
                     else if stop <? hi then stop else hi in                    (* 539-542 *)
          Ok (Some (SrcBounds (lo' + offset) (hi' + offset)))                   (* 543-544 *)
        | _, _ => Err TypeError
        end
      end
  | SInts idx =>
    match src with
    | None => Ok None
    | Some (SrcFancy l) => do r <- fancy_getitem l s; Ok (Some (SrcFancy r))
    | Some (SrcBounds a _) => Ok (Some (SrcFancy (map (fun i => i + a) idx)))   (* 526-529 *)
    end
  | SBools m =>
    match src with
    | None => Ok None
    | Some (SrcFancy l) => do r <- fancy_getitem l s; Ok (Some (SrcFancy r))
    | Some (SrcBounds a _) => Ok (Some (SrcFancy (map (fun i => i + a) (where_true m 0))))
    end
  end.

(** variable/dimension.py:405-449 [__getitem_main__]: the length of the slice. *)
Definition getitem_length (length_self : Z) (s : slc) : Z :=
  let length :=
    match s with
    | SInts l => zlen l                                                         (* 408 *)
    | SBools m => zlen (bool_select m (map (fun _ => tt) m))                    (* 437: slc.sum() *)
    | SSlice sl =>
      match sl_start sl, sl_stop sl with
      | Some a, Some b =>
        let l := b - a in if l >? length_self then length_self else l           (* 412, 430-432 *)
      | None, Some b => if b >? 0 then length_self else length_self + b         (* 415-421 *)
      | None, None => length_self
      | Some a, None => if a >? 0 then length_self - a else Z.abs a             (* 422-426 *)
      end
    end in
  if length <? 0 then length + length_self else length.                         (* 442-444 *)

Definition getitem_main (d : dim) (s : slc) : res dim :=
  let length := getitem_length (dim_len d) s in
  do src <- slice_source_index s (d_src d);
  set_size d (Some length) (match src with None => SrcNone | Some x => SrcVal x end).

(** variable/dimension.py:72-97 [__getitem__]. *)
Definition dim_getitem (d : dim) (raw : rawslc) : res dim :=
  if dim_len d =? 0 then Err IndexError
  else do s <- get_formatted_slice1 raw; getitem_main d s.

(** variable/dimension.py:295-365 [get_distributed_slice], run by all ranks of
    the current VM at once; [dims] holds the dimension object of each rank.

    Per rank, lines 307-332: the local part of the slice. *)
Definition local_part (raw : rawslc) (d : dim) : res dim :=
  if d_empty d then Err EmptyObjectError                                        (* 307 *)
  else
    do s <- get_formatted_slice1 raw;
    match s with
    | SSlice sl =>
      do loc <- get_global_to_local_slice (sl_start sl) (sl_stop sl) (bounds_local d);  (* 321 *)
      match loc with
      | None => convert_to_empty d                                              (* 326-327 *)
      | Some (a, b) => dim_getitem d (RSlice (slice_of a b))                    (* 331 *)
      end
    | SInts l => dim_getitem d (RInts l)                                        (* 319, 331 *)
    | SBools l => dim_getitem d (RBools l)
    end.

Definition set_bounds_global (d : dim) (b : Z * Z) : dim :=
  mkdim (d_name d) (d_size d) (d_size_current d) (d_src d) (d_dist d) (d_empty d) (d_bounds_local d) (Some b).
Definition set_bounds_local (d : dim) (b : Z * Z) : dim :=
  mkdim (d_name d) (d_size d) (d_size_current d) (d_src d) (d_dist d) (d_empty d) (Some b) (d_bounds_global d).

(** Lines 349-364: on the live ranks, in rank order, every rank but the first
    adds the running total to its local bounds; [adjust] starts as the length of
    the first live rank and travels by broadcast. *)
Fixpoint normalize_rest (adjust : Z) (ds : list dim) : list dim :=
  match ds with
  | [] => []
  | d :: t =>
    if d_empty d then d :: normalize_rest adjust t
    else set_bounds_local d (fst (bounds_local d) + adjust, snd (bounds_local d) + adjust)
           :: normalize_rest (adjust + dim_len d) t
  end.

Fixpoint normalize_bounds (ds : list dim) : list dim :=
  match ds with
  | [] => []
  | d :: t => if d_empty d then d :: normalize_bounds t else d :: normalize_rest (dim_len d) t
  end.

(** Which path a rank takes: 312-316 or the collective part 317-364. *)
Inductive dpath := PCopy | PPlain | PCollective.
Definition choose_path (p : dim * rawslc) : res dpath :=
  let '(d, raw) := p in
  if d_empty d then Err EmptyObjectError                                        (* 307 *)
  else
    do s <- get_formatted_slice1 raw;                                           (* 309 *)
    match s with
    | SSlice sl => if pyslice_eqb sl slice_none then Ok PCopy                   (* 312-313 *)
                   else if d_dist d then Ok PCollective else Ok PPlain          (* 315-317 *)
    | _ => if d_dist d then Ok PCollective else Ok PPlain
    end.

Definition is_collective (p : dpath) : bool := match p with PCollective => true | _ => false end.

(** The whole call on all ranks; each rank passes its own dimension and slice
    (fancy slices are rank-local).  The gather and broadcast are collective: if
    only some ranks get there the call never returns. *)
Definition get_distributed_slice (ranks : list (dim * rawslc)) : res (list dim) :=
  do paths <- map_res choose_path ranks;
  if forallb is_collective paths then
    do parts <- map_res (fun p => local_part (snd p) (fst p)) ranks;
    let total := zsum (map dim_len parts) in                                    (* 328, 332, 334-342 *)
    let parts' := map (fun d => if d_empty d then d else set_bounds_global d (0, total)) parts in   (* 345-347 *)
    Ok (normalize_bounds parts')
  else if existsb is_collective paths then Err Deadlock
  else map_res (fun p => match p with
                         | (d, raw, PCopy) => Ok d
                         | (d, raw, _) => dim_getitem d raw
                         end) (combine ranks paths).

(** variable/dimension.py:452-492 [create_distributed_dimension]: the start
    index is passed from rank to rank (472-480); [sizes] are the local sizes. *)
Fixpoint start_chain (start : Z) (sizes : list Z) : list Z :=
  match sizes with [] => [] | s :: t => start :: start_chain (start + s) t end.

Definition create_distributed_dimension (name : string) (sizes : list Z) (src : srcarg) : res (list dim) :=
  let size_global := zsum sizes in                                              (* 465 *)
  map_res (fun p : Z * Z =>
    let '(start_idx, size) := p in
    do d <- dim_init name (Some size) None src true (size =? 0);                (* 486-489 *)
    Ok (set_bounds_local (set_bounds_global d (0, size_global)) (start_idx, start_idx + size)))
    (combine (start_chain 0 sizes) sizes).

(** util/helpers.py:106-147 [arange_from_dimension] with [dist=True]: the start
    value is sent from each rank to the next; [lens] are the local lengths. *)
Definition arange_from_dimension (lens : list Z) (start : Z) : list (list Z) :=
  map (fun p : Z * Z => zrange (fst p) (fst p + snd p)) (combine (start_chain start lens) lens).

(** variable/base.py:1086-1107 [create_ugid_global]: sizes are gathered, the
    root sends each rank its start; every rank calls [create_ugid] (1066-1084),
    an arange over its size.  An empty rank raises before (1093). *)
Fixpoint root_starts (start : Z) (sizes : list Z) : list Z :=
  match sizes with [] => [] | s :: t => start :: root_starts (start + s) t end.

Definition create_ugid_global (sizes : list (option Z)) (start : Z) : res (list (list Z)) :=
  do ss <- map_res (fun s => match s with None => Err EmptyObjectError | Some n => Ok n end) sizes;
  Ok (map (fun p : Z * Z => zrange (fst p) (fst p + snd p)) (combine (root_starts start ss) ss)).
