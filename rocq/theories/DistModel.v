(** Model of OcgDist and of scattering/gathering variables
    (src/ocgis/vmachine/mpi.py), of [create_unique_global_array]
    (src/ocgis/util/helpers.py) and of destination chunk slices
    (src/ocgis/driver/nc.py). *)
From Verif Require Import Py PartitionModel DimensionModel.

(** vmachine/mpi.py:318-326: of the distributed dimensions the last one (in
    dictionary order) that has the maximum length. *)
Definition max_list (l : list Z) : Z := fold_left Z.max l 0.

Definition choose_distributed (dims : list dim) : option dim :=
  let dd := filter d_dist dims in
  let m := max_list (map dim_len dd) in
  fold_left (fun acc d => if dim_len d =? m then Some d else acc) dd None.

Definition undistribute (d : dim) : dim :=
  mkdim (d_name d) (d_size d) (d_size_current d) (d_src d) false (d_empty d) (d_bounds_local d) (d_bounds_global d).

Definition srcarg_of (s : option srcidx) : srcarg := match s with None => SrcNone | Some x => SrcVal x end.

(** vmachine/mpi.py:309-352, one group of one rank.  Dimensions are stored under
    their name (the code stores them under their source name and looks them up
    by name, so a renamed dimension raises KeyError; not modelled).  [int(
    np.floor(n / float(m)))] is the exact floor division. *)
Definition update_group (size min_elements rank : Z) (dims : list dim) : res (list dim) :=
  if negb (existsb d_dist dims) then Ok dims                                    (* 314-315 *)
  else
    match choose_distributed dims with
    | None => Err ValueError
    | Some dd =>
      let n := dim_len dd in
      let the_size := if n <? size then n else size in                          (* 333-335 *)
      let min_size := n / min_elements in                                       (* 337 *)
      let the_size := if (size >? 1) && (min_size <? the_size) then min_size else the_size in
      let dd1 := set_bounds_global dd (0, n) in                                 (* 342 *)
      do b <- get_rank_bounds n the_size rank;                                  (* 344 *)
      do dd2 <- match b with
                | Some (start, stop) =>
                  do src <- slice_source_index (SSlice (slice_of start stop)) (d_src dd1);
                  do d <- set_size dd1 (Some (stop - start)) (srcarg_of src);
                  Ok (set_bounds_local d (start, stop))
                | None => convert_to_empty dd1
                end;
      Ok (map (fun d => if String.eqb (d_name d) (d_name dd) then dd2 else undistribute d) dims)   (* 328-330 *)
    end.

(** vmachine/mpi.py:131-190 the object: for each rank its groups, each an ordered
    list of dimensions. *)
Record ocgdist := mkdist { od_size : Z; od_groups : list (list (list dim)); od_updated : bool }.

(** vmachine/mpi.py:294-354 [update_dimension_bounds] with [rank='all']. *)
Definition update_dimension_bounds (od : ocgdist) (min_elements : Z) : res ocgdist :=
  if od_updated od then Err ValueError
  else if min_elements <? 1 then Err ValueError
  else
    do gs <- map_res (fun p : Z * list (list dim) =>
                        map_res (update_group (od_size od) min_elements (fst p)) (snd p))
               (combine (zrange 0 (od_size od)) (od_groups od));
    Ok (mkdist (od_size od) gs true).

(** driver/nc.py:516-525 [create_slices_for_dimension]: a one dimensional
    distribution over [splits] ranks, default [min_elements = 2]. *)
Definition create_slices_for_dimension (size splits : Z) : res (list (Z * Z)) :=
  do d <- dim_init "foo" (Some size) None SrcNone true false;
  do od <- update_dimension_bounds
             (mkdist splits (map (fun _ => [[d]]) (zrange 0 splits)) false) 2;
  map_res (fun gs => match gs with [[d]] => Ok (bounds_local d) | _ => Err DimensionNotFound end)
    (od_groups od).

(** driver/nc.py:456-473 [_gc_iter_dst_grid_slices_]: the slices of both
    dimensions, their product in row-major order, optionally one of them. *)
Definition iter_dst_grid_slices (ny nx sy sx : Z) (yield_idx : option Z) : res (list ((Z * Z) * (Z * Z))) :=
  do ys <- create_slices_for_dimension ny sy;
  do xs <- create_slices_for_dimension nx sx;
  let cells := list_prod ys xs in
  match yield_idx with
  | None => Ok cells
  | Some k => Ok (map snd (filter (fun p => fst p =? k) (combine (zrange 0 (zlen cells)) cells)))
  end.

(** A variable with one dimension that may be distributed; an element of
    [v_vals] is the value at one index of it (for more dimensions: the block of
    values at that index). *)
Record var (A : Type) := mkvar { v_dim : dim; v_vals : list A; v_mask : option (list bool) }.
Arguments mkvar {A}. Arguments v_dim {A}. Arguments v_vals {A}. Arguments v_mask {A}.

(** vmachine/mpi.py:826-915 [variable_scatter] on the root; [dims] is the
    destination distribution's dimension on each rank.  The variable received
    gets the rank's destination dimension (911). *)
Definition variable_scatter {A} (v : var A) (dims : list dim) : res (list (var A)) :=
  if d_dist (v_dim v) then Err ValueError
  else
    match dims with
    | [d] => Ok [mkvar d (v_vals v) (v_mask v)]
    | _ => Ok (map (fun d =>
             if d_empty d then mkvar d [] None
             else let s := slice_of (fst (bounds_local d)) (snd (bounds_local d)) in
                  mkvar d (py_slice (v_vals v) s) (option_map (fun m => py_slice m s) (v_mask v))) dims)
    end.

(** NumPy [target[lo:hi] = src] for 0 <= lo <= hi: the lengths must agree, or
    [src] has one element. *)
Definition slice_assign {A} (target : list A) (lo hi : Z) (src : list A) : res (list A) :=
  let n := zlen target in
  let a := Z.min lo n in let b := Z.min hi n in
  let src' := match src with [x] => repeat x (Z.to_nat (b - a)) | _ => src end in
  if zlen src' =? b - a then Ok (firstn (Z.to_nat a) target ++ src' ++ skipn (Z.to_nat b) target)
  else Err ValueError.

(** variable/base.py:339-370 [__setitem__] with the slice lo:hi.  [None] among
    the values stands for allocated but unset memory. *)
Definition var_setitem {A} (st : list (option A) * option (list bool)) (gv : var A)
  : res (list (option A) * option (list bool)) :=
  let '(vals, mask) := st in
  let '(lo, hi) := bounds_local (v_dim gv) in
  do vals' <- slice_assign vals lo hi (map Some (v_vals gv));
  match v_mask gv with
  | None => Ok (vals', mask)
  | Some m =>
    let cur := match mask with Some c => c | None => repeat false (List.length vals) end in
    do mask' <- slice_assign cur lo hi m;
    Ok (vals', Some mask')
  end.

(** vmachine/mpi.py:776-803: size and source index of the gathered dimension. *)
Definition gather_src (parts : list dim) (new_size : Z) : res (option srcidx) :=
  match rev parts with
  | [] => Ok None
  | lastp :: _ =>
    match d_src lastp with
    | None => Ok None
    | Some (SrcFancy _) =>
      do r <- fold_res (fun acc p =>
                match d_src p with
                | Some (SrcFancy l) => slice_assign acc (fst (bounds_local p)) (snd (bounds_local p)) l
                | Some (SrcBounds a b) => slice_assign acc (fst (bounds_local p)) (snd (bounds_local p)) [a; b]
                | None => Err TypeError
                end) parts (repeat 0 (Z.to_nat new_size));
      Ok (Some (SrcFancy r))
    | Some (SrcBounds _ _) =>
      do bs <- map_res (fun p => match d_src p with
                                 | Some (SrcBounds a b) => Ok [a; b]
                                 | _ => Err TypeError
                                 end) parts;
      do lo <- list_min (concat bs);
      do hi <- list_max (concat bs);
      Ok (Some (SrcBounds lo hi))
    end
  end.

(** vmachine/mpi.py:756-823 [variable_gather] run by the ranks of the current
    communicator; an empty variable on any of them raises. *)
Definition variable_gather {A} (parts : list (var A)) : res (var (option A)) :=
  if existsb (fun p => d_empty (v_dim p)) parts then Err ValueError
  else
    match parts with
    | [] => Err ValueError
    | [p] => Ok (mkvar (undistribute (v_dim p)) (map Some (v_vals p)) (v_mask p))
    | p0 :: _ =>
      let dims := map v_dim parts in
      let new_size := zsum (map dim_len dims) in
      do src <- gather_src dims new_size;
      do nd <- set_size (v_dim p0) (Some new_size) (srcarg_of src);
      do st <- fold_res var_setitem parts (repeat None (Z.to_nat new_size), None);
      Ok (mkvar (undistribute nd) (fst st) (snd st))
    end.

(** util/helpers.py:1036-1112 [create_unique_global_array].  [np.unique] sorts
    and removes repetitions. *)
Fixpoint insert_unique (x : Z) (l : list Z) : list Z :=
  match l with
  | [] => [x]
  | y :: t => if x <? y then x :: l else if x =? y then l else y :: insert_unique x t
  end.
Definition np_unique (l : list Z) : list Z := fold_right insert_unique [] l.

(** 1066-1079: does the rank with bounds [lb1] care about the one with [lb2]? *)
Definition overlaps (lb1 lb2 : Z * Z) : bool :=
  let inside x := (fst lb2 <=? x) && (x <=? snd lb2) in
  inside (fst lb1) || inside (snd lb1) || ((fst lb1 <=? fst lb2) && (snd lb1 >=? snd lb2)).

Definition zmem (x : Z) (l : list Z) : bool := existsb (Z.eqb x) l.

(** 1089-1097: what rank [i] sends to rank [o], if anything; only to overlapping
    higher ranks. *)
Definition sent (uniques : list (list Z)) (bounds : list (Z * Z)) (i o : nat) : option (list Z) :=
  match nth_error uniques i, nth_error bounds i, nth_error bounds o with
  | Some u, Some bi, Some bo =>
    if (Nat.ltb i o) && overlaps bi bo
    then Some (filter (fun x => (fst bo <=? x) && (x <=? snd bo)) u)
    else None
  | _, _, _ => None
  end.

(** 1100-1117: rank [r] receives from the lower ranks it overlaps with, in
    order, and drops the values received; a message nobody sends is waited for
    forever. *)
Definition receive_from (uniques : list (list Z)) (bounds : list (Z * Z)) (r : nat) (br : Z * Z)
  (acc : list Z) (o : nat) : res (list Z) :=
  match nth_error bounds o with
  | None => Ok acc
  | Some bo =>
    if overlaps br bo then
      match sent uniques bounds o r with
      | Some u => Ok (filter (fun x => negb (zmem x u)) acc)
      | None => Err Deadlock
      end
    else Ok acc
  end.

Definition create_unique_global_array (arrs : list (list Z)) : res (list (list Z)) :=
  let uniques := map np_unique arrs in
  do bounds <- map_res (fun u => do a <- list_min u; do b <- list_max u; Ok (a, b)) uniques;   (* 1057 *)
  map_res (fun r =>
    match nth_error uniques r, nth_error bounds r with
    | Some u, Some br => fold_res (receive_from uniques bounds r br) (seq 0 r) u
    | _, _ => Err IndexError
    end) (seq 0 (List.length arrs)).
