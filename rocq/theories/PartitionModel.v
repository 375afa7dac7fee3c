(** Model of the element and slice decompositions in src/ocgis/vmachine/mpi.py. *)
From Verif Require Import Py.

(** vmachine/mpi.py:456-524 [get_rank_bounds].  The Python function calls
    itself (without [esplit] at 486, with it at 494); [fuel] bounds that
    recursion.  [np.ceil(float(n)/float(size))] at 501 is taken as the exact
    ceiling.  [divmod] by zero raises. *)
Fixpoint get_rank_bounds_fuel (fuel : nat) (nelements size rank : Z) (esplit : option Z)
  : res (option (Z * Z)) :=
  match fuel with
  | O => Err OutOfFuel
  | S fuel' =>
    if nelements =? 0 then Ok None                               (* 470-471 *)
    else if rank >=? size then Ok None                           (* 476-477 *)
    else
      match (nelements >? size), esplit with
      | true, None =>                                            (* 480: nelements > size and esplit is None *)
        if size =? 0 then Err ZeroDivisionError else
        let esplit' := nelements / size in                       (* 483 *)
        let remainder := nelements mod size in
        if remainder >? 0 then
          do r <- get_rank_bounds_fuel fuel' (nelements - remainder) size rank None;   (* 486 *)
          match r with
          | None => Err TypeError
          | Some (a, b) =>
            if rank + 1 <=? remainder then Ok (Some (a + rank, b + rank + 1))          (* 489 *)
            else Ok (Some (a + remainder, b + remainder))                              (* 491 *)
          end
        else if remainder =? 0 then
          get_rank_bounds_fuel fuel' nelements size rank (Some esplit')                (* 494 *)
        else Err NotImplementedError
      | _, _ =>                                                  (* 498: the other branch *)
        do e <- match esplit with
                | None =>
                  if nelements <? size then
                    if size =? 0 then Err ZeroDivisionError
                    else Ok (- ((- nelements) / size))           (* 501: ceil *)
                  else if nelements =? size then Ok 1
                  else Err NotImplementedError
                | Some e => Ok e
                end;
        let lbound := if rank =? 0 then 0 else rank * e in       (* 509-512 *)
        let ubound := lbound + e in
        let ubound := if ubound >=? nelements then nelements else ubound in            (* 515-516 *)
        if lbound >=? ubound then Ok None else Ok (Some (lbound, ubound))              (* 518-522 *)
      end
  end.

Definition get_rank_bounds (nelements size rank : Z) : res (option (Z * Z)) :=
  get_rank_bounds_fuel 3 nelements size rank None.

(** [numpy.array_split(a, size)]: [divmod(len, size)], the first [extras]
    sections get one more element; a non-positive section count raises. *)
Fixpoint cut_sections {A} (sizes : list Z) (l : list A) : list (list A) :=
  match sizes with
  | [] => []
  | s :: t => firstn (Z.to_nat s) l :: cut_sections t (skipn (Z.to_nat s) l)
  end.

Definition array_split {A} (l : list A) (size : Z) : res (list (list A)) :=
  if size <=? 0 then Err ValueError
  else
    let each := zlen l / size in
    let extras := zlen l mod size in
    Ok (cut_sections (repeat (each + 1) (Z.to_nat extras) ++ repeat each (Z.to_nat (size - extras))) l).

(** [arr.min()] / [arr.max()]: raise on an empty array. *)
Definition list_min (l : list Z) : res Z :=
  match l with [] => Err ValueError | x :: t => Ok (fold_left Z.min t x) end.
Definition list_max (l : list Z) : res Z :=
  match l with [] => Err ValueError | x :: t => Ok (fold_left Z.max t x) end.

(** util/helpers.py:624-633 [get_optimal_slice_from_array] with
    [check_diff=False] on an integer array. *)
Definition get_optimal_slice_nocheck (arr : list Z) : res pyslice :=
  do a <- list_min arr; do b <- list_max arr; Ok (slice_of a (b + 1)).

(** vmachine/mpi.py:395-400 [create_slices].  [numpy.arange] of a negative
    length is empty, as [zrange]. *)
Definition create_slices (length size : Z) : res (list pyslice) :=
  let r := zrange 0 length in
  do sections <- array_split r size;
  map_res get_optimal_slice_nocheck sections.

(** [itertools.product] of several lists: the last list varies fastest. *)
Fixpoint list_product {A} (ls : list (list A)) : list (list A) :=
  match ls with
  | [] => [[]]
  | l :: t => flat_map (fun x => map (cons x) (list_product t)) l
  end.

(** vmachine/mpi.py:564-569 [create_nd_slices].  A missing split leaves [None]
    in the list, on which [itertools.product] raises TypeError. *)
Fixpoint nd_slice_lists (splits shape : list Z) : res (list (list pyslice)) :=
  match shape, splits with
  | [], _ => Ok []
  | _ :: _, [] => Err TypeError
  | shp :: shape', split :: splits' =>
    do s <- create_slices shp split; do r <- nd_slice_lists splits' shape'; Ok (s :: r)
  end.

Definition create_nd_slices (splits shape : list Z) : res (list (list pyslice)) :=
  do ls <- nd_slice_lists splits shape; Ok (list_product ls).

(** vmachine/mpi.py:411-445 [get_global_to_local_slice].  [None] starts and
    stops raise. *)
Definition get_global_to_local_slice (start stop : option Z) (bounds_local : Z * Z)
  : res (option (Z * Z)) :=
  match start, stop with
  | Some start, Some stop =>
    let '(lower, upper) := bounds_local in
    let new_start :=
      if start >=? upper then None
      else Some (if start <? lower then lower else start) in                 (* 427-432 *)
    let new_stop :=
      if stop <=? lower then None
      else if upper <? stop then Some upper else Some stop in                (* 434-439 *)
    match new_start, new_stop with
    | Some a, Some b => Ok (Some (a - lower, b - lower))                     (* 444 *)
    | _, _ => Ok None
    end
  | _, _ => Err ValueError
  end.

(** vmachine/mpi.py:550-561 [hgather]: fill loop over the gathered parts.  The
    zero-initialised buffer of length [n] is modelled as a list of [option],
    [None] standing for a cell never written. *)
Definition write_at {A} (buf : list (option A)) (start : Z) (e : list A) : list (option A) :=
  firstn (Z.to_nat start) buf ++ map Some e
    ++ skipn (Z.to_nat start + List.length e) buf.

Fixpoint hgather_loop {A} (elements : list (list A)) (start : Z) (fill : list (option A))
  : list (option A) :=
  match elements with
  | [] => fill
  | e :: t =>
    if zlen e =? 0 then hgather_loop t start fill                            (* 556-557 *)
    else hgather_loop t (start + zlen e) (write_at fill start e)             (* 558-560 *)
  end.

(** [elements[0].dtype] raises IndexError on an empty sequence (552). *)
Definition hgather {A} (elements : list (list A)) : res (list (option A)) :=
  match elements with
  | [] => Err IndexError
  | _ => let n := zsum (map zlen elements) in
         Ok (hgather_loop elements 0 (repeat None (Z.to_nat n)))
  end.

(** vmachine/mpi.py:403-408 [dgather]: later ranks overwrite earlier ones. *)
Definition dgather {K V} (eqk : K -> K -> bool) (elements : list (list (K * V)))
  : res (list (K * V)) :=
  match elements with
  | [] => Err IndexError
  | d :: t => Ok (fold_left (fun grow e => fold_left (fun g kv => dset eqk g (fst kv) (snd kv)) e grow) t d)
  end.
