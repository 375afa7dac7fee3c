(** Model of the redistribution of variables by source index, of the splits of an index
    space and of the scatter of collections (src/ocgis/vmachine/mpi.py), and of the
    distributed slice of a variable (src/ocgis/variable/base.py). *)
From Verif Require Import Py PartitionModel DimensionModel DistModel NdModel SliceModel.
Local Open Scope Z_scope.

(** ** Redistribution by source index *)

(** A variable of the collection on one rank: whether it has the dimension that is
    redistributed, its data in the source file ([None] for a variable that is not from
    a file), its value in memory, its mask, whether it was loaded, [_is_empty] and the
    value new memory is filled with.  An element of the data is what is found at one
    index of the first dimension of the variable. *)
Record rvar (A : Type) := mkrvar {
  rv_has : bool; rv_source : option (list A); rv_value : option (list A); rv_mask : option (list bool);
  rv_loaded : bool; rv_empty : option bool; rv_fill : A; rv_length : Z }.
Arguments mkrvar {A}. Arguments rv_has {A}. Arguments rv_source {A}. Arguments rv_value {A}. Arguments rv_mask {A}.
Arguments rv_loaded {A}. Arguments rv_empty {A}. Arguments rv_fill {A}. Arguments rv_length {A}.

(** A collection on one rank: the dimension in question and the variables. *)
Record rrank (A : Type) := mkrrank { rr_dim : dim; rr_vars : list (rvar A) }.
Arguments mkrrank {A}. Arguments rr_dim {A}. Arguments rr_vars {A}.

(** variable/base.py:591-606 [is_empty]; the other dimensions are not distributed and
    not empty. *)
Definition is_empty {A} (d : dim) (v : rvar A) : bool :=
  match rv_empty v with
  | Some e => e
  | None => rv_has v && d_dist d && d_empty d
  end.

(** driver/nc.py:659-686 [get_variable_value]: the part of the data of the file that a
    dimension stands for.  The index of the file goes through [get_formatted_slice]. *)
Definition take {A} (data : list A) (s : slc) : res (list A) :=
  match s with
  | SSlice s => Ok (py_slice data s)
  | SInts l => map_res (py_index data) l
  | SBools m => Err NotImplementedError
  end.
Definition read_source {A} (d : dim) (data : list A) : res (list A) :=
  do s <- format_singleton match d_src d with
                           | None => RSlice (slice_of (fst (bounds_local d)) (snd (bounds_local d)))   (* 665-669 *)
                           | Some (SrcFancy l) => RInts l                       (* 670-671 *)
                           | Some (SrcBounds a b) => RSlice (slice_of a b)      (* 672-673 *)
                           end;
  take data s.

(** variable/base.py:719-759 and 1689-1698 [get_value]: what is in memory, what is read
    from the source if it was not loaded before, or new memory.  [rv_length] is the
    length of a variable without the dimension. *)
Definition new_memory {A} (d : dim) (v : rvar A) : list A :=
  repeat (rv_fill v) (Z.to_nat (if rv_has v then dim_len d else rv_length v)).
Definition get_value {A} (d : dim) (v : rvar A) : res (option (list A)) :=
  if is_empty d v then Ok None
  else match rv_value v with
  | Some x => Ok (Some x)
  | None =>
    match rv_source v with
    | Some data =>
      if rv_loaded v then Ok (Some (new_memory d v))
      else if rv_has v then do x <- read_source d data; Ok (Some x)
      else Ok (Some data)
    | None => Ok (Some (new_memory d v))
    end
  end.

(** vmachine/mpi.py:666-670 [_reset_variable_]. *)
Definition reset {A} (v : rvar A) : rvar A :=
  mkrvar (rv_has v) (rv_source v) None None false None (rv_fill v) (rv_length v).
(** variable/base.py:919-930 and 1901-1906 [convert_to_empty]. *)
Definition emptied {A} (v : rvar A) : rvar A :=
  mkrvar (rv_has v) (rv_source v) None None (rv_loaded v) (Some true) (rv_fill v) (rv_length v).
(** vmachine/mpi.py:710-713. *)
Definition forget_empty {A} (v : rvar A) : rvar A :=
  mkrvar (rv_has v) (rv_source v) (rv_value v) (rv_mask v) (rv_loaded v) None (rv_fill v) (rv_length v).

(** The elements a source index stands for; variable/dimension.py:495-502. *)
Definition source_elements (s : srcidx) : list Z :=
  match s with SrcBounds a b => zrange a b | SrcFancy l => l end.

(** vmachine/mpi.py:675-686: the source indices of all ranks, one after the other.  A
    rank without elements passes no dimension; [hgather] needs at least one. *)
Definition global_source (passed : list (option dim)) : res (list Z) :=
  let dims := flat_map (fun o => match o with Some d => [d] | None => [] end) passed in    (* 677 *)
  do parts <- map_res (fun d => match d_src d with
                                | None => Err AttributeError                   (* 684: None has no shape *)
                                | Some s => Ok (source_elements s)             (* 680-682 *)
                                end) dims;
  match parts with
  | [] => Err IndexError
  | _ => Ok (concat parts)
  end.

(** vmachine/mpi.py:693-697: the new distribution of the dimension over [size] ranks. *)
Definition new_distribution (name : string) (n size : Z) : res (list dim) :=
  do d <- dim_init name (Some n) None SrcNone true false;
  do od <- update_dimension_bounds (mkdist size (map (fun _ => [[d]]) (zrange 0 size)) false) 2;
  map_res (fun gs => match gs with [[d]] => Ok d | _ => Err DimensionNotFound end) (od_groups od).

(** vmachine/mpi.py:700-723 on one rank, which got the new dimension [nd] with the part
    [src] of the source indices. *)
Definition rank_after {A} (r : rrank A) (nd : dim) (src : list Z) : res (rrank A) :=
  if d_empty nd then
    let vars := map (fun v => forget_empty (emptied v)) (rr_vars r) in          (* 704, 710-713 *)
    Ok (mkrrank (rr_dim r) (if existsb rv_has vars then map emptied vars else vars))   (* 716-719 *)
  else
    do nd <- set_src_idx nd (Some (SrcFancy src));                              (* 707 *)
    Ok (mkrrank nd (map (fun v => if rv_has v then reset v else forget_empty v) (rr_vars r))).   (* 706, 709-721 *)

(** vmachine/mpi.py:635-723 [redistribute_by_src_idx] run by all ranks; [passed] is the
    dimension given on each rank and [target] the number of the variable given, which
    has the dimension. *)
Definition redistribute {A} (name : string) (target : nat) (passed : list (option dim)) (ranks : list (rrank A))
  : res (list (rrank A)) :=
  match ranks with
  | [r] => Ok ranks                                                             (* 658-659 *)
  | _ =>
    if forallb (fun r => match nth_error (rr_vars r) target with Some v => is_empty (rr_dim r) v | None => true end) ranks
    then Err ValueError                                                         (* 662-664 *)
    else
      do src <- global_source passed;
      do dims <- new_distribution name (zlen src) (zlen ranks);
      do whole <- dim_init name (Some (zlen src)) None SrcNone false false;     (* 685 *)
      do parts <- variable_scatter (mkvar whole src None) dims;                 (* 700 *)
      map_res (fun rp => rank_after (fst rp) (v_dim (snd rp)) (v_vals (snd rp))) (combine ranks parts)
  end.

(** ** Splits of an index space *)

(** The greatest number whose k-th power is at most n. *)
Fixpoint iroot_from (fuel : nat) (n k : Z) : Z :=
  match fuel with
  | O => 0
  | S f => if Z.of_nat fuel ^ k <=? n then Z.of_nat fuel else iroot_from f n k
  end.

(** vmachine/mpi.py:603-620 [get_optimal_splits]; [np.power] is taken as exact. *)
Definition get_optimal_splits (size : Z) (shape : list Z) : res (list Z) :=
  match shape with
  | [] => Err TypeError                                                         (* 604 *)
  | s0 :: rest =>
    if size >=? zprodl shape then Ok shape                                       (* 605-606 *)
    else if size <=? s0 then Ok (size :: repeat 1 (List.length rest))           (* 608-610 *)
    else let even := iroot_from (Z.to_nat size) size (zlen shape) in            (* 612 *)
         Ok (map (fun s => if even >? s then s else even) shape)                (* 614-619 *)
  end.

(** ** Scatter of a collection *)

(** A collection: its name, the variables (name, whether distributed) and its groups. *)
Inductive vcoll := mkvcoll (name : string) (vars : list (string * bool)) (children : list vcoll).
Definition vc_vars (c : vcoll) := let 'mkvcoll _ v _ := c in v.
Definition vc_children (c : vcoll) := let 'mkvcoll _ _ ch := c in ch.

(** vmachine/mpi.py:726-753 [variable_collection_scatter]: which variables and groups
    the collection on every rank has.  [first] of a collection without variables raises
    [StopIteration], here [IndexError].  The scattered child is indexed with 0, which is
    not the name of a variable. *)
Fixpoint collection_scatter (c : vcoll) : res vcoll :=
  let 'mkvcoll name vars children := c in
  if existsb snd vars then Err ValueError                                       (* 730-733 *)
  else match vars with
  | [] => Err IndexError                                                        (* 734 *)
  | _ =>
    let fix each (l : list vcoll) : res (list vcoll) :=
      match l with
      | [] => Ok []
      | x :: t => do s <- collection_scatter x;
                  do y <- Err (A := vcoll) KeyError;                            (* 750: [0] *)
                  do ys <- each t; Ok (y :: ys)
      end in
    do ch <- each children;
    Ok (mkvcoll name vars ch)
  end.

(** ** Distributed slice of a variable *)

(** A variable on one rank: its dimensions and its value in memory. *)
Record dvar (A : Type) := mkdvar { dv_dims : list dim; dv_value : nd A }.
Arguments mkdvar {A}. Arguments dv_dims {A}. Arguments dv_value {A}.

(** variable/base.py:1263-1281, one axis: the part of the slice on this rank, or [None]
    if a boolean slice selects nothing.  Unpacking the missing part of a slice that
    does not overlap raises (1269-1271). *)
Definition local_axis (d : dim) (s : slc) : res (option slc) :=
  match s with
  | SSlice sl =>
    if pyslice_eqb sl slice_none then Ok (Some (SSlice slice_none))             (* 1263, 1268 *)
    else do loc <- get_global_to_local_slice (sl_start sl) (sl_stop sl) (bounds_local d);   (* 1269-1270 *)
         match loc with
         | None => Err TypeError
         | Some (a, b) => Ok (Some (SSlice (slice_of a b)))                     (* 1271 *)
         end
  | SBools m => match where_true m 0 with [] => Ok None | f => Ok (Some (SInts f)) end   (* 1274-1282 *)
  | SInts l => Ok (Some (SInts l))                                              (* 1283-1284 *)
  end.

(** variable/base.py:1285-1286 with 53-67: the value and the dimensions of the variable
    are sliced; the dimensions are then replaced.  Other variables of the collection are
    left out. *)
Definition slice_here {A} (v : dvar A) (local : list slc) (news : list dim) : res (dvar A) :=
  do local <- map_res (fun s => format_singleton (slc_raw s)) local;
  do _ <- map_res (fun p => dim_getitem (fst p) (slc_raw (snd p))) (combine (dv_dims v) local);
  do value <- np_getitem (dv_value v) local;
  Ok (mkdvar news value).

(** variable/base.py:1254-1286 on one rank, with the new dimensions. *)
Definition distributed_here {A} (v : dvar A) (ss : list slc) (news : list dim) : res (option (dvar A)) :=
  if existsb d_empty news then Ok None                                          (* 1256-1260 *)
  else
    do local <- map_res (fun p => local_axis (fst p) (snd p)) (combine (dv_dims v) ss);
    match map_res (fun o => match o with None => Err EmptyObjectError | Some s => Ok s end) local with
    | Err _ => Ok None                                                          (* 1277-1281 *)
    | Ok local => do w <- slice_here v local news; Ok (Some w)
    end.

(** variable/base.py:1239-1288 [get_distributed_slice] of a variable with two or more
    dimensions, run by all ranks with the same slices; [None] is an empty variable. *)
Definition no_dim : dim := mkdim "" None None None false true None None.
Definition variable_slice {A} (ranks : list (dvar A)) (raws : list rawslc) : res (list (option (dvar A))) :=
  if existsb (fun v => existsb d_empty (dv_dims v)) ranks then Err EmptyObjectError   (* 1247 *)
  else
    do ss <- map_res format_singleton raws;                                     (* 1249 *)
    do columns <- map_res (fun p => get_distributed_slice (map (fun v => (nth (fst p) (dv_dims v) no_dim, slc_raw (snd p))) ranks))
                    (combine (seq 0 (List.length ss)) ss);                      (* 1252-1253 *)
    map_res (fun p => distributed_here (snd p) ss (map (fun col => nth (fst p) col no_dim) columns))
      (combine (seq 0 (List.length ranks)) ranks).
