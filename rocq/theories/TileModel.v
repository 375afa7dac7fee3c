(** Model of regridding by chunks (spatial/grid_chunker.py): the buffer around a chunk of
    the destination, the part of the source that is cut out for it, the masks of that part,
    and the sequence of chunks that is written to files and put together again.

    Both grids are rectilinear with one-dimensional coordinates, in the same coordinate
    system and wrapping, on one process, and the box subset is the optimized one (the
    default for such grids, grid_chunker.py:249-266).  The regridding itself (ESMF) is a
    parameter: it gives the value of a destination cell from the list of source points with
    their values.  Coordinates are rationals. *)
From Verif Require Import Py PartitionModel NdModel DistModel ChunkModel CoordModel GeomModel.
From Coq Require Import QArith Qabs.
Local Open Scope nat_scope.

(** A grid: the centres along both axes, their bounds if there are any, and the mask. *)
Record tgrid := mktgrid {
  tg_ys : list Q; tg_xs : list Q;
  tg_bounds : option (list (Q * Q) * list (Q * Q));
  tg_mask : option (list (list bool)) }.

(** driver/nc.py:353-371 [array_resolution] for one dimension with at least one element;
    spatial/base.py:482-499. *)
Definition axis_resolution (value : list Q) : Q :=
  match value with
  | [_] => 0%Q                                                                 (* 356-357 *)
  | _ => np_mean (map Qabs (np_diff (map Qabs (firstn 100 value))))            (* 359-362, 370 *)
  end.
(** spatial/base.py:473-480 [resolution_max]. *)
Definition resolution_max (g : tgrid) : Q :=
  let x := axis_resolution (tg_xs g) in
  let y := axis_resolution (tg_ys g) in
  if qlt x y then y else x.

(** spatial/grid_chunker.py:179-212 [buffer_value]; constants.py
    BUFFER_RESOLUTION_MODIFIER.  The branch for unstructured grids is left out. *)
Definition buffer_value (given src_resolution dst_resolution : option Q) (src dst : tgrid) : Q :=
  match given with
  | Some b => b                                                                (* 210-211 *)
  | None =>
    let d := match dst_resolution with Some r => r | None => resolution_max dst end in   (* 191-194 *)
    let s := match src_resolution with Some r => r | None => resolution_max src end in   (* 195-198 *)
    (2 * (if qle d s then d else s))%Q                                         (* 200-204 *)
  end.

(** [grid[y0:y1, x0:x1]] (spatial/grid.py:240-268). *)
Definition slice_mask (ys xs : nat * nat) (m : list (list bool)) : list (list bool) :=
  map (slice_list xs) (slice_list ys m).
Definition slice_tgrid (ys xs : nat * nat) (g : tgrid) : tgrid :=
  mktgrid (slice_list ys (tg_ys g)) (slice_list xs (tg_xs g))
          (match tg_bounds g with Some (yb, xb) => Some (slice_list ys yb, slice_list xs xb) | None => None end)
          (match tg_mask g with Some m => Some (slice_mask ys xs m) | None => None end).

(** spatial/grid.py:854-878 [_get_extent_] with the polygon abstraction if there are bounds
    (grid_chunker.py:589-592); base.py:728-747 with one process. *)
Definition corner_values (centres : list Q) (bounds : option (list (Q * Q))) : list Q :=
  match bounds with Some b => flat_map (fun p => [fst p; snd p]) b | None => centres end.
Definition grid_extent (g : tgrid) : res (Q * Q * Q * Q) :=
  extent_of (corner_values (tg_xs g) (option_map snd (tg_bounds g)))
            (corner_values (tg_ys g) (option_map fst (tg_bounds g))).

(** grid_chunker.py:597-600: the envelope of the buffered box. *)
Definition expand (b : Q) (e : Q * Q * Q * Q) : Q * Q * Q * Q :=
  let '(minx, miny, maxx, maxy) := e in ((minx - b)%Q, (miny - b)%Q, (maxx + b)%Q, (maxy + b)%Q).

Definition any2 (m : list (list bool)) : bool := existsb (existsb (fun b => b)) m.
Definition all2 (m : list (list bool)) : bool := forallb (forallb (fun b => b)) m.

(** spatial/grid.py:555-675 [get_spatial_subset_operation], the optimized path for one box:
    the source and the slices.  A hint that masks anything replaces the mask of the grid
    (664-666); a mask without masked elements is removed if the grid had none (668-670). *)
Definition box_subset (src : tgrid) (box : Q * Q * Q * Q) : res (tgrid * ((nat * nat) * (nat * nat))) :=
  let '(minx, miny, maxx, maxy) := box in
  do hint <- hint_mask_vectorized (tg_xs src) (tg_ys src) minx miny maxx maxy true false;   (* 638-650 *)
  let masked := if any2 hint then mktgrid (tg_ys src) (tg_xs src) (tg_bounds src) (Some hint) else src in
  do s <- global_slice [([0; 0], Some (A2 (length (tg_xs src)) hint))];        (* 667 *)
  match s with
  | [ys; xs] =>
    let sub := slice_tgrid ys xs masked in
    let m := match tg_mask src, tg_mask sub with
             | None, Some m => if any2 m then Some m else None
             | _, m => m
             end in
    Ok (mktgrid (tg_ys sub) (tg_xs sub) (tg_bounds sub) m, (ys, xs))
  | _ => Err AssertionError
  end.

(** grid_chunker.py:503-689 [iter_src_grid_subsets] for one chunk of the destination; with
    [allow_masked=False] masked elements of the source part raise (652-655); a destination
    part that is masked everywhere raises (560-575). *)
Definition nat_pair (p : Z * Z) : nat * nat := (Z.to_nat (fst p), Z.to_nat (snd p)).
Definition src_subset (buffer : Q) (allow_masked : bool) (src dst : tgrid) (cell : (Z * Z) * (Z * Z))
    : res (tgrid * ((nat * nat) * (nat * nat))) :=
  let sub := slice_tgrid (nat_pair (fst cell)) (nat_pair (snd cell)) dst in   (* 496-498 *)
  if match tg_mask sub with Some m => all2 m && any2 m | None => false end then Err ValueError
  else
    do e <- grid_extent sub;
    do r <- box_subset src (expand buffer e);
    if negb allow_masked && match tg_mask (fst r) with Some m => any2 m | None => false end then Err ValueError
    else Ok r.

(** The source points of a (part of a) grid that are not masked, with the values of a field
    on it, in row-major order. *)
Definition masked_at (m : option (list (list bool))) (j i : nat) : bool :=
  match m with Some rows => nth i (nth j rows []) false | None => false end.
Definition points {V} (g : tgrid) (value : nat -> nat -> V) : list (Q * Q * V) :=
  map (fun ji => (nth (fst ji) (tg_ys g) 0%Q, nth (snd ji) (tg_xs g) 0%Q, value (fst ji) (snd ji)))
      (filter (fun ji => negb (masked_at (tg_mask g) (fst ji) (snd ji)))
              (list_prod (seq 0 (length (tg_ys g))) (seq 0 (length (tg_xs g))))).
(** The cell of a grid: its ends along y and x, or its centre. *)
Definition dst_cell (g : tgrid) (j i : nat) : (Q * Q) * (Q * Q) :=
  match tg_bounds g with
  | Some (yb, xb) => (nth j yb (0, 0)%Q, nth i xb (0, 0)%Q)
  | None => let y := nth j (tg_ys g) 0%Q in let x := nth i (tg_xs g) 0%Q in ((y, y), (x, x))
  end.

(** The regridding of one grid to the whole of another (regrid/base.py, ESMF). *)
Definition regrid_whole {V W} (regrid : list (Q * Q * V) -> (Q * Q) * (Q * Q) -> W) (src dst : tgrid) (value : nat -> nat -> V) : block W :=
  mkblock (zlen (tg_ys dst)) (zlen (tg_xs dst)) (fun y x => regrid (points src value) (dst_cell dst (Z.to_nat y) (Z.to_nat x))).

(** grid_chunker.py:697-820 [write_chunks], [smm] for every chunk and 394-459
    [insert_weighted]: the first chunk that raises ends everything.  The source part of a
    chunk is read from its file with the values at the source slices (regrid/base.py:937-992
    [smm]) and regridded to the part of the destination. *)
Definition write_chunks (buffer : Q) (allow_masked : bool) (src dst : tgrid) (sy sx : Z)
    : res (list ((Z * Z) * (Z * Z)) * list (tgrid * ((nat * nat) * (nat * nat)))) :=
  if ((sy =? 1)%Z && (sx =? 1)%Z)%bool then Err ValueError                     (* 703-704 *)
  else
    do cells <- iter_dst_grid_slices (zlen (tg_ys dst)) (zlen (tg_xs dst)) sy sx None;
    do srcs <- map_res (src_subset buffer allow_masked src dst) cells;
    Ok (cells, srcs).
Definition regrid_by_chunks {V W} (regrid : list (Q * Q * V) -> (Q * Q) * (Q * Q) -> W) (buffer : Q) (allow_masked : bool)
    (src dst : tgrid) (value : nat -> nat -> V) (sy sx : Z) (master : block W) : res (block W) :=
  do w <- write_chunks buffer allow_masked src dst sy sx;
  let '(cells, srcs) := w in
  let parts := map (fun cs => let '(cell, (part, (ys, xs))) := cs in
    regrid_whole regrid part (slice_tgrid (nat_pair (fst cell)) (nat_pair (snd cell)) dst)
      (fun j i => value (fst ys + j) (fst xs + i))) (combine cells srcs) in
  insert_chunks master cells parts.
