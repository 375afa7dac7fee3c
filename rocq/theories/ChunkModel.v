(** Model of tiled computation (src/ocgis/util/large_array.py), of the regridding
    chunks written and merged by src/ocgis/spatial/grid_chunker.py, and of the
    spatial decomposition in src/ocgis/spatial/base.py 704-793. *)
From Verif Require Import Py PartitionModel NdModel AggModel.
From Coq Require Import QArith.

Open Scope Z_scope.

(** * Assigning blocks to a two-dimensional file variable *)

(** A block of values with its shape. *)
Record block (V : Type) := mkblock { b_rows : Z; b_cols : Z; b_at : Z -> Z -> V }.
Arguments mkblock {V}. Arguments b_rows {V}. Arguments b_cols {V}. Arguments b_at {V}.

(** [var[r0:r1, c0:c1] = block] on a variable with the shape of [a], for
    non-negative ends.  Broadcasting of blocks with a dimension of size one is not
    modelled: a block of another shape raises. *)
Definition assign {V} (a : block V) (row col : Z * Z) (b : block V) : res (block V) :=
  let r1 := Z.min (snd row) (b_rows a) in
  let c1 := Z.min (snd col) (b_cols a) in
  if (Z.max 0 (r1 - fst row) =? b_rows b) && (Z.max 0 (c1 - fst col) =? b_cols b)
  then Ok (mkblock (b_rows a) (b_cols a) (fun y x =>
    if (fst row <=? y) && (y <? r1) && (fst col <=? x) && (x <? c1) then b_at b (y - fst row) (x - fst col) else b_at a y x))
  else Err ValueError.

(** * large_array.compute *)

(** The callback on the operations: the user's, or one of the two wrappers made
    here (large_array.py:43-50 and 156-164). *)
Inductive callback := CbUser (id : Z) | CbZero (c : callback) | CbScaled (c : callback).

(** What the call leaves behind: the environment flag, the callback on the
    operations, the output variable and the boxes written to it in order. *)
Record outcome (V : Type) := mkout { o_flag : bool; o_callback : option callback; o_file : block V; o_writes : list ((Z * Z) * (Z * Z)) }.
Arguments mkout {V}. Arguments o_flag {V}. Arguments o_callback {V}. Arguments o_file {V}. Arguments o_writes {V}.

Section Compute.
  Context {V : Type}.

  (** The operations on one tile (large_array.py:182-188), for the rows and
      columns of the dataset: the block of one data variable, an element being
      the values of all its other dimensions.  Several data variables are written
      one after the other in the same way. *)
  Variable exec : Z * Z -> Z * Z -> res (block V).
  (** [hide v] is [v] with everything masked (large_array.py:197-202 and 228-250). *)
  Variable hide : V -> V.

  (** large_array.py:177-210: one tile. *)
  Definition do_tile (rank row_offset col_offset : Z) (mask : option (Z -> Z -> bool)) (file : block V) (tile : (Z * Z) * (Z * Z)) : res (block V) :=
    let row := (fst (fst tile) + row_offset, snd (fst tile) + row_offset) in
    let col := (fst (snd tile) + col_offset, snd (snd tile) + col_offset) in
    do b <- exec row col;
    let slice_row := (fst row - row_offset, snd row - row_offset) in
    let slice_col := (fst col - col_offset, snd col - col_offset) in
    let b := match mask with
             | None => b
             | Some m => mkblock (b_rows b) (b_cols b) (fun i j => if m (fst slice_row + i) (fst slice_col + j) then hide (b_at b i j) else b_at b i j)
             end in
    if (rank =? 3) || (rank =? 4) then assign file slice_row slice_col b else Err NotImplementedError.

  (** large_array.py:176-216: the loop over the tiles.  Exceptions raised by the
      user's callback are not modelled. *)
  Fixpoint do_tiles (rank row_offset col_offset : Z) (mask : option (Z -> Z -> bool)) (o : outcome V) (tiles : list ((Z * Z) * (Z * Z))) : outcome V * res unit :=
    match tiles with
    | [] => (o, Ok tt)
    | t :: ts =>
      match do_tile rank row_offset col_offset mask (o_file o) t with
      | Err e => (o, Err e)
      | Ok f => do_tiles rank row_offset col_offset mask (mkout (o_flag o) (o_callback o) f (o_writes o ++ [t])) ts
      end
    end.

  (** large_array.py:15-225 [compute].  [checks] is the result of the assertions
      on the calculations (56-67).  [template] is the output file written
      first (or the exception raised there), [subset] the row and column offsets
      and the spatial mask when a geometry is given (88-110).  The optimizations
      (123-147) only cache objects and are not modelled. *)
  Definition compute (flag : bool) (cb : option callback) (tile_dimension : Z) (checks : res unit) (template : res (block V))
      (subset : option (res (Z * Z * option (Z -> Z -> bool)))) (rank : Z) (nothing : block V) : outcome V * res unit :=
    let cb1 := match cb with None => None | Some c => Some (CbZero c) end in
    if tile_dimension <=? 0 then (mkout flag cb1 nothing [], Err ValueError)
    else match checks with Err e => (mkout flag cb1 nothing [], Err e) | Ok _ =>
      let orig := flag in
      let fin := fun r : outcome V * res unit => (mkout orig (o_callback (fst r)) (o_file (fst r)) (o_writes (fst r)), snd r) in
      fin (match template with
           | Err e => (mkout true cb1 nothing [], Err e)
           | Ok file =>
             match match subset with None => Ok (0, 0, None) | Some r => r end with
             | Err e => (mkout true cb1 file [], Err e)
             | Ok (ro, co, mask) =>
               match get_tile_schema (b_rows file) (b_cols file) tile_dimension 0 with
               | Err e => (mkout true cb1 file [], Err e)
               | Ok schema =>
                 let cb2 := match cb with None => None | Some c => Some (CbScaled c) end in
                 do_tiles rank ro co mask (mkout true cb2 file []) (map snd schema)
               end
             end
           end)
    end.
End Compute.

(** * grid_chunker.py: inserting weighted chunks *)

(** grid_chunker.py:394-459 [insert_weighted] for one data variable: chunk files
    are written one after the other to the boxes of the index file.  For three
    dimensions this is repeated for each time index (429-449). *)
Fixpoint insert_chunks {V} (master : block V) (bounds : list ((Z * Z) * (Z * Z))) (chunks : list (block V)) : res (block V) :=
  match bounds, chunks with
  | (yb, xb) :: bs, c :: cs => do m <- assign master yb xb c; insert_chunks m bs cs
  | [], [] => Ok master
  | _, _ => Err IndexError
  end.
Fixpoint insert_times {V} (masters : list (block V)) (bounds : list ((Z * Z) * (Z * Z))) (chunks : list (list (block V))) : res (list (block V)) :=
  match masters, chunks with
  | m :: ms, c :: cs => do m' <- insert_chunks m bounds c; do ms' <- insert_times ms bounds cs; Ok (m' :: ms')
  | [], [] => Ok []
  | _, _ => Err IndexError
  end.

(** * grid_chunker.py: merging weight files *)

(** grid.py:884-886 [Grid._gc_create_global_indices_]. *)
Definition global_indices (ny nx : Z) : res (nd Z) :=
  np_reshape (mknd [ny * nx] (fun i => 1 + hd 0 i)) [ny; nx].

(** [indices[y0:y1, x0:x1].flatten()]. *)
Definition box_indices (g : nd Z) (yb xb : Z * Z) : list Z :=
  match nd_shape g with
  | [ny; nx] => flat_map (fun y => map (fun x => nd_at g [y; x]) (slice_positions nx (slice_of (fst xb) (snd xb))))
                  (slice_positions ny (slice_of (fst yb) (snd yb)))
  | _ => []
  end.

(** One side of a chunk: the box of a structured grid in the index file, or the
    global identifiers stored with the chunk of an unstructured one
    (grid_chunker.py:895-919). *)
Inductive side := Box (yb xb : Z * Z) | Guids (ids : list Z).
Definition side_indices (g : nd Z) (s : side) : list Z :=
  match s with Box yb xb => box_indices g yb xb | Guids ids => ids end.

(** A weight file: the dimension size (absent when there are no weights), the
    destination and source indices and the factors. *)
Record weights (F : Type) := mkw { w_size : option Z; w_row : list Z; w_col : list Z; w_S : list F }.
Arguments mkw {F}. Arguments w_size {F}. Arguments w_row {F}. Arguments w_col {F}. Arguments w_S {F}.

(** grid_chunker.py:889-928 [_gc_remap_weight_variable_]: [oindices[odata - 1]]. *)
Definition remap (oindices odata : list Z) : res (list Z) := map_res (fun i => py_index oindices (i - 1)) odata.

(** [out[sidx:sidx + n] = data] on a variable of fixed size. *)
Definition write_at {X} (out : list X) (sidx : Z) (data : list X) : res (list X) :=
  if sidx + zlen data <=? zlen out
  then Ok (firstn (Z.to_nat sidx) out ++ data ++ skipn (Z.to_nat (sidx + zlen data)) out)%list
  else Err IndexError.

(** grid_chunker.py:325-354: the size of the merged file. *)
Fixpoint merged_size {F} (strict : bool) (files : list (option (weights F))) : res Z :=
  match files with
  | [] => Ok 0
  | None :: t => if strict then Err IOError else merged_size strict t
  | Some w :: t => do n <- merged_size strict t; Ok (match w_size w with Some k => k | None => 0 end + n)
  end.

(** grid_chunker.py:372-391: the insertion loop; [sides] are the destination and
    source of each chunk, in the order of the index file. *)
Fixpoint merge_loop {F} (strict : bool) (dst src : nd Z) (sides : list (side * side)) (files : list (option (weights F)))
    (sidx : Z) (out : list Z * list Z * list F) : res (list Z * list Z * list F) :=
  match sides, files with
  | (d, s) :: sides', f :: files' =>
    match f with
    | None => if strict then Err IOError else merge_loop strict dst src sides' files' sidx out
    | Some w =>
      let '(rows, cols, fs) := out in
      do r <- remap (side_indices dst d) (w_row w);
      do rows <- write_at rows sidx r;
      do c <- remap (side_indices src s) (w_col w);
      do cols <- write_at cols sidx c;
      do fs <- write_at fs sidx (w_S w);
      merge_loop strict dst src sides' files' (sidx + zlen (w_S w)) (rows, cols, fs)
    end
  | _, _ => Ok out
  end.

(** grid_chunker.py:301-392 [create_merged_weight_file]: new variables hold fill
    values. *)
Definition create_merged_weight_file {F} (strict : bool) (fill : F) (dst_shape src_shape : Z * Z) (sides : list (side * side)) (files : list (option (weights F)))
    : res (list Z * list Z * list F) :=
  do n <- merged_size strict files;
  do src <- global_indices (fst src_shape) (snd src_shape);
  do dst <- global_indices (fst dst_shape) (snd dst_shape);
  let new := fun X (x : X) => repeat x (Z.to_nat n) in
  merge_loop strict dst src sides files 0 (new Z 0, new Z 0, new F fill).

(** * spatial/base.py: splitting an extent *)

(** Minimum x, minimum y, maximum x, maximum y. *)
Definition qbox := (Q * Q * Q * Q)%type.

(** [np.linspace(a, b, n + 1)] in exact arithmetic. *)
Definition linspace (a b : Q) (n : Z) : list Q :=
  map (fun i => (a + inject_Z i * ((b - a) / inject_Z n))%Q) (zrange 0 (n + 1)).

(** base.py:714-725 [create_split_polygons_from_meshgrid_vectors]. *)
Definition split_from_vectors (cols rows : list Q) : list qbox :=
  let at_ := fun l i => nth (Z.to_nat i) l 0%Q in
  flat_map (fun r => map (fun c => (at_ cols c, at_ rows r, at_ cols (c + 1), at_ rows (r + 1)))
    (zrange 0 (zlen cols - 1))) (zrange 0 (zlen rows - 1)).

(** base.py:704-711 [create_split_polygons]. *)
Definition create_split_polygons (b : qbox) (split_shape : Z * Z) (jitter : Q * Q * Q * Q) : list qbox :=
  let '(minx, miny, maxx, maxy) := b in
  let '(j0, j1, j2, j3) := jitter in
  split_from_vectors (linspace (minx + j2) (maxx + j3) (snd split_shape)) (linspace (miny + j0) (maxy + j1) (fst split_shape)).

(** base.py:786-792: the loop over the polygons. *)
Fixpoint decomposition_loop {R} (get_intersects : qbox -> R) (yield_idx : option Z) (ctr : Z) (polygons : list qbox) : list R :=
  match polygons with
  | [] => []
  | sp :: t =>
    match yield_idx with
    | Some i => if ctr <? i then decomposition_loop get_intersects yield_idx (ctr + 1) t else []
    | None => get_intersects sp :: decomposition_loop get_intersects yield_idx (ctr + 1) t
    end
  end.

(** base.py:750-793 [iter_spatial_decomposition]: the jitter is drawn at random
    between 0 and [buffer] ([SPATIALDECOMP_BUFFER]). *)
Definition iter_spatial_decomposition {R} (get_intersects : qbox -> R) (extent : qbox) (buffer : Q) (jitter : Q * Q * Q * Q)
    (splits : list Z) (yield_idx : option Z) : res (list R) :=
  let '(minx, miny, maxx, maxy) := extent in
  do split_shape <- match splits with
                    | [] => Err IndexError
                    | [n] => Ok (n, 1)
                    | [n; m] => Ok (n, m)
                    | _ => Err AssertionError
                    end;
  let bbox := (minx - buffer, miny - buffer, maxx + buffer, maxy + buffer)%Q in
  Ok (decomposition_loop get_intersects yield_idx 0 (create_split_polygons bbox split_shape jitter)).
