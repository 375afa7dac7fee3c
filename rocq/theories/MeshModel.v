(** Model of the conversion between geometry arrays and node coordinates with an
    element connectivity (unstructured meshes): [GeometryVariable.convert_to]
    (src/ocgis/variable/geom.py), the geometry coordinate classes [PointGC] and
    [PolygonGC] (src/ocgis/spatial/geomc.py) and the ESMF unstructured driver
    (src/ocgis/driver/nc_esmf_unstruct.py).

    Coordinates are integers: a finite binary64 number is a multiple of 2^-1074, and
    the code only compares and copies coordinates, apart from the sign of the area of
    a ring, which is computed exactly here.  Only two-dimensional coordinates are
    modelled.  Shapely is not part of the repository: what is used of it is written
    down below ([polygon_of], [is_ccw]). *)
From Verif Require Import Py PartitionModel DistModel CoordModel.
Local Close Scope Q_scope.
Local Open Scope Z_scope.

Definition vertex := (Z * Z)%type.
Definition ring := list vertex.
(** A Shapely polygon: the coordinates of its exterior (closed: the first is
    repeated at the end) and of its holes. *)
Record polygon := mkpoly { exterior : ring; holes : list ring }.
Inductive geom := GPoint (v : vertex) | GPolygon (p : polygon) | GMultiPolygon (ps : list polygon) | GMultiPoint (vs : list vertex).

Definition veqb (a b : vertex) : bool := (fst a =? fst b) && (snd a =? snd b).

(** ** Shapely *)

(** [Polygon(coordinates)]: at least three coordinate pairs, closed if need be, at
    least four then (shapely 1.x, [geos_linearring_from_py]). *)
Definition polygon_of (c : list vertex) : res polygon :=
  if zlen c <? 3 then Err ValueError
  else match c with
       | [] => Err ValueError
       | v :: _ =>
         let r := if veqb v (last c v) then c else (c ++ [v])%list in
         if zlen r <? 4 then Err ValueError else Ok (mkpoly r [])
       end.

(** Twice the signed area of a closed ring. *)
Fixpoint area2 (r : ring) : Z :=
  match r with
  | a :: ((b :: _) as t) => fst a * snd b - fst b * snd a + area2 t
  | _ => 0
  end.
Definition is_ccw (r : ring) : bool := 0 <=? area2 r.

(** variable/geom.py:1325-1335 [get_ccw_oriented_and_valid_shapely_polygon].
    Simplified: the polygon is valid (no [buffer(0)]). *)
Definition get_ccw (r : ring) : ring := if is_ccw r then r else rev r.

(** ** From geometries to node coordinates *)

(** The options of [convert_to] that are modelled: [pack], [repeat_last_node],
    [start_index], [max_element_coords], [multi_break_value]. *)
Record options := mkopts { o_pack : bool; o_repeat : bool; o_start : Z; o_max : option Z; o_break : Z }.

(** util/helpers.py:1318-1348 [find_index] on two sequences. *)
Fixpoint find_from (k : Z) (nodes : list vertex) (v : vertex) : option Z :=
  match nodes with
  | [] => None
  | n :: t => if veqb n v then Some k else find_from (k + 1) t v
  end.
Definition find_index (nodes : list vertex) (v : vertex) : option Z := find_from 0 nodes v.

(** variable/geom.py:535-547: one coordinate when packing. *)
Definition add_packed (start : Z) (st : list vertex * Z * list Z) (v : vertex) : list vertex * Z * list Z :=
  let '(nodes, cidx, row) := st in
  match find_index nodes v with
  | None => ((nodes ++ [v])%list, cidx + 1, (row ++ [cidx])%list)
  | Some k => (nodes, cidx, (row ++ [k + start])%list)
  end.

(** variable/geom.py:525-556: one part; [nodes] are the coordinates so far, [cidx] the
    next index. *)
Definition add_part (o : options) (nodes : list vertex) (cidx : Z) (r : ring) : list vertex * Z * list Z :=
  let coords := get_ccw r in                                                   (* 525-526 *)
  let used := if o_repeat o then coords else removelast coords in              (* 528-531 *)
  if o_pack o then fold_left (add_packed (o_start o)) used (nodes, cidx, [])   (* 533-548 *)
  else ((nodes ++ used)%list, cidx + zlen used, zrange cidx (cidx + zlen used)). (* 549-556 *)

(** util/helpers.py:1351-1363 [iter_exploded_geometries]. *)
Definition parts_of (g : geom) : list polygon :=
  match g with GPolygon p => [p] | GMultiPolygon ps => ps | _ => [] end.

(** variable/geom.py:476-556: one geometry: the nodes, the next index and the row of
    the connectivity.  Simplified: [split_interiors], [node_threshold],
    [remove_self_intersects] and [to_crs] are not set. *)
Definition add_geom (o : options) (nodes : list vertex) (cidx : Z) (g : geom) : res (list vertex * Z * list Z) :=
  match g with
  | GPoint _ | GMultiPoint _ => Err AttributeError                             (* no [exterior] *)
  | _ =>
    if existsb (fun p => 0 <? zlen (holes p)) (parts_of g) then Err ValueError (* 486-503 *)
    else
      let '(nodes', cidx', row, _) :=
        fold_left (fun acc p =>
          let '(nodes, cidx, row, subidx) := acc in
          let row1 := if 0 <? subidx then (row ++ [o_break o])%list else row in (* 522-523 *)
          let '(nodes', cidx', idxs) := add_part o nodes cidx (exterior p) in
          (nodes', cidx', (row1 ++ idxs)%list, subidx + 1)) (parts_of g) (nodes, cidx, [], 0) in
      Ok (nodes', cidx', row)
  end.

(** variable/geom.py:558-561: one row of the connectivity is stored: as it is in a
    ragged array; into a row of fixed length NumPy copies as many values, or one. *)
Definition store_row (o : options) (row : list Z) : res (list Z) :=
  match o_max o with
  | None => Ok row
  | Some n => if zlen row =? n then Ok row
              else match row with [x] => Ok (repeat x (Z.to_nat n)) | _ => Err ValueError end
  end.

(** How a connectivity is stored: a ragged array (a vector of vectors) or a table of
    rows of equal length (UGRID); a vector with the number of entries of each element
    beside it, or a table with these numbers (ESMF unstructured). *)
Inductive storage :=
| Ragged (rows : list (list Z))
| Table (rows : list (list Z))
| Counted (conn : list Z) (counts : list Z)
| CountedTable (rows : list (list Z)) (counts : list Z).

(** Geometry coordinates.  [g_given] is the start index passed when the object was
    made ([None]: ['auto']); [g_attr] the attribute of the connectivity variable;
    [g_multi] its multi-part break value. *)
Record gc := mkgc {
  g_point : bool; g_nodes : list vertex; g_index : option storage;
  g_given : option Z; g_attr : Z; g_multi : option Z; g_mask : option (list bool)
}.

(** variable/geom.py:1302-1314 [get_geom_type]: whether it is a multi type, then the
    kind: the first multi type, else the last type. *)
Inductive gtype := TPoint | TPolygon | TMultiPolygon | TMultiPoint.
Fixpoint geom_type (gs : list geom) : option gtype :=
  match gs with
  | [] => None
  | GMultiPolygon _ :: _ => Some TMultiPolygon
  | GMultiPoint _ :: _ => Some TMultiPoint
  | GPoint _ :: t => match geom_type t with None => Some TPoint | k => k end
  | GPolygon _ :: t => match geom_type t with None => Some TPolygon | k => k end
  end.

(** variable/geom.py:446-561: all geometries. *)
Definition convert_rows (o : options) (gs : list geom) : res (list vertex * list (list Z)) :=
  do st <- fold_res (fun st g =>
             let '(nodes, cidx, rows) := st in
             do r <- add_geom o nodes cidx g;
             let '(nodes', cidx', row) := r in
             do row' <- store_row o row;
             Ok (nodes', cidx', (rows ++ [row'])%list)) gs ([], o_start o, []);
  let '(nodes, _, rows) := st in Ok (nodes, rows).

(** variable/geom.py:333-625 [GeometryVariable.convert_to].  All elements of the array
    are geometries, also masked ones.  Mixed arrays of points and polygons are an
    error (which one is simplified). *)
Definition convert_to (o : options) (gs : list geom) (mask : option (list bool)) : res gc :=
  match geom_type gs with
  | None => Err AssertionError                                                 (* 1313 *)
  | Some TMultiPoint => Err NotImplementedError                                (* 583-585 [RequestableFeature] *)
  | Some TPoint =>
    do vs <- map_res (fun g => match g with GPoint v => Ok v | _ => Err ValueError end) gs;
    Ok (mkgc true vs None (Some (o_start o)) 0 None mask)
  | Some k =>
    do r <- convert_rows o gs;
    let '(nodes, rows) := r in
    let multi := match k with TMultiPolygon => Some (o_break o) | _ => None end in (* 578-582 *)
    Ok (mkgc false nodes (Some (match o_max o with None => Ragged rows | Some _ => Table rows end))
             (Some (o_start o)) (o_start o) multi mask)
  end.

(** ** From node coordinates to geometries *)

(** spatial/geomc.py:234-251 [start_index]. *)
Definition start_index (g : gc) : Z :=
  match g_given g with
  | Some z => z
  | None => match g_index g with Some _ => g_attr g | None => 0 end
  end.

(** The number of elements: [element_dim] (driver/base.py:919-926,
    driver/nc_esmf_unstruct.py:58-59). *)
Definition n_elements (g : gc) : nat :=
  match g_index g with
  | None => List.length (g_nodes g)
  | Some (Ragged rows) | Some (Table rows) => List.length rows
  | Some (Counted _ counts) | Some (CountedTable _ counts) => List.length counts
  end.

(** spatial/geomc.py:744-760 [PolygonGC.get_element_node_connectivity_by_index]. *)
Definition count_start (counts : list Z) (idx : nat) : Z := zsum (firstn idx counts).
Definition connectivity (s : storage) (idx : nat) : res (list Z) :=
  match s with
  | Ragged rows | Table rows => match nth_error rows idx with Some r => Ok r | None => Err IndexError end
  | Counted conn counts => Ok (py_slice conn (slice_of (count_start counts idx) (count_start counts (S idx))))
  | CountedTable rows counts => Ok (concat (py_slice rows (slice_of (count_start counts idx) (count_start counts (S idx)))))
  end.

(** [a[lo:hi] -= k] on the array itself. *)
Definition sub_section (lo hi k : Z) (l : list Z) : list Z :=
  map (fun p => if (lo <=? fst p) && (fst p <? hi) then snd p - k else snd p) (combine (zrange 0 (zlen l)) l).
Definition sub_rows (lo hi k : Z) (l : list (list Z)) : list (list Z) :=
  map (fun p => if (lo <=? fst p) && (fst p <? hi) then map (fun x => x - k) (snd p) else snd p) (combine (zrange 0 (zlen l)) l).

(** spatial/geomc.py:378-379 [ec_idx -= start_index]: [flatten] has made a copy of a
    row, but a part of a counted connectivity is a view of the array (755), which is
    changed with it. *)
Definition subtract_start (s : storage) (idx : nat) (start : Z) : storage :=
  if 0 <? start then
    match s with
    | Ragged _ | Table _ => s
    | Counted conn counts => Counted (sub_section (count_start counts idx) (count_start counts (S idx)) start conn) counts
    | CountedTable rows counts => CountedTable (sub_rows (count_start counts idx) (count_start counts (S idx)) start rows) counts
    end
  else s.

(** spatial/geomc.py:383-410 for polygons: the geometry of one element.
    [use_memory_optimizations] takes the first value of what was read (391-393).
    Simplified: which value that is does not matter. *)
Definition polygon_element (g : gc) (memory : bool) (ec : list Z) : res geom :=
  let mitr := match g_multi g with Some v => iter_multipart_coordinates ec v | None => [ec] end in
  do ps <- map_res (fun comp =>
             do vs <- map_res (py_index (g_nodes g)) comp;
             polygon_of (if memory then firstn 1 vs else vs)) mitr;
  match g_multi g with
  | Some _ => Ok (GMultiPolygon ps)
  | None => match ps with p :: _ => Ok (GPolygon p) | [] => Err IndexError end
  end.

(** spatial/geomc.py:369-415: the loop over the elements [idxs] with the connectivity
    [s], for polygons.  The connectivity as it is afterwards, and what was yielded. *)
Fixpoint visit (g : gc) (memory : bool) (masked : nat -> bool) (idxs : list nat) (s : storage) : storage * res (list (option geom)) :=
  match idxs with
  | [] => (s, Ok [])
  | idx :: t =>
    if masked idx then
      let '(s', r) := visit g memory masked t s in (s', do l <- r; Ok (None :: l))
    else
      match connectivity s idx with
      | Err e => (s, Err e)
      | Ok ec =>
        let start := start_index g in
        let s1 := subtract_start s idx start in
        let ec' := if 0 <? start then map (fun x => x - start) ec else ec in
        match polygon_element g memory ec' with
        | Err e => (s1, Err e)
        | Ok geo => let '(s', r) := visit g memory masked t s1 in (s', do l <- r; Ok (Some geo :: l))
        end
      end
  end.

(** The same for points (spatial/geomc.py:719-722): the index is a number. *)
Definition point_element (g : gc) (idx : nat) : res geom :=
  do i <- match g_index g with
          | None => Ok (Z.of_nat idx)
          | Some (Ragged rows) | Some (Table rows) | Some (CountedTable rows _) =>
            do row <- match nth_error rows idx with Some r => Ok r | None => Err IndexError end;
            match row with x :: _ => Ok (if 0 <? start_index g then x - start_index g else x) | [] => Err IndexError end
          | Some (Counted conn _) => do x <- py_index conn (Z.of_nat idx); Ok (if 0 <? start_index g then x - start_index g else x)
          end;
  do v <- py_index (g_nodes g) i;
  Ok (GPoint v).

(** [has_masked_values_global] on one process. *)
Definition has_masked_values (g : gc) : bool := match g_mask g with Some m => existsb (fun b => b) m | None => false end.

(** spatial/geomc.py:353-373: whether element [idx] is masked. *)
Definition masked_at (g : gc) (use_mask : bool) (hint : option (list bool)) (idx : nat) : bool :=
  use_mask && has_masked_values g &&
  match g_mask g with
  | None => false
  | Some m => nth idx m false || match hint with Some h => nth idx h false | None => false end
  end.

Definition set_index (g : gc) (s : option storage) : gc :=
  mkgc (g_point g) (g_nodes g) s (g_given g) (g_attr g) (g_multi g) (g_mask g).

(** spatial/geomc.py:304-415 [get_geometry_iterable], read to the end: the object as
    it is afterwards, and the geometries ([None] where masked). *)
Definition iter_geometries (g : gc) (use_mask : bool) (hint : option (list bool)) (memory : bool) : gc * res (list (option geom)) :=
  let idxs := seq 0 (n_elements g) in
  if g_point g then
    (g, map_res (fun idx => if masked_at g use_mask hint idx then Ok None else do p <- point_element g idx; Ok (Some p)) idxs)
  else
    match g_index g with
    | None => (g, Err TypeError)                                               (* one number is not a polygon *)
    | Some s =>
      match g_multi g with
      | Some v => if v <? 0 then let '(s', r) := visit g memory (masked_at g use_mask hint) idxs s in (set_index g (Some s'), r)
                  else (g, Err AssertionError)                                 (* 336-337 *)
      | None => let '(s', r) := visit g memory (masked_at g use_mask hint) idxs s in (set_index g (Some s'), r)
      end
    end.

(** ** Subsetting *)

(** The elements of [l] where the selection is true. *)
Fixpoint select {A} (sel : list bool) (l : list A) : list A :=
  match sel, l with
  | b :: sel', x :: t => if b then x :: select sel' t else select sel' t
  | _, _ => []
  end.

(** spatial/geomc.py:417-441 [get_distributed_slice] on one process with a boolean
    array; [None]: the result is empty.  The connectivity is sliced, and with it
    whatever has its dimensions: of a counted vector these are not the elements, but
    the entries. *)
Definition slice_elements (g : gc) (sel : list bool) : res (option gc) :=
  if existsb (fun b => b) sel then
    let mask := option_map (select sel) (g_mask g) in
    match g_index g with
    | None => Ok (Some (mkgc (g_point g) (select sel (g_nodes g)) None (g_given g) (g_attr g) (g_multi g) mask))
    | Some (Ragged rows) => Ok (Some (mkgc (g_point g) (g_nodes g) (Some (Ragged (select sel rows))) (g_given g) (g_attr g) (g_multi g) mask))
    | Some (Table rows) => Ok (Some (mkgc (g_point g) (g_nodes g) (Some (Table (select sel rows))) (g_given g) (g_attr g) (g_multi g) mask))
    | Some (CountedTable rows counts) =>
      Ok (Some (mkgc (g_point g) (g_nodes g) (Some (CountedTable (select sel rows) (select sel counts))) (g_given g) (g_attr g) (g_multi g) mask))
    | Some (Counted conn counts) =>
      do conn' <- map_res (fun k : nat => py_index conn (Z.of_nat k)) (filter (fun k => nth k sel false) (seq 0 (List.length sel)));
      Ok (Some (set_index g (Some (Counted conn' counts))))
    end
  else Ok None.

(** spatial/geomc.py:472-633 [get_spatial_subset_operation] with ['intersects'] on one
    process.  [pred] tells whether a geometry intersects (and, if touching is not
    kept, does not only touch); [in_box] whether a point is in the box of one of the
    parts of the subset geometry.  The object afterwards, then the result. *)
Definition spatial_subset (g : gc) (pred : geom -> bool) (in_box : vertex -> bool) (original_mask : option (list bool))
    (apply_slice : bool) : gc * res (option gc * list bool) :=
  let n := n_elements g in
  let original :=
    if g_point g then
      match original_mask with
      | Some m => m
      | None =>
        let hint := map (fun v => negb (in_box v)) (g_nodes g) in              (* 531-560 *)
        match g_mask g with
        | Some m => map (fun p => fst p || snd p) (combine m hint)             (* 561-564 *)
        | None => hint
        end
      end
    else repeat false n in                                                     (* 565-566 *)
  let '(g', filled) :=
    if forallb (fun b => b) original then (g, Ok original)                     (* 579 *)
    else
      let '(g', r) := iter_geometries g true (Some original) false in
      (g', do l <- r; Ok (map (fun og => negb (match og with Some geo => pred geo | None => false end)) l)) in (* 582-585 *)
  (g', do fill <- filled;
       let sel := map negb fill in                                             (* 597 *)
       do sliced <- (if apply_slice then slice_elements g' sel else Ok (Some g'));
       Ok (sliced, sel)).

(** ** Reducing the nodes to those that are used *)

(** The new index of every old one. *)
Fixpoint position (k : Z) (l : list Z) (x : Z) : option Z :=
  match l with [] => None | y :: t => if x =? y then Some k else position (k + 1) t x end.
Definition renumber (start : Z) (u : list Z) (x : Z) : res Z :=
  match position start u x with Some k => Ok k | None => Err KeyError end.

(** spatial/geomc.py:642-674 [reduce_global] on one process
    ([reduce_reindex_coordinate_index], 868-990, on one process gives every old index
    its place among the different old indices in ascending order).  Simplified: the
    nodes are read by position (reading them by a range gives the same nodes if all
    positions are in range).  A ragged connectivity cannot be reduced: NumPy raises on
    the comparison of vectors (which exception is simplified).  The new connectivity
    variable has no attributes but the start index, which is the driver's unless one
    was given (672, 141-156). *)
Definition driver_start (s : storage) : Z := match s with Ragged _ | Table _ => 0 | _ => 1 end.
Definition reduce_global (g : gc) : res gc :=
  match g_index g with
  | None => Err ValueError                                                     (* 652-653 *)
  | Some s =>
    let start := start_index g in
    let reduce (flat : list Z) (rebuild : (Z -> res Z) -> res storage) : res gc :=
      let u := np_unique flat in
      do s' <- rebuild (renumber start u);
      do nodes <- map_res (py_index (g_nodes g)) (if start =? 1 then map (fun x => x - 1) u else u); (* 662-664 *)
      Ok (mkgc (g_point g) nodes (Some s') (g_given g) (match g_given g with Some z => z | None => driver_start s end) None (g_mask g)) in
    match s with
    | Ragged _ => Err ValueError
    | Table rows => reduce (concat rows) (fun f => do rows' <- map_res (map_res f) rows; Ok (Table rows'))
    | Counted conn counts => reduce conn (fun f => do conn' <- map_res f conn; Ok (Counted conn' counts))
    | CountedTable rows counts => reduce (concat rows) (fun f => do rows' <- map_res (map_res f) rows; Ok (CountedTable rows' counts))
    end
  end.

(** ** Writing in the ESMF unstructured format *)

(** driver/nc_esmf_unstruct.py:126-135: what each process adds to its indices. *)
Definition row_max (rows : list (list Z)) : res Z := do ms <- map_res list_max rows; list_max ms.
Fixpoint adjusts (adjust : Z) (maxs : list Z) : list Z :=
  match maxs with
  | [] => []
  | m :: t => adjust :: adjusts (m + 1 + adjust) t
  end.

(** 139-150: one row, the break values put back. *)
Definition adjust_row (multi : option Z) (adjust : Z) (row : list Z) : list Z :=
  map (fun x => match multi with Some v => if x =? v then v else x + adjust | None => x + adjust end) row.

Definition ragged_rows (g : gc) : res (list (list Z)) :=
  match g_index g with
  | Some (Ragged rows) => Ok rows
  | Some (Table _) => Err IndexError                                           (* 116: a number has no shape *)
  | _ => Err AssertionError                                                    (* 105 *)
  end.

(** driver/nc_esmf_unstruct.py:97-203 [_convert_from_ugrid_] on the processes
    [ranks], and what is read from the file written: the values of the processes one
    after the other.  The start index and the break value are the same on all
    processes. *)
Definition write_esmf (ranks : list gc) : res gc :=
  match ranks with
  | [] => Err EmptyObjectError
  | first :: _ =>
    do rows <- map_res ragged_rows ranks;
    do adj <- match ranks with
              | [_] => Ok [0]
              | _ => do maxs <- map_res row_max rows; Ok (adjusts 0 maxs)
              end;
    let rows' := concat (map (fun p => map (adjust_row (g_multi first) (fst p)) (snd p)) (combine adj rows)) in
    Ok (mkgc false (concat (map g_nodes ranks)) (Some (Counted (concat rows') (map zlen rows')))
             None (start_index first) (g_multi first) None)
  end.
