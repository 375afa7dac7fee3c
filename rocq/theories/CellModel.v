(** Model of the cells of structured grids: extrapolated bounds and corners
    (util/helpers.py, variable/base.py, spatial/grid.py), the geometries of cells
    (spatial/grid.py) and the assignment of a part of a variable or grid
    (variable/base.py, spatial/grid.py).

    Coordinates are rationals; rounding and NaN are not modelled. *)
From Verif Require Import Py PartitionModel NdModel CoordModel EsmfModel.
Local Open Scope Z_scope.

(** ** Extrapolated corners *)

(** util/helpers.py:524-544 [get_is_increasing]: only the ends are compared.  The first
    element of a vector without elements raises. *)
Definition is_increasing (l : list Q) : res bool :=
  match l with
  | [] => Err IndexError                                                       (* 539 *)
  | [_] => Err SingleElementError                                              (* 533-534 *)
  | a :: _ => Ok (qlt a (last l a))                                            (* 539-542 *)
  end.

(** [arr[:, 0]] and [arr[0, :]] of an array with m rows and n columns. *)
Definition first_column (arr : nd Q) (m : Z) : list Q := map (fun i => nd_at arr [i; 0]) (zrange 0 m).
Definition first_row (arr : nd Q) (n : Z) : list Q := map (fun j => nd_at arr [0; j]) (zrange 0 n).

(** util/helpers.py:374,377 [np.mean(np.abs(np.diff(...)))]. *)
Definition mean_step (l : list Q) : Q := np_mean (map Qabs.Qabs (np_diff l)).

(** util/helpers.py:413-429 [get_extrapolated_corners_esmf_vector] of a vector. *)
Definition corners_vector (t : dtype) (vec : list Q) : res (nd Q) :=
  do b <- bounds_vector t vec;
  Ok (mknd [2; zlen vec + 1] (fun idx => store t (nth (Z.to_nat (nth 1 idx 0)) b 0%Q))).   (* 426-427 *)

(** The index of an array with two dimensions, and the element there. *)
Definition at2 {A} (f : list Z -> A) (i j : Z) : A := f [i; j].
Definition row_of (idx : list Z) : Z := nth 0 idx 0.
Definition col_of (idx : list Z) : Z := nth 1 idx 0.

(** util/helpers.py:364-368: the mean of every window of two by two centres. *)
Definition corners_inner (t : dtype) (m n : Z) (arr : nd Q) (idx : list Z) : Q :=
  let i := row_of idx in let j := col_of idx in
  if (1 <=? i) && (i <? m) && (1 <=? j) && (j <? n) then
    store t ((at2 (nd_at arr) (i - 1) (j - 1) + at2 (nd_at arr) (i - 1) j + at2 (nd_at arr) i (j - 1) + at2 (nd_at arr) i j) / 4)%Q
  else store t 0%Q.

(** util/helpers.py:380-386: the first and last column of the inner rows; the
    assignments do not depend on each other. *)
Definition corners_sides (t : dtype) (m n : Z) (incr : bool) (d : Q) (c : list Z -> Q) (idx : list Z) : Q :=
  let i := row_of idx in let j := col_of idx in
  if (1 <=? i) && (i <? m) && (j =? 0) then
    store t (if incr then at2 c i 1 - d else at2 c i 1 + d)%Q
  else if (1 <=? i) && (i <? m) && (j =? n) then
    store t (if incr then at2 c i (n - 1) + d else at2 c i (n - 1) - d)%Q
  else c idx.

(** util/helpers.py:389-395: the first and last row of the inner columns. *)
Definition corners_ends (t : dtype) (m n : Z) (incr : bool) (d : Q) (c : list Z -> Q) (idx : list Z) : Q :=
  let i := row_of idx in let j := col_of idx in
  if (1 <=? j) && (j <? n) && (i =? 0) then
    store t (if incr then at2 c 1 j - d else at2 c 1 j + d)%Q
  else if (1 <=? j) && (j <? n) && (i =? m) then
    store t (if incr then at2 c (m - 1) j + d else at2 c (m - 1) j - d)%Q
  else c idx.

(** util/helpers.py:398-404: the four outermost corners. *)
Definition corners_outer (t : dtype) (m n : Z) (incr : bool) (d : Q) (c : list Z -> Q) (idx : list Z) : Q :=
  let i := row_of idx in let j := col_of idx in
  if ((i =? 0) || (i =? m)) && (j =? 0) then
    store t (if incr then at2 c i 1 - d else at2 c i 1 + d)%Q
  else if ((i =? 0) || (i =? m)) && (j =? n) then
    store t (if incr then at2 c i (n - 1) + d else at2 c i (n - 1) - d)%Q
  else c idx.

(** util/helpers.py:346-406 [get_extrapolated_corners_esmf] of an array with two
    dimensions. *)
Definition extrapolated_corners (t : dtype) (arr : nd Q) : res (nd Q) :=
  match nd_shape arr with
  | [m; n] =>
    if (m =? 1) && (n =? 1) then Err SingleElementError                        (* 355-357 *)
    else if (m =? 1) || (n =? 1) then                                          (* 360 *)
      do c <- corners_vector t (map (fun k => nd_at arr (unravel [m; n] k)) (zrange 0 (m * n)));   (* 361 *)
      Ok (if n =? 1 then np_swapaxes 0 1 c else c)                             (* 362-364 *)
    else if n <=? 0 then Err IndexError                                        (* 371: there is no first column *)
    else
      do row_increasing <- is_increasing (first_column arr m);                 (* 371 *)
      do col_increasing <- is_increasing (first_row arr n);                    (* 373 *)
      let row_diff := mean_step (first_column arr m) in                        (* 376 *)
      let col_diff := mean_step (first_row arr n) in                           (* 377 *)
      let c1 := corners_inner t m n arr in
      let c2 := corners_sides t m n col_increasing col_diff c1 in
      let c3 := corners_ends t m n row_increasing row_diff c2 in
      Ok (mknd [m + 1; n + 1] (corners_outer t m n col_increasing col_diff c3))
  | _ => Err IndexError                                                        (* 363: other arrays do not get here *)
  end.

(** ** Extrapolated bounds of a variable *)

(** The value of a coordinate variable: a vector or an array with two dimensions. *)
Inductive cvalue := C1 (l : list Q) | C2 (a : nd Q).
(** Its bounds: pairs, or an array of shape (m, n, 4). *)
Inductive cbounds := B1 (l : list (Q * Q)) | B2 (a : nd Q).

(** variable/base.py:945-974 [set_extrapolated_bounds] of a variable with dimensions on
    one rank; [None] is the value on a rank on which the variable is empty. *)
Definition set_extrapolated_bounds (t : dtype) (has_bounds : bool) (v : option cvalue) : res (option cbounds) :=
  if has_bounds then Err BoundsAlreadyAvailableError                           (* 953-954 *)
  else match v with
  | None => Ok None
  | Some (C1 l) => do b <- get_bounds_from_1d t l; Ok (Some (B1 b))            (* 959-961 *)
  | Some (C2 a) =>                                                             (* 963-968 *)
    do e <- extrapolated_corners t a;
    do o <- ocgis_from_esmf 0%Q e;
    Ok (Some (B2 o))
  end.

(** The same, run by all ranks over which a vector is distributed: nothing is
    exchanged. *)
Definition set_extrapolated_bounds_ranks (t : dtype) (parts : list (list Q)) : list (res (option cbounds)) :=
  map (fun part => set_extrapolated_bounds t false (match part with [] => None | _ => Some (C1 part) end)) parts.

(** ** Geometries of cells *)

(** Points, boxes (least x, least y, greatest x, greatest y) and polygons given by their
    points. *)
Inductive cgeom := GPoint (x y : Q) | GBox (minx miny maxx maxy : Q) | GPolygon (points : list (Q * Q)).

Inductive abstraction := APoint | APolygon | ALine.
Record sgrid := mksgrid { sg_coords : gcoords Q; sg_abstraction : option abstraction; sg_mask : option (nd bool) }.

(** spatial/grid.py:118-132 [abstraction] and 816-821; [None] is the automatic choice. *)
Definition grid_abstraction (g : sgrid) : abstraction :=
  match sg_abstraction g with
  | Some a => a
  | None => if has_bounds (sg_coords g) then APolygon else APoint
  end.
Definition grid_shape (c : gcoords Q) : Z * Z :=
  match c with
  | Vectors ys xs _ => (zlen ys, zlen xs)
  | Arrays y _ _ => (nth 0 (nd_shape y) 0, nth 1 (nd_shape y) 0)
  end.

Definition qmin2 (p : Q * Q) : Q := if qle (fst p) (snd p) then fst p else snd p.
Definition qmax2 (p : Q * Q) : Q := if qle (fst p) (snd p) then snd p else fst p.

(** spatial/grid.py:60-65 and 81-97: the geometry of one cell. *)
Definition cell_point (c : gcoords Q) (i j : Z) : cgeom :=
  match c with
  | Vectors ys xs _ => GPoint (nth (Z.to_nat j) xs 0%Q) (nth (Z.to_nat i) ys 0%Q)
  | Arrays y x _ => GPoint (nd_at x [i; j]) (nd_at y [i; j])
  end.
Definition cell_polygon (c : gcoords Q) (i j : Z) : res cgeom :=
  match c with
  | Vectors _ _ (Some (yb, xb)) =>
    let bx := nth (Z.to_nat j) xb (0, 0)%Q in
    let by_ := nth (Z.to_nat i) yb (0, 0)%Q in
    Ok (GBox (qmin2 bx) (qmin2 by_) (qmax2 bx) (qmax2 by_))                      (* 80-82 *)
  | Arrays _ _ (Some (yc, xc)) =>
    Ok (GPolygon (map (fun k => (nd_at xc [i; j; k], nd_at yc [i; j; k])) (zrange 0 4)))   (* 92-95 *)
  | _ => Err GridDeficientError                                                (* 98-99 *)
  end.

(** spatial/grid.py:43-102 [GridGeometryProcessor.get_geometry_iterable]; [hint] is the
    hint mask.  A grid without bounds raises before anything is yielded. *)
Definition geometry_iterable (g : sgrid) (use_bounds : bool) (hint : option (nd bool))
  : res (list ((Z * Z) * option cgeom)) :=
  let a := if use_bounds then grid_abstraction g else APoint in                (* 47-50 *)
  let '(m, n) := grid_shape (sg_coords g) in
  let cells := list_prod (zrange 0 m) (zrange 0 n) in
  let hinted i j := match hint with Some h => nd_at h [i; j] | None => false end in
  match a with
  | APoint => Ok (map (fun ij => (ij, if hinted (fst ij) (snd ij) then None
                                      else Some (cell_point (sg_coords g) (fst ij) (snd ij)))) cells)
  | APolygon =>
    if has_bounds (sg_coords g) then
      map_res (fun ij => if hinted (fst ij) (snd ij) then Ok (ij, None)
                         else do p <- cell_polygon (sg_coords g) (fst ij) (snd ij); Ok (ij, Some p)) cells
    else Err GridDeficientError                                                (* 98-99 *)
  | ALine => Err NotImplementedError                                           (* 101 *)
  end.

Definition POINT_NAME : string := "ocgis_point".
Definition POLYGON_NAME : string := "ocgis_polygon".

(** A geometry variable: its name, its values ([None] is the number zero of the new
    array) and its mask. *)
Record gvar := mkgvar { gv_name : string; gv_value : list ((Z * Z) * option cgeom); gv_mask : option (nd bool) }.

(** spatial/grid.py:1181-1202 [get_geometry_variable] of a grid that is not empty,
    without given values. *)
Definition get_geometry_variable (g : sgrid) (mask : option (nd bool)) (use_bounds : bool) : res gvar :=
  let mask := match mask with None => sg_mask g | m => m end in                (* 1187-1188 *)
  do value <- geometry_iterable g use_bounds mask;                             (* 1189-1195 *)
  Ok (mkgvar (match grid_abstraction g with APoint => POINT_NAME | _ => POLYGON_NAME end) value mask).   (* 1196-1201 *)

(** spatial/grid.py:526-530 [get_point] and [get_polygon]. *)
Definition get_point (g : sgrid) (mask : option (nd bool)) : res gvar := get_geometry_variable g mask false.
Definition get_polygon (g : sgrid) (mask : option (nd bool)) : res gvar := get_geometry_variable g mask true.

(** spatial/grid.py:1311-1345 the bounds made by [expand_grid]: both arrays have the
    element type of the y bounds (1325-1327); EsmfModel.v models the rest. *)
Definition expand_bounds (t : dtype) (c : gcoords Q) : gcoords Q :=
  match expand 0%Q c, c with
  | Arrays y x (Some (yc, xc)), Vectors _ _ _ =>
    Arrays y x (Some (mknd (nd_shape yc) (fun idx => store t (nd_at yc idx)), mknd (nd_shape xc) (fun idx => store t (nd_at xc idx))))
  | e, _ => e
  end.

(** ** Assignment of a part *)

(** [dst[slc] = src] for slices with step one; the shapes must agree (broadcasting is
    not modelled). *)
Definition slice_box (shape : list Z) (slc : list pyslice) : list (Z * Z) :=
  map (fun ns => slice_bounds (fst ns) (snd ns)) (combine shape slc).
Definition box_shape (box : list (Z * Z)) : list Z := map (fun ab => Z.max 0 (snd ab - fst ab)) box.
Definition in_box (box : list (Z * Z)) (idx : list Z) : bool :=
  forallb (fun abi => (fst (fst abi) <=? snd abi) && (snd abi <? snd (fst abi))) (combine box idx).
Definition from_box (box : list (Z * Z)) (idx : list Z) : list Z :=
  map (fun abi => snd abi - fst (fst abi)) (combine box idx).
Definition assign {A} (dst : nd A) (slc : list pyslice) (src : nd A) : res (nd A) :=
  let box := slice_box (nd_shape dst) slc in
  if listZ_eqb (nd_shape src) (box_shape box)
  then Ok (mknd (nd_shape dst) (fun idx => if in_box box idx then nd_at src (from_box box idx) else nd_at dst idx))
  else Err ValueError.

(** A variable: value, mask, and the values of its bounds. *)
Record cvar := mkcvar { cv_value : nd Q; cv_mask : option (nd bool); cv_bounds : option (nd Q) }.

Definition create_mask (shape : list Z) (m : option (nd bool)) : nd bool :=
  match m with Some m => m | None => mknd shape (fun _ => false) end.

(** variable/base.py:338-370 [Variable.__setitem__]; [slc] has one slice for every
    dimension.  The mask of the bounds is not modelled. *)
Definition var_setitem (self : cvar) (slc : list pyslice) (v : cvar) : res cvar :=
  do value <- assign (cv_value self) slc (cv_value v);                         (* 355 *)
  do mask <- match cv_mask v with                                              (* 357-360 *)
             | None => Ok (cv_mask self)
             | Some m => do r <- assign (create_mask (nd_shape (cv_value self)) (cv_mask self)) slc m; Ok (Some r)
             end;
  do bounds <- match cv_bounds self with                                       (* 362-366 *)
               | None => Ok None
               | Some b =>
                 match cv_bounds v with
                 | None => Err AttributeError
                 | Some vb => do r <- assign b (slc ++ [slice_none]) vb; Ok (Some r)
                 end
               end;
  Ok (mkcvar value mask bounds).                                               (* 368-369 *)

(** The coordinate variables of a grid and its mask. *)
Record vgrid := mkvgrid { vg_y : cvar; vg_x : cvar; vg_mask : option (nd bool) }.
Definition vectorized (g : vgrid) : bool := Nat.eqb (List.length (nd_shape (cv_value (vg_y g)))) 1.
Definition vg_shape (g : vgrid) : list Z :=
  if vectorized g then nd_shape (cv_value (vg_y g)) ++ nd_shape (cv_value (vg_x g)) else nd_shape (cv_value (vg_y g)).

(** spatial/grid.py:264-289 [Grid.__setitem__]. *)
Definition grid_setitem (self : vgrid) (ys xs : pyslice) (g : vgrid) : res vgrid :=
  do x <- var_setitem (vg_x self) (if vectorized self then [xs] else [ys; xs]) (vg_x g);   (* 276-281 *)
  do y <- var_setitem (vg_y self) (if vectorized self then [ys] else [ys; xs]) (vg_y g);
  do mask <- match vg_mask g with                                              (* 283-287 *)
             | None => Ok (vg_mask self)
             | Some m => do r <- assign (create_mask (vg_shape self) (vg_mask self)) [ys; xs] m; Ok (Some r)
             end;
  Ok (mkvgrid y x mask).
