(** Model of longitude wrapping (spatial/wrap.py, variable/crs.py), longitude
    reordering (spatial/grid.py), interpolated bounds and corner conversions
    (util/helpers.py), extents (spatial/base.py, spatial/grid.py), box selection
    (spatial/grid.py, spatial/geomc.py) and multi-part splitting (spatial/geomc.py).

    Coordinates are rationals: every finite floating point number is one.  Rounding
    is not modelled here (see FloatModel.v for wrapping in binary64); NaN is not
    modelled.  The empty-object branches of the spatial containers are left out
    except where noted. *)
From Verif Require Import Py PartitionModel TimeModel NdModel CalcModel AggModel.
From Coq Require Export QArith Qround.
Global Open Scope Z_scope.

Definition qle (a b : Q) : bool := Qle_bool a b.
Definition qlt (a b : Q) : bool := negb (Qle_bool b a).

(** ** Wrapping *)

Local Open Scope Q_scope.

(** spatial/wrap.py:53-72 [CoordinateArrayWrapper.wrap]; [ret[select] -= 360] on the
    elements selected by [ret > self.wrap_axis]. *)
Definition wrap_array (wrap_axis : Q) (arr : list Q) : list Q :=
  map (fun x => if qlt wrap_axis x then x - 360 else x) arr.

(** spatial/wrap.py:74-82 [CoordinateArrayWrapper.unwrap]. *)
Definition unwrap_array (center_axis : Q) (arr : list Q) : list Q :=
  map (fun x => if qlt x center_axis then x + 360 else x) arr.

(** constants.py:135,207-220; the two enumerations share their first two values, and
    crs.py:330 compares a state with an action. *)
Inductive wstate := WRAPPED | UNWRAPPED | UNKNOWN.
Inductive waction := WRAP | UNWRAP.
Definition MERIDIAN_180TH : Q := 180.
Definition wrap_axis_default : Q := 180.
Definition center_axis_default : Q := 0.
Definition state_is_action (s : wstate) (a : waction) : bool :=
  match s, a with WRAPPED, WRAP => true | UNWRAPPED, UNWRAP => true | _, _ => false end.

(** variable/crs.py:357-376 [_get_wrapped_state_from_array_]. *)
Definition wrapped_state_from_array (arr : list Q) : wstate :=
  if existsb (fun x => qlt MERIDIAN_180TH x) arr then UNWRAPPED                 (* 369 *)
  else if existsb (fun x => qlt x 0) arr then WRAPPED                           (* 371 *)
  else UNKNOWN.                                                                (* 374 *)

Definition is_wrapped (s : wstate) : bool := match s with WRAPPED => true | _ => false end.
Definition is_unwrapped (s : wstate) : bool := match s with UNWRAPPED => true | _ => false end.

(** variable/crs.py:217-274 [get_wrapped_state] of a grid of which every rank holds a
    part of the x coordinates: the local states are gathered, combined on the root and
    broadcast.  Without a wrapped or unwrapped rank all ranks are in the unknown state. *)
Definition wrapped_state_global (ranks : list (list Q)) : wstate :=
  let rets := map wrapped_state_from_array ranks in                            (* 261 *)
  if existsb is_wrapped rets then WRAPPED                                       (* 264-265 *)
  else if existsb is_unwrapped rets then UNWRAPPED                              (* 266-267 *)
  else UNKNOWN.                                                                (* 269 *)

(** spatial/base.py:86-105 [wrap]/[unwrap] of a grid with variable/crs.py:323-355
    [wrap_or_unwrap]: the x coordinates of the grid on every rank.  The removal of the
    grid bounds (line 347) and allocated geometries (348-351) are not part of it. *)
Definition grid_wrap_or_unwrap (action : waction) (force : bool) (ranks : list (list Q)) : list (list Q) :=
  if negb (state_is_action (wrapped_state_global ranks) action) || force        (* 330 *)
  then match action with
       | WRAP => map (wrap_array wrap_axis_default) ranks
       | UNWRAP => map (unwrap_array center_axis_default) ranks
       end
  else ranks.

(** Geometries: a polygon has an exterior ring and interior rings (holes). *)
Inductive geom :=
| GPoint (x y : Q)
| GMultiPoint (pts : list (Q * Q))
| GPolygon (exterior : list (Q * Q)) (holes : list (list (Q * Q))).

Definition qmin (a b : Q) : Q := if qle a b then a else b.
Definition qmax (a b : Q) : Q := if qle a b then b else a.
(** [arr.min()], [arr.max()]: an empty array raises. *)
Definition np_min (l : list Q) : res Q := match l with [] => Err ValueError | x :: t => Ok (fold_left qmin t x) end.
Definition np_max (l : list Q) : res Q := match l with [] => Err ValueError | x :: t => Ok (fold_left qmax t x) end.

(** spatial/wrap.py:181-243 [GeometryWrapper.wrap].  A polygon crossing the wrap axis
    is cut by the geometry library (211-219): not modelled, [NotImplementedError]. *)
Definition wrap_geom (wrap_axis : Q) (g : geom) : res geom :=
  match g with
  | GPolygon ext holes =>
    do minx <- np_min (map fst ext); do maxx <- np_max (map fst ext);           (* 204 *)
    if qlt wrap_axis minx && qlt wrap_axis maxx then
      Ok (GPolygon (map (fun p => (fst p - 360, snd p)) ext) [])                (* 190-192, 207-208 *)
    else if qle minx wrap_axis && qlt wrap_axis maxx then Err NotImplementedError
    else Ok g                                                                  (* 221-222 *)
  | GPoint x y => if qlt 180 x then Ok (GPoint (x - 360) y) else Ok g           (* 225-229 *)
  | GMultiPoint pts => Ok (GMultiPoint (map (fun p => if qlt 180 (fst p) then (fst p - 360, snd p) else p) pts))
  end.

(** spatial/wrap.py:100-179, 245-276 [GeometryWrapper.unwrap]: points, and polygons
    which need no cut; a polygon with a coordinate left of the centre axis is cut by
    the geometry library: not modelled. *)
Definition unwrap_geom (center_axis : Q) (g : geom) : res geom :=
  match g with
  | GPoint x y => if qlt x center_axis then Ok (GPoint (x + 360) y) else Ok g   (* 272-275 *)
  | GMultiPoint pts =>
    Ok (GMultiPoint (map (fun p => if qlt (fst p) center_axis then (fst p + 360, snd p) else p) pts))  (* 262-270 *)
  | GPolygon ext _ => if existsb (fun p => qlt (fst p) center_axis) ext then Err NotImplementedError else Ok g
  end.

Local Open Scope Z_scope.

(** ** Reordering *)

(** spatial/grid.py:1380-1384, one view: [view[0:offset] = original[s:]] and
    [view[offset:] = original[0:s]] with [offset = n - s]; for [0 <= s <= n] the two
    assignments cover the view. *)
Definition rotate_view {A} (l : list A) (s : Z) : list A :=
  py_slice l (mkslice (Some s) None) ++ py_slice l (slice_of 0 s).

(** spatial/grid.py:1351-1384 [reorder_array]. *)
Definition reorder_array {A} (shifts : list Z) (arr : nd A) (dims : list string) (rdim vdim : string) : res (nd A) :=
  do ri <- str_index dims rdim;                                                (* 1367 *)
  do vi <- str_index dims vdim;                                                (* 1368 *)
  let shape := nd_shape arr in
  let itrs := map (fun p : nat * Z => if Nat.eqb (fst p) ri then [None] else map Some (zrange 0 (snd p)))
                (enumerate 0 shape) in                                         (* 1370-1375 *)
  fold_res (fun (a : nd A) (yld : list (option Z)) =>                           (* 1377 *)
    match nth vi yld None with                                                 (* 1378 *)
    | None => Err TypeError
    | Some cv =>
      do s <- py_index shifts cv;                                              (* 1379 *)
      Ok (mknd shape (fun idx =>
        if matches yld idx then
          let view := map (fun j => nd_at a (set_nth idx ri j)) (zrange 0 (nth ri shape 0)) in
          nth (Z.to_nat (nth ri idx 0)) (rotate_view view s) (nd_at a idx)
        else nd_at a idx))
    end) (list_product itrs) arr.

(** spatial/grid.py:771-776, one row: the position of its first negative element; an
    integer array does not take [None]. *)
Fixpoint first_negative (k : Z) (row : list Q) : res Z :=
  match row with
  | [] => Err TypeError
  | x :: t => if qlt x 0 then Ok k else first_negative (k + 1) t
  end.

(** A grid over the variables of its parent: the name of the x variable and the names
    and sizes of the row and column dimensions. *)
Record grid := mkgrid {
  g_vars : list (string * nvar Q);
  g_x : string;
  g_row : string * Z;
  g_col : string * Z;
  g_vectorized : bool }.

(** The rows of a one- or two-dimensional x array (764-767). *)
Definition x_rows (vectorized : bool) (x : nd Q) (nrow ncol : Z) : list (list Q) :=
  if (vectorized : bool) then [map (fun j => nd_at x [j]) (zrange 0 ncol)]
  else map (fun i => map (fun j => nd_at x [i; j]) (zrange 0 ncol)) (zrange 0 nrow).

Definition any_true (m : nd bool) : bool := existsb (nd_at m) (indices (nd_shape m)).

(** spatial/grid.py:785-792, one variable of the parent. *)
Definition reorder_variable (shifts : list Z) (rdim vdim : string) (v : nvar Q) : res (nvar Q) :=
  if str_mem rdim (nv_names v) && str_mem vdim (nv_names v) then                (* 786 *)
    do value <- reorder_array shifts (nv_value v) (nv_names v) rdim vdim;       (* 787 *)
    match nv_mask v with                                                       (* 788-792 *)
    | None => Ok (mknvar (nv_dims v) value None)
    | Some m =>
      if any_true m then do m' <- reorder_array shifts m (nv_names v) rdim vdim; Ok (mknvar (nv_dims v) value (Some m'))
      else Ok (mknvar (nv_dims v) value (Some m))
    end
  else Ok v.

(** spatial/grid.py:750-792 [Grid.reorder] of a grid that is not distributed along its
    columns. *)
Definition grid_reorder (g : grid) : res grid :=
  match dget String.eqb (g_vars g) (g_x g) with
  | None => Err KeyError
  | Some xv =>
    let '(rdim, ncol) := g_col g in let '(vdim, nrow) := g_row g in             (* 757-758 *)
    let rows := x_rows (g_vectorized g) (nv_value xv) nrow ncol in              (* 764-767 *)
    if negb (is_wrapped (wrapped_state_from_array (concat rows))) then Err ValueError  (* 751-752 *)
    else
      do found <- map_res (first_negative 0) rows;                             (* 769-776 *)
      do r <- (if g_vectorized g then                                          (* 778-781 *)
                 let s := hd 0 found in
                 let shifts := map (fun _ => s) (zrange 0 nrow) in
                 do x' <- reorder_array shifts (mknd [1; ncol] (fun idx => nd_at (nv_value xv) (tl idx)))
                            [vdim; rdim] rdim vdim;
                 let xv' := mknvar (nv_dims xv) (mknd (nd_shape (nv_value xv)) (fun idx => nd_at x' (0 :: idx))) (nv_mask xv) in
                 Ok (shifts, dset String.eqb (g_vars g) (g_x g) xv')
               else Ok (found, g_vars g));
      let '(shifts, vars) := r in
      do vars' <- map_res (fun kv : string * nvar Q =>
                     do v <- reorder_variable shifts rdim vdim (snd kv); Ok (fst kv, v)) vars;   (* 784-792 *)
      Ok (mkgrid vars' (g_x g) (g_row g) (g_col g) (g_vectorized g))
  end.

(** ** Interpolated bounds *)

(** The element type of an array: floating point numbers are stored exactly, integers
    by truncation. *)
Inductive dtype := Float | Int.
Definition store (t : dtype) (x : Q) : Q :=
  match t with Float => x | Int => inject_Z (Z.quot (Qnum x) (Zpos (Qden x))) end.

(** The mean of a two-element span, [np.mean(centroids[ii:ii + 2])]. *)
Fixpoint midpoints (t : dtype) (l : list Q) : list Q :=
  match l with
  | a :: (b :: _) as rest => store t ((a + b) / 2)%Q :: midpoints t rest
  | _ => []
  end.
Fixpoint np_diff (l : list Q) : list Q :=
  match l with
  | a :: (b :: _) as rest => (b - a)%Q :: np_diff rest
  | _ => []
  end.
Definition qsum (l : list Q) : Q := fold_right Qplus 0%Q l.
Definition np_mean (l : list Q) : Q := (qsum l / inject_Z (zlen l))%Q.

(** util/helpers.py:224-258 [get_bounds_vector_from_centroids]. *)
Definition bounds_vector (t : dtype) (c : list Q) : res (list Q) :=
  if (zlen c <? 2) then Err ValueError                                          (* 233-234 *)
  else
    let mids := midpoints t c in                                               (* 237-247 *)
    let diff := match mids with [_] => hd 0%Q (np_diff c) | _ => np_mean (np_diff mids) end in  (* 250-253 *)
    Ok ((hd 0%Q mids - diff)%Q :: mids ++ [(last mids 0%Q + diff)%Q]).          (* 255-256 *)

(** util/helpers.py:195-222 [get_bounds_from_1d]: the loop stops at the [IndexError] of
    the last element; the result array has the element type of the input. *)
Fixpoint pair_up (t : dtype) (l : list Q) : list (Q * Q) :=
  match l with
  | a :: (b :: _) as rest => (store t a, store t b) :: pair_up t rest
  | _ => []
  end.
Definition get_bounds_from_1d (t : dtype) (c : list Q) : res (list (Q * Q)) :=
  do mids <- bounds_vector t c; Ok (pair_up t mids).

(** ** Corners *)

(** util/helpers.py:596-621 [get_esmf_corners_from_ocgis_corners] without [fill]; the
    corners array has shape (m, n, 4). *)
Definition esmf_from_ocgis {A} (zero : A) (c : nd A) : res (nd A) :=
  match nd_shape c with
  | [m; n; _] =>
    Ok (mknd [n + 1; m + 1]                                                    (* 605-606 *)
      (fold_left (fun fill ij =>                                               (* 615-620 *)
         let '(i, j) := ij in
         let fill := upd fill [j; i] (nd_at c [i; j; 0]) in
         let fill := upd fill [j + 1; i] (nd_at c [i; j; 1]) in
         let fill := upd fill [j + 1; i + 1] (nd_at c [i; j; 2]) in
         upd fill [j; i + 1] (nd_at c [i; j; 3]))
         (list_prod (zrange 0 m) (zrange 0 n)) (fun _ => zero)))
  | _ => Err ValueError
  end.

(** util/helpers.py:313-332 [create_ocgis_corners_from_esmf_corners]. *)
Definition corner_offsets : list (Z * Z) := [(0, 0); (0, 1); (1, 1); (1, 0)].   (* 325 *)
Definition ocgis_from_esmf {A} (zero : A) (e : nd A) : res (nd A) :=
  match nd_shape e with
  | [r; c] =>
    Ok (mknd [r - 1; c - 1; 4]                                                 (* 322-323 *)
      (fold_left (fun fill ij =>                                               (* 326-331 *)
         fold_left (fun fill kk =>
           let '(di, dj) := nth (Z.to_nat kk) corner_offsets (0, 0) in
           upd fill [fst ij; snd ij; kk] (nd_at e [fst ij + di; snd ij + dj])) (zrange 0 4) fill)
         (list_prod (zrange 0 (r - 1)) (zrange 0 (c - 1))) (fun _ => zero)))
  | _ => Err AssertionError                                                    (* 319 *)
  end.

(** ** Extents *)

(** spatial/grid.py:854-878 and spatial/geomc.py:679-682 [_get_extent_]: the x and y
    values (or bounds) of a part that is not empty, masked elements left out. *)
Definition extent_of (xs ys : list Q) : res (Q * Q * Q * Q) :=
  do minx <- np_min xs; do miny <- np_min ys; do maxx <- np_max xs; do maxy <- np_max ys;
  Ok (minx, miny, maxx, maxy).

(** spatial/base.py:728-747 [get_extent_global]: the value every rank returns.  A rank
    whose part is empty raises (729). *)
Definition get_extent_global (ranks : list (list Q * list Q)) : res (Q * Q * Q * Q) :=
  do extents <- map_res (fun r : list Q * list Q =>
                   match fst r, snd r with
                   | [], _ | _, [] => Err EmptyObjectError                     (* 729 *)
                   | xs, ys => extent_of xs ys                                 (* 731 *)
                   end) ranks;
  do a <- np_min (map (fun e => fst (fst (fst e))) extents);                   (* 738 *)
  do b <- np_min (map (fun e => snd (fst (fst e))) extents);                   (* 739 *)
  do c <- np_max (map (fun e => snd (fst e)) extents);                         (* 740 *)
  do d <- np_max (map snd extents);                                            (* 741 *)
  Ok (a, b, c, d).

(** ** Selection inside a box *)

(** spatial/grid.py:1078-1101 [arr_intersects_bounds] without a section: the selection
    and the two rows of [touches]. *)
Definition qeq (a b : Q) : bool := Qeq_bool a b.
Definition arr_touches (arr : list Q) (lower upper : Q) : list bool * list bool :=
  (map (fun x => qeq x lower) arr, map (fun x => qeq x upper) arr).             (* 1085-1087 *)
Definition arr_intersects_bounds (arr : list Q) (lower upper : Q) (keep_touches : bool) : res (list bool) :=
  if negb (qle lower upper) then Err AssertionError                             (* 1079 *)
  else Ok (map (fun x => if (keep_touches : bool) then qle lower x && qle x upper  (* 1089-1091 *)
                         else qlt lower x && qlt x upper) arr).                 (* 1092-1097 *)

(** The same with [section_slice] (1081-1083, 1098-1099). *)
Definition arr_intersects_section (arr : list Q) (lower upper : Q) (keep_touches : bool) (a b : Z) : res (list bool) :=
  do sel <- arr_intersects_bounds (py_slice arr (slice_of a b)) lower upper keep_touches;
  let '(lo, _) := slice_bounds (zlen arr) (slice_of a b) in
  Ok (map (fun k => if (lo <=? k) && (k <? lo + zlen sel) then nth (Z.to_nat (k - lo)) sel false else false)
        (zrange 0 (zlen arr))).

Definition and2 (a b : list bool) : list bool := map (fun p => fst p && snd p) (combine a b).

(** spatial/geomc.py:818-845 [get_xyz_select] for vectors of equal lengths. *)
Definition get_xyz_select (x y : list Q) (minx miny maxx maxy : Q) (z : list Q) (z_bounds : option (Q * Q))
    (invert keep_touches no_touching : bool) : res (list bool) :=
  do select_x <- arr_intersects_bounds x minx maxx keep_touches;               (* 826 *)
  do select_y <- arr_intersects_bounds y miny maxy keep_touches;               (* 827 *)
  let '(tx0, tx1) := arr_touches x minx maxx in
  let '(ty0, ty1) := arr_touches y miny maxy in
  let txy0 := and2 tx0 ty0 in let txy1 := and2 tx1 ty1 in
  let select := and2 select_x select_y in                                      (* 831 *)
  match z_bounds with
  | None =>
    if no_touching && (existsb (fun b => b) txy0 || existsb (fun b => b) txy1) then Err NoTouching  (* 828-830 *)
    else Ok (if (invert : bool) then map negb select else select)
  | Some (minz, maxz) =>
    do select_z <- arr_intersects_bounds z minz maxz keep_touches;             (* 838 *)
    let '(tz0, tz1) := arr_touches z minz maxz in
    if no_touching && (existsb (fun b => b) (and2 txy0 tz0) || existsb (fun b => b) (and2 txy1 tz1)) then Err NoTouching
    else let select := and2 select select_z in                                 (* 839 *)
         Ok (if (invert : bool) then map negb select else select)              (* 843-844 *)
  end.

(** spatial/grid.py:1234-1272 [get_hint_mask_from_geometry_bounds] of a vectorized grid.
    In the touching test [ii] keeps the value of the preceding loop (1246-1249). *)
Definition hint_mask_vectorized (xs ys : list Q) (minx miny maxx maxy : Q) (invert no_touching : bool)
    : res (list (list bool)) :=
  do _ <- (if (no_touching : bool) then
             let tx := map (fun x => qeq x minx || qeq x maxx) xs in            (* 1241 *)
             let ty := map (fun y => qeq y miny || qeq y maxy) ys in            (* 1242 *)
             do row <- (match xs with
                        | [] => Ok false
                        | _ => match ys with
                               | [] => Err NameError
                               | _ => py_index tx (zlen ys - 1)                (* 1248-1249 *)
                               end
                        end);
             if (row : bool) && existsb (fun b => b) ty && negb (zlen xs =? 0) then Err NoTouching else Ok tt  (* 1252-1253 *)
           else Ok tt);
  let select_x := map (fun x => qle minx x && qle x maxx) xs in                 (* 1255 *)
  let select_y := map (fun y => qle miny y && qle y maxy) ys in                 (* 1256 *)
  Ok (map (fun sy : bool => map (fun sx : bool =>
             let s := sx && sy in if (invert : bool) then negb s else s) select_x) select_y).  (* 1258-1270 *)

(** The same for two-dimensional coordinate arrays of equal shapes. *)
Definition hint_mask_2d (xs ys : list (list Q)) (minx miny maxx maxy : Q) (invert no_touching : bool)
    : res (list (list bool)) :=
  let cells := map (fun rows : list Q * list Q => combine (fst rows) (snd rows)) (combine xs ys) in
  let touch (p : Q * Q) := (qeq (fst p) minx || qeq (fst p) maxx) && (qeq (snd p) miny || qeq (snd p) maxy) in
  if no_touching && existsb (existsb touch) cells then Err NoTouching          (* 1240-1253 *)
  else Ok (map (map (fun p : Q * Q =>
             let s := (qle minx (fst p) && qle (fst p) maxx) && (qle miny (snd p) && qle (snd p) maxy) in
             if (invert : bool) then negb s else s)) cells).

(** ** Multi-part coordinates *)

(** [np.where(arr == mbv)[0]]. *)
Definition where_eq (arr : list Z) (v : Z) : list Z :=
  filter (fun k => match nth_error arr (Z.to_nat k) with Some x => x =? v | None => false end) (zrange 0 (zlen arr)).

(** spatial/geomc.py:848-865 [iter_multipart_coordinates]: the list of its yields. *)
Definition iter_multipart_coordinates (arr : list Z) (mbv : Z) : list (list Z) :=
  let w := where_eq arr mbv ++ [zlen arr] in                                   (* 857-859 *)
  snd (fold_left (fun st iw =>
         (iw + 1, snd st ++ [py_slice arr (slice_of (fst st) iw)])) w (0, [])). (* 860-865 *)
