(** Model of wrapping polygons (spatial/wrap.py, [GeometryWrapper]), of the wrapped state
    of geometries and grids on several processes (variable/crs.py, [get_wrapped_state]) and
    of the preparation of boxes for subsetting (variable/crs.py,
    [prepare_geometry_variable]; variable/geom.py, [GeometryVariable.prepare]).

    The intersection of polygons with a box is done by GEOS and is a parameter here, which
    gives the parts of the intersection; latitudes are taken to be within -90 and 90, so
    that only the meridians of the boxes matter.  Polygons are taken to be valid (wrap.py:117-122). *)
From Verif Require Import Py CoordModel.
Local Open Scope Q_scope.

(** A polygon: its exterior ring and its holes. *)
Record poly := mkpoly { p_ext : list (Q * Q); p_holes : list (list (Q * Q)) }.
(** Polygon or MultiPolygon. *)
Inductive region := Single (p : poly) | Multi (l : list poly).
(** util/helpers.py:1351-1363 [iter_exploded_geometries]. *)
Definition exploded (g : region) : list poly := match g with Single p => [p] | Multi l => l end.
(** The parts of an intersection: polygons, and the lines and points where the shapes only
    touch.  One part is returned as such, other numbers of parts as a collection. *)
Inductive piece := Area (p : poly) | Line | Dot.

Definition xs_of (l : list poly) : list Q := map fst (flat_map p_ext l).
(** [geom.bounds], the columns. *)
Definition bounds_x (l : list poly) : res (Q * Q) := do a <- np_min (xs_of l); do b <- np_max (xs_of l); Ok (a, b).

(** spatial/wrap.py:189-192, 197-199, 286-288: [Polygon] of the coordinates of the exterior
    moved by [d]. *)
Definition moved (d : Q) (p : poly) : poly := mkpoly (map (fun q => (fst q + d, snd q)) (p_ext p)) [].
(** Lines and points have no exterior. *)
Definition moved_piece (d : Q) (p : piece) : res poly := match p with Area p => Ok (moved d p) | Line | Dot => Err AttributeError end.
(** spatial/wrap.py:188-201 [_shift_] and 137-142 of an intersection: a single line or point
    has no length and cannot be looped over. *)
Definition moved_pieces (d : Q) (l : list piece) : res (list poly) :=
  match l with [Line] | [Dot] => Err TypeError | _ => map_res (moved_piece d) l end.

(** spatial/wrap.py:145-150, 213-218: [MultiPolygon] of the parts; if that raises, again
    without the lines. *)
Definition areas (l : list piece) : res (list poly) :=
  map_res (fun p => match p with Area p => Ok p | Line | Dot => Err TypeError end) l.
Definition is_line (p : piece) : bool := match p with Line => true | _ => false end.
Definition merged (l : list piece) : res (list poly) :=
  match areas l with Ok r => Ok r | Err _ => areas (filter (fun p => negb (is_line p)) l) end.

Section Geometry.
Variable clip : list poly -> Q -> Q -> list piece.

(** spatial/wrap.py:181-243 [GeometryWrapper.wrap] of polygons, with the default axes. *)
Definition wrap_region (g : region) : res region :=
  do b <- bounds_x (exploded g);                                                       (* 204 *)
  if qlt 180 (fst b) && qlt 180 (snd b) then                                           (* 207 *)
    Ok match g with Single p => Single (moved (- (360)) p) | Multi l => Multi (map (moved (- (360))) l) end
  else if qle (fst b) 180 && qlt 180 (snd b) then                                      (* 211 *)
    let left_ := clip (exploded g) (- (180)) 180 in                                     (* 212 *)
    do right_ <- moved_pieces (- (360)) (clip (exploded g) 180 360);                    (* 213 *)
    do r <- merged (left_ ++ map Area right_);                                           (* 214-219 *)
    Ok (Multi r)
  else Ok g.                                                                           (* 222 *)

(** spatial/wrap.py:245-252 [_should_unwrap_geom_]. *)
Definition should_unwrap (l : list poly) : bool := existsb (fun p => existsb (fun q => qlt (fst q) 0) (p_ext p)) l.

(** spatial/wrap.py:114-163: one polygon. *)
Definition unwrap_one (p : poly) : res (list poly) :=
  if should_unwrap [p] then
    do left_ <- moved_pieces 360 (clip [p] (- (180)) 0);                                (* 127, 134-142 *)
    merged (map Area left_ ++ clip [p] 0 180)                                           (* 128-131, 145-150 *)
  else Ok [p].

(** spatial/wrap.py:100-179 [GeometryWrapper.unwrap] of polygons. *)
Definition unwrap_region (g : region) : res region :=
  if should_unwrap (exploded g) then
    do ps <- map_res unwrap_one (exploded g);
    match concat ps with
    | [] => Err IndexError                                                             (* 172 *)
    | [p] => Ok (Single p)
    | l => Ok (Multi l)                                                                (* 166-170 *)
    end
  else Ok g.

(** ** Preparing a geometry for subsetting *)

(** A geometry variable with one geometry: its wrapped state if that was given, and whether
    it is a bounding box. *)
Record gvar := mkgvar { gv_geom : region; gv_state : option wstate; gv_bbox : bool }.

(** variable/crs.py:378-404 [_get_wrapped_state_from_geometry_]; spatial/base.py:69-80. *)
Definition state_of_region (g : region) : wstate := wrapped_state_from_array (xs_of (exploded g)).
Definition state_of (v : gvar) : wstate := match gv_state v with Some s => s | None => state_of_region (gv_geom v) end.

(** variable/crs.py:323-355 [wrap_or_unwrap] of a geometry variable; the state is found anew
    afterwards. *)
Definition wrap_variable (a : waction) (v : gvar) : res gvar :=
  if negb (state_is_action (state_of v) a) then
    do g <- match a with WRAP => wrap_region (gv_geom v) | UNWRAP => unwrap_region (gv_geom v) end;
    Ok (mkgvar g None (gv_bbox v))
  else Ok v.

(** [shapely.geometry.box]. *)
Definition box (x0 y0 x1 y1 : Q) : poly := mkpoly [(x1, y0); (x1, y1); (x0, y1); (x0, y0); (x1, y0)] [].

(** variable/crs.py:276-312 [prepare_geometry_variable] in a system that can be wrapped. *)
Definition prepare_bbox (rhs_tol : Q) (v : gvar) : res gvar :=
  if gv_bbox v && is_unwrapped (state_of v) then                                       (* 290 *)
    do b <- bounds_x (exploded (gv_geom v));
    do y0 <- np_min (map snd (flat_map p_ext (exploded (gv_geom v))));
    do y1 <- np_max (map snd (flat_map p_ext (exploded (gv_geom v))));
    if qlt (fst b) 0 then                                                              (* 295 *)
      Ok (mkgvar (Multi [box (fst b) y0 (snd b) y1; box (fst b + 360) y0 (360 + rhs_tol) y1]) (gv_state v) true)
    else Ok v
  else Ok v.

(** variable/geom.py:1077-1129 [prepare] with an archetype in the same coordinate system
    whose wrapped state is [target]. *)
Definition prepare (rhs_tol : Q) (target : wstate) (v : gvar) : res gvar :=
  do w <- match target, state_of v with
          | WRAPPED, UNWRAPPED => wrap_variable WRAP v                                 (* 1110-1111 *)
          | UNWRAPPED, WRAPPED => wrap_variable UNWRAP v                               (* 1112-1113 *)
          | _, _ => Ok v                                                               (* 1106-1109 *)
          end;
  prepare_bbox rhs_tol w.                                                              (* 1123-1127 *)
End Geometry.

(** ** The wrapped state on several processes *)

(** variable/crs.py:249-259: the geometries of one process, [None] where masked, each with
    its x coordinates; an empty process has no state (244-245).  [None] is [None]. *)
Fixpoint first_state (geoms : list (option (list Q))) : wstate :=
  match geoms with
  | [] => UNKNOWN
  | None :: t => first_state t
  | Some xs :: t => match wrapped_state_from_array xs with UNKNOWN => first_state t | s => s end
  end.
Inductive wtarget := EmptyTarget | GridTarget (xs : list Q) | GeomTarget (geoms : list (option (list Q))).
Definition local_state (t : wtarget) : option wstate :=
  match t with EmptyTarget => None | GridTarget xs => Some (wrapped_state_from_array xs) | GeomTarget l => Some (first_state l) end.

(** variable/crs.py:261-274: the states of all processes combined.  [pick] is the first
    element of a set of states, in whatever order Python keeps it. *)
Definition global_state (pick : list (option wstate) -> option wstate) (ranks : list wtarget) : option wstate :=
  let rets := map local_state ranks in
  if existsb (fun r => match r with Some s => is_wrapped s | None => false end) rets then Some WRAPPED
  else if existsb (fun r => match r with Some s => is_unwrapped s | None => false end) rets then Some UNWRAPPED
  else pick rets.

(** variable/crs.py:179-215 [get_wrap_action]. *)
Definition get_wrap_action (src dst : wstate) : option waction :=
  match dst with
  | UNKNOWN => None
  | WRAPPED => match src with UNWRAPPED => Some WRAP | _ => None end
  | UNWRAPPED => match src with WRAPPED => Some UNWRAP | _ => None end
  end.
