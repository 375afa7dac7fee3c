(** Transformation of fields, grids and geometry variables between coordinate systems
    ([update_crs]), and the attributes of the coordinates afterwards.

    The libraries are parameters: [project v w] is what pyproj and OGR do with one point
    between the PROJ.4 dictionaries [v] and [w]; [rotate c inverse] is the external
    program with the transformation string of the rotated pole [c]
    (variable/crs.py:1211-1265); [cart c inverse] is the formula between the sphere [c]
    and Cartesian coordinates (modelled in SphereModel.v).  They are total here: errors
    raised by the libraries are not modelled.  Points have three coordinates, the third
    one only changed by [cart].

    A grid is the list of its points after [expand] (the meshing itself is modelled in
    CoordModel.v), so that a grid with one-dimensional coordinates is the same as a grid
    with two-dimensional ones. *)
From Verif Require Import Py CrsModel.
Local Open Scope string_scope.
Local Open Scope list_scope.

(** The classes of coordinate systems, variable/crs.py: general systems ([KGeneral], with
    [is_geographic] of the library), WGS84, spheres in degrees or radians, tripolar,
    Cartesian and rotated pole. *)
Inductive kind := KGeneral (geographic : bool) | KWgs84 | KSphere (radians : bool) | KTripole | KCartesian | KRotated.

Record crs := mkcrs { c_kind : kind; c_name : string; c_value : attrs }.

Definition is_cartesian (c : crs) : bool := match c_kind c with KCartesian => true | _ => false end.
Definition is_rotated_pole (c : crs) : bool := match c_kind c with KRotated => true | _ => false end.

(** [is_geographic], variable/crs.py:563-565, 658, 784, 803.  The library does not know the
    PROJ.4 dictionary of a rotated pole, which is [proj=omerc], as geographic. *)
Definition is_geographic (c : crs) : bool :=
  match c_kind c with KGeneral b => b | KRotated => false | _ => true end.

(** [proj4], variable/crs.py:575-581: classes which are not PROJ.4 systems have no such
    attribute. *)
Definition proj4 (c : crs) : res attrs :=
  match c_kind c with KTripole | KCartesian => Err AttributeError | _ => Ok (c_value c) end.

(** A grid: its points, the points of its corners (all cells one after the other), whether
    there is a level coordinate and whether that has bounds, and the attributes of the
    coordinates. *)
Record grid (pt : Type) := mkgrid {
  g_points : list pt;
  g_corners : option (list pt);
  g_level : option bool;
  g_x : attrs; g_y : attrs; g_z : attrs }.
Arguments mkgrid {pt}. Arguments g_points {pt}. Arguments g_corners {pt}. Arguments g_level {pt}.
Arguments g_x {pt}. Arguments g_y {pt}. Arguments g_z {pt}.

(** A geometry: whether it is a polygon, its points (or the exterior of the polygon),
    the holes, and whether it has a third coordinate. *)
Record shape (pt : Type) := mkshape { s_polygon : bool; s_points : list pt; s_holes : list (list pt); s_z : bool }.
Arguments mkshape {pt}. Arguments s_polygon {pt}. Arguments s_points {pt}. Arguments s_holes {pt}. Arguments s_z {pt}.

(** An element of a geometry variable: the geometry, or something which has none, and
    whether it is masked. *)
Definition element (pt : Type) : Type := (option (shape pt) * bool)%type.

(** A field: the name of its coordinate system in the dimension map, the coordinate
    systems among its variables, the grid, the geometries and the attribute grid_mapping
    of the data variables. *)
Record field (pt : Type) := mkfield {
  f_label : option string;
  f_systems : list (string * crs);
  f_grid : option (grid pt);
  f_geom : option (list (element pt));
  f_mapping : list (string * option string) }.
Arguments mkfield {pt}. Arguments f_label {pt}. Arguments f_systems {pt}. Arguments f_grid {pt}. Arguments f_geom {pt}.
Arguments f_mapping {pt}.

(** [field.crs], collection/field.py:216-222, driver/dimension_map.py:164-174, 605-614; also
    the coordinate system of its grid and geometries, spatial/base.py:42-43.
    VariableNotInCollection is written VariableNotFoundError. *)
Definition field_system {pt} (f : field pt) : res (option crs) :=
  match f_label f with
  | None => Ok None
  | Some n => match dget String.eqb (f_systems f) n with Some c => Ok (Some c) | None => Err VariableNotFoundError end
  end.

(** ** Attributes of coordinates *)

(** [_cf_attributes], variable/crs.py:652-656, 844-848. *)
Definition cf_attributes (c : crs) : option (attrs * attrs) :=
  match c_kind c with
  | KSphere _ | KTripole | KWgs84 =>
      Some ([("units", AStr "degrees_east"); ("standard_name", AStr "longitude")],
            [("units", AStr "degrees_north"); ("standard_name", AStr "latitude")])
  | _ => None
  end.

(** [_update_attr_] with its default. *)
Definition add_attrs (new a : attrs) : attrs :=
  fold_left (fun d kv => if dmem String.eqb d (fst kv) then d else aset d (fst kv) (snd kv)) new a.

Definition remove_attrs (a : attrs) : attrs := apop (apop a "units") "standard_name".

(** [format_spatial_object], variable/crs.py:111-150, 663-669, on a grid: the names of the
    coordinate variables are told apart by the dimension map. *)
Definition format_grid {pt} (c : crs) (is_transform : bool) (g : grid pt) : res (grid pt) :=
  match c_kind c with
  | KSphere true => Err ValueError
  | _ =>
      Ok (match cf_attributes c with
          | None =>
              if is_transform
              then mkgrid (g_points g) (g_corners g) (g_level g) (remove_attrs (g_x g)) (remove_attrs (g_y g))
                     (match g_level g with Some _ => remove_attrs (g_z g) | None => g_z g end)
              else g
          | Some (ax, ay) =>
              mkgrid (g_points g) (g_corners g) (g_level g) (add_attrs ax (g_x g)) (add_attrs ay (g_y g)) (g_z g)
          end)
  end.

(** The same method on a field, as called when a field is written (driver/nc.py:479-481) or its
    coordinate system set: the data variables name the coordinate system. *)
Definition format_field {pt} (c : crs) (f : field pt) : res (field pt) :=
  match c_kind c with
  | KSphere true => Err ValueError
  | _ =>
      do g <- match f_grid f with None => Ok None | Some g => do g' <- format_grid c false g; Ok (Some g') end;
      Ok (mkfield (f_label f) (f_systems f) g (f_geom f) (map (fun '(n, _) => (n, Some (c_name c))) (f_mapping f)))
  end.

(** ** Setting the coordinate system of a part of a field

    The setter of [crs], spatial/base.py:45-57, without the formatting. *)
Definition replace_system {pt} (f : field pt) (current : option crs) (c : crs) : field pt :=
  let rest := match current with Some d => dremove String.eqb (f_systems f) (c_name d) | None => f_systems f end in
  mkfield (Some (c_name c)) (dset String.eqb rest (c_name c) c) (f_grid f) (f_geom f) (f_mapping f).

Definition with_grid {pt} (f : field pt) (g : grid pt) : field pt :=
  mkfield (f_label f) (f_systems f) (Some g) (f_geom f) (f_mapping f).
Definition with_geom {pt} (f : field pt) (l : list (element pt)) : field pt :=
  mkfield (f_label f) (f_systems f) (f_grid f) (Some l) (f_mapping f).

Section Update.
Context {pt : Type}.
Variable project : attrs -> attrs -> pt -> pt.
Variable rotate : crs -> bool -> pt -> pt.
Variable cart : crs -> bool -> pt -> pt.
(** Whether longitudes are beyond 180 degrees ([wrapped_state == UNWRAPPED]), of the points
    of a grid or of the exterior of a polygon. *)
Variable unwrapped : list pt -> bool.
(** [np.ones] for the missing third coordinate, variable/crs.py:738-741. *)
Variable with_height : pt -> pt.
(** [==] on coordinate systems. *)
Variable same : crs -> crs -> bool.

(** The checks at the beginning, spatial/base.py:144-161. *)
Definition check_systems (current from_crs to_crs : option crs) : res unit :=
  match current, from_crs with
  | None, None => Err ValueError
  | _, _ => match to_crs with None => Err ValueError | Some _ => Ok tt end
  end.

(** [transform_coordinates], variable/crs.py:671-719: the longitudes are checked when they are in
    degrees and the transformation is to Cartesian coordinates. *)
Definition transform_coordinates (s : crs) (other : crs) (inverse : bool) (l : list pt) : res (list pt) :=
  if negb (is_cartesian other) then Err CRSNotEquivalenError
  else if (negb inverse && match c_kind s with KSphere true => false | _ => true end && unwrapped l)%bool then Err ValueError
  else Ok (map (cart s inverse) l).

(** [AbstractSphericalCoordinateReferenceSystem.transform_grid], variable/crs.py:754-789. *)
Definition sphere_transform_grid (s other : crs) (g : grid pt) (inverse : bool) : res (grid pt) :=
  if (negb inverse && unwrapped (g_points g))%bool then Err ValueError
  else
    match g_level g with
    | None => Err ValueError
    | Some zb =>
        do p <- transform_coordinates s other inverse (g_points g);
        do b <- match g_corners g with
                | None => Ok None
                | Some l => if zb then do l' <- transform_coordinates s other inverse l; Ok (Some l') else Err AttributeError
                end;
        Ok (mkgrid p b (g_level g) (g_x g) (g_y g) (g_z g))
    end.

(** [transform_grid] of the classes: the spherical ones, [Cartesian] (variable/crs.py:828-831),
    and none for the others, WGS84 among them. *)
Definition transform_grid (from_crs to_crs : crs) (g : grid pt) (inverse : bool) : res (grid pt) :=
  match c_kind from_crs with
  | KSphere _ | KTripole => sphere_transform_grid from_crs to_crs g inverse
  | KCartesian =>
      match c_kind to_crs with
      | KSphere _ | KTripole => sphere_transform_grid to_crs from_crs g true
      | _ => Err CRSNotEquivalenError
      end
  | _ => Err AttributeError
  end.

(** [update_with_rotated_pole_transformation], variable/crs.py:1150-1165; [grid.crs] is still
    the old coordinate system. *)
Definition rotate_grid (pole : crs) (current : option crs) (g : grid pt) (inverse : bool) : res (grid pt) :=
  match current with
  | None => Err AttributeError
  | Some c =>
      if (is_geographic c || is_rotated_pole c)%bool
      then Ok (mkgrid (map (rotate pole inverse) (g_points g)) None (g_level g) (g_x g) (g_y g) (g_z g))
      else Err AssertionError
  end.

(** The branches of [AbstractXYZSpatialContainer.update_crs], spatial/base.py:567-604: they ask
    for the class of [self.crs], not of [from_crs]. *)
Definition grid_values (current : option crs) (from_crs to_crs : crs) (g : grid pt) : res (grid pt) :=
  let cur p := match current with Some c => p c | None => false end in
  if (cur is_cartesian || is_cartesian to_crs)%bool then
    transform_grid from_crs to_crs g (negb (is_cartesian to_crs))
  else if cur is_rotated_pole then
    match c_kind from_crs with KRotated => rotate_grid from_crs current g false | _ => Err AttributeError end
  else if is_rotated_pole to_crs then rotate_grid to_crs current g true
  else
    do v <- proj4 from_crs;
    do w <- proj4 to_crs;
    Ok (mkgrid (map (project v w) (g_points g)) (option_map (map (project v w)) (g_corners g)) (g_level g)
          (g_x g) (g_y g) (g_z g)).

(** [grid.update_crs], spatial/base.py:567-609, spatial/grid.py:806-808, for the grid of a field: the
    coordinate system of the field is replaced, and its attributes are given twice (by the
    setter and at the end). *)
Definition grid_update_crs (f : field pt) (to_crs from_crs : option crs) : res (field pt) :=
  match f_grid f with
  | None => Ok f
  | Some g =>
      do current <- field_system f;
      do _ <- check_systems current from_crs to_crs;
      match (match from_crs with Some c => Some c | None => current end), to_crs with
      | Some c, Some d =>
          do g1 <- grid_values current c d g;
          do g2 <- format_grid d false g1;
          do g3 <- format_grid d true g2;
          Ok (with_grid (replace_system f current d) g3)
      | _, _ => Err ValueError
      end
  end.

(** [transform_geometry], variable/crs.py:721-752, 823-826: one polygon, of which the exterior
    is kept. *)
Definition sphere_transform_geometry (s other : crs) (l : list (element pt)) (inverse : bool) : res (list (element pt)) :=
  match l with
  | [(Some p, m)] =>
      if negb (s_polygon p) then Err AssertionError
      else if (negb inverse && unwrapped (s_points p))%bool then Err ValueError
      else
        let pts := if s_z p then s_points p else map with_height (s_points p) in
        do q <- transform_coordinates s other inverse pts;
        Ok [(Some (mkshape true q [] true), m)]
  | _ => Err AssertionError
  end.

Definition transform_geometry (from_crs to_crs : crs) (l : list (element pt)) (inverse : bool) : res (list (element pt)) :=
  match c_kind from_crs with
  | KSphere _ | KTripole => sphere_transform_geometry from_crs to_crs l inverse
  | KCartesian =>
      match c_kind to_crs with
      | KSphere _ | KTripole => sphere_transform_geometry to_crs from_crs l true
      | _ => Err CRSNotEquivalenError
      end
  | _ => Err AttributeError
  end.

(** [TransformTo] on a geometry: all of its points. *)
Definition project_shape (v w : attrs) (p : shape pt) : shape pt :=
  mkshape (s_polygon p) (map (project v w) (s_points p)) (map (map (project v w)) (s_holes p)) (s_z p).

(** The loop over the geometries, variable/geom.py:1167-1182. *)
Definition project_element (v w : attrs) (e : element pt) : res (element pt) :=
  match e with
  | (Some p, m) => Ok (Some (project_shape v w p), m)
  | (None, true) => Ok (None, true)
  | (None, false) => Err AttributeError
  end.

(** [GeometryVariable.update_crs], variable/geom.py:1131-1184. *)
Definition geom_values (from_crs to_crs : crs) (l : list (element pt)) : res (list (element pt)) :=
  if (is_cartesian from_crs || is_cartesian to_crs)%bool then
    transform_geometry from_crs to_crs l (negb (is_cartesian to_crs))
  else if same from_crs to_crs then Ok l
  else
    do w <- proj4 to_crs;
    do v <- proj4 from_crs;
    map_res (project_element v w) l.

Definition geom_update_crs (f : field pt) (to_crs from_crs : option crs) : res (field pt) :=
  match f_geom f with
  | None => Ok f
  | Some l =>
      do current <- field_system f;
      do _ <- check_systems current from_crs to_crs;
      match (match from_crs with Some c => Some c | None => current end), to_crs with
      | Some c, Some d =>
          do l' <- geom_values c d l;
          do _ <- (match c_kind d with KSphere true => Err ValueError | _ => Ok tt end);
          Ok (with_geom (replace_system f current d) l')
      | _, _ => Err ValueError
      end
  end.

(** [Field.update_crs], collection/field.py:1014-1031, for a field which is not empty. *)
Definition update_crs (f : field pt) (to_crs from_crs : option crs) : res (field pt) :=
  do from1 <- (match from_crs with Some c => Ok (Some c) | None => field_system f end);
  do f1 <- grid_update_crs f to_crs from1;
  do f2 <- geom_update_crs f1 to_crs from1;
  match to_crs with
  | Some d => Ok (mkfield (Some (c_name d)) (f_systems f2) (f_grid f2) (f_geom f2) (f_mapping f2))
  | None => Ok (mkfield None (f_systems f2) (f_grid f2) (f_geom f2) (f_mapping f2))
  end.

End Update.
