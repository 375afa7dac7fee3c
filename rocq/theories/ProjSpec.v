(** What the transformation properties say: places on the Earth, and libraries which keep
    them. *)
From Verif Require Import Py CrsModel CrsSpec ProjModel.
Local Open Scope string_scope.
Local Open Scope list_scope.

(** Coordinate systems which the projection libraries know. *)
Definition ordinary (c : crs) : Prop :=
  match c_kind c with KGeneral _ | KWgs84 | KSphere _ => True | _ => False end.
Definition spherical (c : crs) : Prop := match c_kind c with KSphere _ | KTripole => True | _ => False end.

(** Spheres measured in radians are refused as destinations. *)
Definition in_degrees (c : crs) : Prop := c_kind c <> KSphere true.

(** [dec c p] is the place which the coordinates [p] mean in the system [c].  The libraries
    are right when they keep it: the projection libraries between ordinary systems, the
    program for rotated poles between the pole and longitudes and latitudes, the formulas
    for spheres between the sphere and Cartesian coordinates. *)
Record right_libraries {pt place} (dec : crs -> pt -> place) (lonlat : crs)
  (project : attrs -> attrs -> pt -> pt) (rotate cart : crs -> bool -> pt -> pt) : Prop := {
  ok_project : forall c d p, ordinary c -> ordinary d -> dec d (project (c_value c) (c_value d) p) = dec c p;
  ok_unrotate : forall r p, c_kind r = KRotated -> dec lonlat (rotate r false p) = dec r p;
  ok_rotate : forall r p, c_kind r = KRotated -> dec r (rotate r true p) = dec lonlat p;
  ok_cart : forall s c p, spherical s -> c_kind c = KCartesian -> dec c (cart s false p) = dec s p;
  ok_uncart : forall s c p, spherical s -> c_kind c = KCartesian -> dec s (cart s true p) = dec c p }.

(** The places of a geometry, with its structure. *)
Definition shape_places {pt place} (m : pt -> place) (s : shape pt) : bool * list place * list (list place) :=
  (s_polygon s, map m (s_points s), map (map m) (s_holes s)).
Definition element_places {pt place} (m : pt -> place) (e : element pt) :=
  (option_map (shape_places m) (fst e), snd e).

(** The places of the parts of a field in the system [c]. *)
Definition point_places {pt place} (m : pt -> place) (f : field pt) : option (list place) :=
  option_map (fun g => map m (g_points g)) (f_grid f).
Definition corner_places {pt place} (m : pt -> place) (f : field pt) : option (option (list place)) :=
  option_map (fun g => option_map (map m) (g_corners g)) (f_grid f).
Definition geom_places {pt place} (m : pt -> place) (f : field pt) : option (list (option (bool * list place * list (list place)) * bool)) :=
  option_map (map (element_places m)) (f_geom f).

(** Elements without geometry are masked. *)
Definition masked_gaps {pt} (f : field pt) : Prop :=
  forall l m, f_geom f = Some l -> In (None, m) l -> m = true.

(** The field is in the system [c]. *)
Definition is_in {pt} (f : field pt) (c : crs) : Prop := field_system f = Ok (Some c).

(** ** Attributes *)

(** No attribute occurs twice. *)
Definition attributes_once {pt} (g : grid pt) : Prop :=
  NoDup (map fst (g_x g)) /\ NoDup (map fst (g_y g)) /\ NoDup (map fst (g_z g)).

(** A system of longitudes and latitudes: a sphere, a tripole grid or WGS84. *)
Definition lonlat (c : crs) : Prop := match c_kind c with KSphere _ | KTripole | KWgs84 => True | _ => False end.

(** [update_crs] to [d] succeeds on a field whose grid is [g], which is [g'] afterwards. *)
Definition transforms {pt} project rotate cart unwrapped with_height same (f : field pt) (d : crs) (from : option crs) (g g' : grid pt) : Prop :=
  exists f', update_crs project rotate cart unwrapped with_height same f (Some d) from = Ok f' /\ f_grid f = Some g /\ f_grid f' = Some g'.
