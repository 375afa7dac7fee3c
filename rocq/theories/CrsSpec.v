(** What the coordinate system properties say, without the functions of the model. *)
From Verif Require Import Py CrsModel.
Local Open Scope string_scope.
Local Open Scope list_scope.

(** The attribute [k] is the text [s]. *)
Definition says (a : attrs) (k s : string) : Prop := aget a k = Some (AStr s).
Definition present (a : attrs) (k : string) : Prop := exists v, aget a k = Some v.

(** Variables have different names, and are listed under them. *)
Definition names_ok (md : metadata) : Prop :=
  NoDup (map fst md) /\ forall n v, In (n, v) md -> vm_name v = n.

(** The names by which the code recognises grid mapping variables. *)
Definition cf_names : list string :=
  ["latitude_longitude"; "albers_conical_equal_area"; "lambert_conformal_conic"; "polar_stereographic";
   "transverse_mercator"; "rotated_latitude_longitude"; "rotated_pole"; "rotated_lat_lon"].

(** The CF name of each projection. *)
Definition cf_grid_mapping (k : cfclass) (s : string) : Prop :=
  match k with
  | Spherical => s = "latitude_longitude"
  | Albers => s = "albers_conical_equal_area"
  | Lambert => s = "lambert_conformal_conic"
  | Polar => s = "polar_stereographic"
  | Narccap => s = "transverse_mercator"
  | Rotated => s = "rotated_latitude_longitude"
  end.

(** A data variable refers to the grid mapping variable [g]. *)
Definition refers (md : metadata) (g : string) : Prop :=
  exists n v, In (n, v) md /\ says (vm_attrs v) "grid_mapping" g.

(** [g], of the class [k], is the only grid mapping of the file: some variable refers to
    it, no variable refers to another one, and no other variable looks like one. *)
Record only_mapping (md : metadata) (k : cfclass) (g : string) (a : attrs) : Prop := {
  om_names : names_ok md;
  om_here : In (g, mkvmeta g a) md;
  om_class : exists s, cf_grid_mapping k s /\ says a "grid_mapping_name" s;
  om_used : refers md g;
  om_not_ll : g <> "latitude_longitude";
  om_only : forall h, refers md h -> h = g;
  om_no_ll : forall n v, In (n, v) md -> ~ says (vm_attrs v) "grid_mapping_name" "latitude_longitude";
  om_alone : forall n v, In (n, v) md -> In n cf_names -> n = g }.

(** The one variable with a standard name. *)
Definition the_coordinate (md : metadata) (key n : string) : Prop :=
  (exists v, In (n, v) md /\ says (vm_attrs v) "standard_name" key) /\
  forall m w, In (m, w) md -> says (vm_attrs w) "standard_name" key -> m = n.

(** The attributes a projection cannot do without, as this package reads it. *)
Definition required (k : cfclass) : list string :=
  match k with
  | Spherical => []
  | Albers => ["standard_parallel"; "longitude_of_central_meridian"; "latitude_of_projection_origin";
               "false_easting"; "false_northing"]
  | Lambert => ["standard_parallel"; "longitude_of_central_meridian"; "latitude_of_projection_origin"]
  | Polar => ["standard_parallel"; "latitude_of_projection_origin"; "straight_vertical_longitude_from_pole";
              "false_easting"; "false_northing"]
  | Narccap => ["latitude_of_projection_origin"; "longitude_of_central_meridian"; "scale_factor_at_central_meridian";
                "false_easting"; "false_northing"]
  | Rotated => ["grid_north_pole_longitude"; "grid_north_pole_latitude"]
  end.

(** The PROJ.4 parameter for each CF attribute which is one number. *)
Definition proj_key (k : cfclass) : list (string * string) :=
  match k with
  | Albers | Lambert => [("longitude_of_central_meridian", "lon_0"); ("latitude_of_projection_origin", "lat_0");
                         ("false_easting", "x_0"); ("false_northing", "y_0")]
  | Polar => [("standard_parallel", "lat_ts"); ("latitude_of_projection_origin", "lat_0");
              ("straight_vertical_longitude_from_pole", "lon_0"); ("false_easting", "x_0"); ("false_northing", "y_0")]
  | Narccap => [("latitude_of_projection_origin", "lat_0"); ("longitude_of_central_meridian", "lonc");
                ("scale_factor_at_central_meridian", "k_0"); ("false_easting", "x_0"); ("false_northing", "y_0")]
  | Spherical | Rotated => []
  end.

(** The PROJ.4 name of each projection, as this package reads it. *)
Definition projection (k : cfclass) : string :=
  match k with
  | Spherical => "longlat" | Albers => "aea" | Lambert => "lcc" | Polar => "stere" | Narccap | Rotated => "omerc"
  end.

(** Attributes which describe the shape of the Earth in the CF conventions. *)
Definition earth_attributes : list string :=
  ["earth_radius"; "semi_major_axis"; "semi_minor_axis"; "inverse_flattening"; "longitude_of_prime_meridian";
   "horizontal_datum_name"; "reference_ellipsoid_name"].

(** The two horizontal coordinates of a projection are found. *)
Definition coordinates (md : metadata) (k : cfclass) (px py : option string) : Prop :=
  match k with
  | Rotated => px = None /\ py = None
  | _ => exists x y, px = Some x /\ py = Some y /\
           the_coordinate md "projection_x_coordinate" x /\ the_coordinate md "projection_y_coordinate" y
  end.

(** The units of a coordinate variable, [ANone] when it has none. *)
Definition units_of (md : metadata) (x : option string) (u : aval) : Prop :=
  exists n v, x = Some n /\ In (n, v) md /\
    (aget (vm_attrs v) "units" = Some u \/ (aget (vm_attrs v) "units" = None /\ u = ANone)).

(** No variable is a CF grid mapping or refers to one by its conventional name. *)
Definition no_mapping (md : metadata) : Prop :=
  forall n v, In (n, v) md ->
    ~ present (vm_attrs v) "grid_mapping_name" /\ ~ says (vm_attrs v) "grid_mapping" "latitude_longitude".

(** A variable holding a PROJ.4 string written by this package. *)
Definition proj4_variable (v : vmeta) (t : string) : Prop :=
  says (vm_attrs v) "ocgis_role" "coordinate_system" /\ says (vm_attrs v) "proj4" t.

(** An equivalence relation given by a function. *)
Definition equivalence {A} (r : A -> A -> bool) : Prop :=
  (forall a, r a a = true) /\ (forall a b, r a b = r b a) /\
  (forall a b c, r a b = true -> r b c = true -> r a c = true).
