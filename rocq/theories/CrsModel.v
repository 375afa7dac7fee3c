(** Coordinate systems: reading them from the metadata of a file, writing them, making
    them from PROJ.4 dictionaries and comparing them.

    Attribute values are strings, numbers (opaque integers: nothing is computed with
    them), sequences of numbers and [None].  What GDAL and PROJ make of a dictionary of
    PROJ.4 parameters is not modelled here: a coordinate system keeps the dictionary the
    code hands to the library.  Attribute dictionaries are always present on variables
    (the code uses [.get('attrs', {})] in some places and ['attrs'] in others). *)
From Coq Require Import DecimalString.
From Verif Require Import Py.
Local Open Scope string_scope.
Local Open Scope list_scope.

Inductive aval := AStr (s : string) | ANum (z : Z) | ASeq (l : list Z) | ANone.

Definition attrs := list (string * aval).

Fixpoint zlist_eqb (a b : list Z) : bool :=
  match a, b with
  | [], [] => true
  | x :: s, y :: t => (x =? y)%Z && zlist_eqb s t
  | _, _ => false
  end.

Definition aval_eqb (a b : aval) : bool :=
  match a, b with
  | AStr x, AStr y => String.eqb x y
  | ANum x, ANum y => (x =? y)%Z
  | ASeq x, ASeq y => zlist_eqb x y
  | ANone, ANone => true
  | _, _ => false
  end.

Notation aget := (dget String.eqb).
Notation aset := (dset String.eqb).
Notation apop := (dremove String.eqb).

(** [attrs.get(key) == value] for a string value. *)
Definition attr_is (a : attrs) (k v : string) : bool :=
  match aget a k with Some (AStr s) => String.eqb s v | _ => false end.

(** A variable in the metadata of a group: its name and its attributes. *)
Record vmeta := mkvmeta { vm_name : string; vm_attrs : attrs }.
Definition metadata := list (string * vmeta).

(** * The classes with a CF grid mapping, variable/crs.py:1030-1147 *)
Inductive cfclass := Spherical | Albers | Lambert | Polar | Narccap | Rotated.

(** [itersubclasses(CFCoordinateReferenceSystem)] (util/helpers.py:820-857): the order of
    definition. *)
Definition subclasses : list cfclass := [Spherical; Albers; Lambert; Polar; Narccap; Rotated].

(** [grid_mapping_name]. *)
Definition mapping_name (k : cfclass) : string :=
  match k with
  | Spherical => "latitude_longitude"
  | Albers => "albers_conical_equal_area"
  | Lambert => "lambert_conformal_conic"
  | Polar => "polar_stereographic"
  | Narccap => "transverse_mercator"
  | Rotated => "rotated_latitude_longitude"
  end.

(** [proj_name]. *)
Definition proj_name (k : cfclass) : string :=
  match k with
  | Spherical => "longlat" | Albers => "aea" | Lambert => "lcc" | Polar => "stere" | Narccap => "omerc" | Rotated => "omerc"
  end.

(** [map_parameters], in order.  The PROJ.4 key of a rotated pole is Python's [None],
    written "None". *)
Definition map_parameters (k : cfclass) : list (string * string) :=
  match k with
  | Spherical => []
  | Albers => [("standard_parallel", "lat_"); ("longitude_of_central_meridian", "lon_0");
               ("latitude_of_projection_origin", "lat_0"); ("false_easting", "x_0"); ("false_northing", "y_0")]
  | Lambert => [("standard_parallel", "lat_"); ("longitude_of_central_meridian", "lon_0");
                ("latitude_of_projection_origin", "lat_0"); ("false_easting", "x_0"); ("false_northing", "y_0");
                ("units", "units")]
  | Polar => [("standard_parallel", "lat_ts"); ("latitude_of_projection_origin", "lat_0");
              ("straight_vertical_longitude_from_pole", "lon_0"); ("false_easting", "x_0"); ("false_northing", "y_0");
              ("scale_factor", "k_0")]
  | Narccap => [("latitude_of_projection_origin", "lat_0"); ("longitude_of_central_meridian", "lonc");
                ("scale_factor_at_central_meridian", "k_0"); ("false_easting", "x_0"); ("false_northing", "y_0");
                ("alpha", "alpha")]
  | Rotated => [("grid_north_pole_longitude", "None"); ("grid_north_pole_latitude", "None")]
  end.

(** [iterable_parameters]: the parameters read by [format_standard_parallel]. *)
Definition iterable (k : cfclass) (p : string) : bool :=
  match k with Albers | Lambert => String.eqb p "standard_parallel" | _ => false end.

(** [map_parameters_defaults]. *)
Definition map_default (k : cfclass) (p : string) : option aval :=
  match k with
  | Lambert => if (String.eqb p "false_easting" || String.eqb p "false_northing")%bool then Some (ANum 0) else None
  | _ => None
  end.

(** [_find_projection_coordinates]. *)
Definition finds_coordinates (k : cfclass) : bool := match k with Rotated => false | _ => true end.

(** [get_fuzzy_names], variable/crs.py:955-960. *)
Definition fuzzy_names (k : cfclass) : list string :=
  mapping_name k :: match k with Rotated => ["rotated_pole"; "rotated_lat_lon"] | _ => [] end.

(** ['lat_{0}'.format(i)]: the number in decimal. *)
Definition digits (n : nat) : string := NilEmpty.string_of_uint (Nat.to_uint n).

(** [format_standard_parallel], variable/crs.py:941-953: a sequence numbers its elements
    from one; a string would be numbered character by character and is taken whole here;
    [iter(None)] is a TypeError and [None] becomes the only element. *)
Definition format_parallel (pre : string) (v : aval) : list (string * aval) :=
  match v with
  | ASeq l => map (fun '(i, z) => (pre ++ digits i, ANum z)%string) (combine (seq 1 (length l)) l)
  | _ => [(pre ++ "1", v)%string]
  end.

(** A coordinate system object: [SCF k] is an instance of the class [k], [SProj4] of
    [CRS] made from the text of a PROJ.4 string. *)
Inductive sclass := SCF (k : cfclass) | SProj4 (text : string).

Record csys := mkcsys {
  cs_class : sclass;
  cs_name : string;
  cs_params : attrs;            (* [map_parameters_values] *)
  cs_value : attrs;             (* the PROJ.4 dictionary given to the library *)
  cs_px : option string;
  cs_py : option string }.

(** The loop over [map_parameters], variable/crs.py:908-918. *)
Definition add_parameter (k : cfclass) (kwds : attrs) (crs : attrs) (p : string * string) : res attrs :=
  let '(name, key) := p in
  if iterable k name then
    match aget kwds name with
    | Some v => Ok (fold_left (fun d kv => aset d (fst kv) (snd kv)) (format_parallel key v) crs)
    | None => Err KeyError
    end
  else
    match aget kwds name with
    | Some v => Ok (aset crs key v)
    | None => match map_default k name with Some v => Ok (aset crs key v) | None => Err KeyError end
    end.

Definition proj_value (k : cfclass) (kwds : attrs) : res attrs :=
  fold_res (add_parameter k kwds) (map_parameters k) [("proj", AStr (proj_name k))].

(** Parameters the constructors add when they are absent: [CFPolarStereographic.__init__]
    and [CFNarccapObliqueMercator.__init__], variable/crs.py:1107-1110, 1124-1127. *)
Definition add_absent (k : cfclass) (kwds : attrs) : attrs :=
  match k with
  | Polar => if dmem String.eqb kwds "scale_factor" then kwds else aset kwds "scale_factor" (ANum 1)
  | Narccap => if dmem String.eqb kwds "alpha" then kwds else aset kwds "alpha" (ANum 360)
  | _ => kwds
  end.

(** [CFCoordinateReferenceSystem.__init__], variable/crs.py:890-920.  The two projection
    coordinates and the name are keyword arguments of their own here; the loop over
    [check_keys] removes every key and never raises. *)
Definition cf_init (k : cfclass) (px py : option string) (name : string) (kwds0 : attrs) : res csys :=
  let kwds := add_absent k kwds0 in
  if dmem String.eqb kwds "epsg" then Err ValueError
  else do v <- proj_value k kwds; Ok (mkcsys (SCF k) name kwds v px py).

(** The radius of [Spherical()], variable/crs.py:775-782. *)
Definition default_radius : Z := 6370997.
Definition spherical_value (radius : Z) : attrs :=
  [("proj", AStr "longlat"); ("towgs84", AStr "0,0,0,0,0,0,0"); ("no_defs", AStr ""); ("a", ANum radius); ("b", ANum radius)].

(** [CFSpherical()], variable/crs.py:1036-1038. *)
Definition cf_spherical : csys :=
  mkcsys (SCF Spherical) "latitude_longitude" [] (spherical_value default_radius) None None.

(** [_get_projection_coordinate_], variable/crs.py:965-971. *)
Definition projection_coordinate (md : metadata) (key : string) : res string :=
  match find (fun '(_, v) => attr_is (vm_attrs v) "standard_name" key) md with
  | Some (n, _) => Ok n
  | None => Err ProjectionCoordinateNotFound
  end.

(** The grid mapping variable: the one named by the attribute of the variable or, when
    there is none and the search is not strict, the first variable with one of the names
    of the class (variable/crs.py:973-989).  [Ok None] stands for ProjectionDoesNotMatch
    everywhere in this file. *)
Definition grid_mapping_of (k : cfclass) (md : metadata) (strict : bool) (v : vmeta) : option vmeta :=
  match match aget (vm_attrs v) "grid_mapping" with Some (AStr g) => aget md g | _ => None end with
  | Some g => Some g
  | None =>
      if strict then None
      else match find (fun '(_, w) => existsb (String.eqb (vm_name w)) (fuzzy_names k)) md with
           | Some (_, w) => Some w
           | None => None
           end
  end.

(** [CFCoordinateReferenceSystem.load_from_metadata], variable/crs.py:962-1014, with
    [CFLambertConformal._load_from_metadata_finalize_], 1086-1088. *)
Definition load_cf (k : cfclass) (md : metadata) (strict : bool) (var : string) : res (option csys) :=
  match aget md var with
  | None => Err KeyError
  | Some v =>
      match grid_mapping_of k md strict v with
      | None => Ok None
      | Some g =>
          if attr_is (vm_attrs g) "grid_mapping_name" (mapping_name k) then
            do pxy <- (if finds_coordinates k then
                         do x <- projection_coordinate md "projection_x_coordinate";
                         do y <- projection_coordinate md "projection_y_coordinate";
                         Ok (Some x, Some y)
                       else Ok (None, None));
            let kwds := apop (vm_attrs g) "grid_mapping_name" in
            do kwds' <- match k, fst pxy with
                        | Lambert, Some x =>
                            match aget md x with
                            | Some xv => Ok (aset kwds "units" (match aget (vm_attrs xv) "units" with Some u => u | None => ANone end))
                            | None => Err KeyError
                            end
                        | _, _ => Ok kwds
                        end;
            do c <- cf_init k (fst pxy) (snd pxy) (vm_name g) kwds';
            Ok (Some c)
          else Ok None
      end
  end.

(** [CFSpherical.load_from_metadata], variable/crs.py:1040-1068, at depth one. *)
Definition load_spherical1 (md : metadata) (var : string) : res (option csys) :=
  match aget md var with
  | None => Err KeyError
  | Some v =>
      if (attr_is (vm_attrs v) "grid_mapping" "latitude_longitude"
          || attr_is (vm_attrs v) "grid_mapping_name" "latitude_longitude")%bool
      then Ok (Some cf_spherical) else Ok None
  end.

Definition with_standard_name (md : metadata) (s : string) : list string :=
  map fst (filter (fun '(_, v) => attr_is (vm_attrs v) "standard_name" s) md).

(** The same method at depth two, which does not look at [var]. *)
Definition load_spherical2 (md : metadata) : option csys :=
  if ((length (with_standard_name md "longitude") =? 1)%nat && (length (with_standard_name md "latitude") =? 1)%nat)%bool
  then Some cf_spherical else None.

Definition load_class (k : cfclass) (md : metadata) (var : string) : res (option csys) :=
  match k with Spherical => load_spherical1 md var | _ => load_cf k md false var end.

(** [for potential in itersubclasses(...)]: the first class which matches. *)
Fixpoint first_class (ks : list cfclass) (md : metadata) (var : string) : res (option csys) :=
  match ks with
  | [] => Ok None
  | k :: t => do o <- load_class k md var; match o with Some c => Ok (Some c) | None => first_class t md var end
  end.

(** [AbstractProj4CRS.load_from_metadata], variable/crs.py:424-448: the variables with the
    role of a coordinate system and a PROJ.4 string. *)
Definition proj4_names (md : metadata) : list (string * string * string) :=
  flat_map (fun '(k, v) =>
    if attr_is (vm_attrs v) "ocgis_role" "coordinate_system" then
      match aget (vm_attrs v) "proj4" with Some (AStr t) => [(k, vm_name v, t)] | _ => [] end
    else []) md.

Definition load_proj4 (md : metadata) : res (option csys) :=
  match proj4_names md with
  | [] => Ok None
  | [(_, n, t)] => Ok (Some (mkcsys (SProj4 t) n [] [] None None))
  | _ => Err ValueError
  end.

Definition is_rotated (c : option csys) : bool :=
  match c with Some c => match cs_class c with SCF Rotated => true | _ => false end | None => false end.

(** [get_crs_variable], driver/nc.py:700-742.  The only caller gives no [to_search]. *)
Definition found_all (md : metadata) : res (list csys) :=
  do l <- map_res (fun '(n, _) => first_class subclasses md n) md;
  Ok (flat_map (fun o => match o with Some c => [c] | None => [] end) l).

Definition get_crs_variable (md : metadata) (rotated_priority : bool) : res (option csys) :=
  do found <- found_all md;
  do crs <- (match found with
             | [] => Ok None
             | c :: t => if existsb (fun d => negb (String.eqb (cs_name d) (cs_name c))) t then Err ValueError else Ok (Some c)
             end);
  let crs' := if (negb rotated_priority && is_rotated crs)%bool
              then match load_spherical2 md with Some c => Some c | None => crs end
              else crs in
  match crs' with
  | Some c => Ok (Some c)
  | None => load_proj4 md
  end.

(** [AbstractDriver.get_crs], driver/base.py:142-150, with the default of the class. *)
Definition get_crs (default : option csys) (md : metadata) (rotated_priority : bool) : res (option csys) :=
  do c <- get_crs_variable md rotated_priority;
  Ok (match c with Some c => Some c | None => default end).

(** What a request says about its coordinate system (driver/request/core.py:183, 211):
    'auto', or an object, or [None] for no coordinate system. *)
Inductive asked := Auto | Given (c : option csys).

(** The coordinate system of the field made for a request, driver/base.py:258-284, and
    [RequestDataset.crs], driver/request/core.py:284-290.  The metadata are searched in
    both cases, so that their errors are raised in both. *)
Definition field_crs (a : asked) (default : option csys) (md : metadata) (rotated_priority : bool) : res (option csys) :=
  do c <- get_crs default md rotated_priority;
  Ok (match a with Given g => g | Auto => c end).

Definition request_crs (a : asked) (default : option csys) (md : metadata) (rotated_priority : bool) : res (option csys) :=
  match a with Given g => Ok g | Auto => get_crs default md rotated_priority end.

(** * Writing *)

(** The kinds of objects which are written: instances of the CF classes, of [Spherical]
    with some radius, and of the other PROJ.4 classes with the text of their string. *)
Inductive wsys := WCF (c : csys) | WSpherical (radius : Z) (text : string) | WProj4 (name text : string).

Definition w_name (w : wsys) : string :=
  match w with WCF c => cs_name c | WSpherical _ _ => "latitude_longitude" | WProj4 n _ => n end.

(** [v = ''] for [None], variable/crs.py:1024-1027. *)
Definition blank_none (v : aval) : aval := match v with ANone => AStr "" | _ => v end.

(** [write_to_rootgrp], variable/crs.py:617-632, 1021-1028, 1167-1178: the attributes of the
    variable in the file.  The text of the transformation of a rotated pole is not
    modelled: only whether it is written. *)
Definition base_attrs (with_proj4 : bool) (text : string) : attrs :=
  if with_proj4 then [("proj4", AStr text); ("ocgis_role", AStr "coordinate_system")] else [].

Definition cf_mapping_attrs (k : cfclass) (c : csys) (a : attrs) : attrs :=
  fold_left (fun d kv => aset d (fst kv) (blank_none (snd kv))) (cs_params c) (aset a "grid_mapping_name" (AStr (mapping_name k))).

Definition write_to_rootgrp (w : wsys) (with_proj4 : option bool) (text : csys -> string) : attrs :=
  match w with
  | WProj4 _ t | WSpherical _ t => base_attrs (match with_proj4 with Some b => b | None => true end) t
  | WCF c =>
      let b := match with_proj4 with Some b => b | None => false end in
      match cs_class c with
      | SCF Rotated =>
          let a := cf_mapping_attrs Rotated c (base_attrs b (text c)) in
          if b then aset (aset a "proj4" (AStr "")) "proj4_transform" (AStr (text c)) else a
      | SCF k => cf_mapping_attrs k c (base_attrs b (text c))
      | SProj4 t => base_attrs b t
      end
  end.

(** [write], variable/crs.py:634-649: the keyword is removed from the arguments before
    they are passed on. *)
Definition write_crs (w : wsys) (with_proj4 : option bool) (text : csys -> string) : string * attrs :=
  (w_name w,
   match with_proj4 with
   | Some _ => write_to_rootgrp w None text
   | None => write_to_rootgrp w None text
   end).

(** * Making coordinate systems from dictionaries

    [CoordinateReferenceSystem.__init__], variable/crs.py:471-522, and [create_crs],
    1180-1208.  The result is what is handed to the library: a dictionary, a PROJ.4
    string or an EPSG code. *)
Inductive made := FromValue (d : attrs) | FromText (t : string) | FromCode (n : Z).

Definition starts_epsg (s : string) : bool := String.prefix "epsg" s.

(** [int(s.split(':')[1])]: the parameter [code] reads the number after the first colon
    ([None] is a missing or malformed number). *)
Definition wgs84_value : attrs :=
  [("no_defs", AStr "True"); ("datum", AStr "WGS84"); ("proj", AStr "longlat"); ("towgs84", AStr "0,0,0,0,0,0,0")].

Definition crs_init (code : string -> option Z) (value : option attrs) (proj4 : option string) (epsg : option Z) : res made :=
  let value1 := match epsg with Some 4326 => Some wgs84_value | _ => value end in
  do ve <- (match value1 with
            | Some d =>
                if dmem String.eqb d "init" then
                  match d with
                  | (_, AStr s) :: _ =>
                      if starts_epsg s then match code s with Some n => Ok (None, Some n) | None => Err ValueError end
                      else Ok (Some d, epsg)
                  | _ => Err AttributeError
                  end
                else Ok (Some d, epsg)
            | None => Ok (None, epsg)
            end);
  let '(v, e) := ve in
  match v with
  | Some d => Ok (FromValue d)
  | None =>
      match proj4, e with
      | Some t, _ => Ok (FromText t)
      | None, Some n => Ok (FromCode n)
      | None, None => Err ValueError
      end
  end.

(** [fuzzy_check], variable/crs.py:153-181. *)
Definition fuzzy_check (req : attrs) (default_towgs84 : aval) (value : attrs) : bool :=
  (forallb (fun '(k, v) => match aget value k with Some w => aval_eqb v w | None => false end) req
   && match aget value "towgs84" with Some t => aval_eqb t default_towgs84 | None => true end)%bool.

Definition fuzzy_spherical : attrs -> bool :=
  fuzzy_check [("a", ANum 6370997); ("b", ANum 6370997); ("proj", AStr "longlat")] (AStr "0,0,0,0,0,0,0").
Definition fuzzy_wgs84 : attrs -> bool :=
  fuzzy_check [("datum", AStr "WGS84"); ("proj", AStr "longlat")] (AStr "0,0,0,0,0,0,0").

(** [create_crs(value, name=...)]: a [Spherical], a [WGS84], or a general system with the
    name asked for. *)
Inductive created := MadeSpherical | MadeWgs84 | MadeOther (m : made) (name : string).

Definition create_crs (code : string -> option Z) (value : option attrs) (name : option string) : res (option created) :=
  match value with
  | None => Ok None
  | Some d =>
      match fuzzy_spherical d, fuzzy_wgs84 d with
      | true, true => Err ValueError
      | true, false => Ok (Some MadeSpherical)
      | false, true => Ok (Some MadeWgs84)
      | false, false =>
          do m <- crs_init code (Some d) None None;
          Ok (Some (MadeOther m (match name with Some n => n | None => "ocgis_coordinate_system" end)))
      end
  end.

(** * Equality, variable/crs.py:524-547, 869-877

    [same] is [SpatialReference.IsSame] on the dictionaries of the two systems.  [deq] is
    the comparison of dictionaries.  Objects have an identity, used by the classes which
    define no comparison of their own. *)
Inductive ecls :=
| EBase                                  (* CoordinateReferenceSystem itself *)
| EGeneral                               (* CRS and the CF classes *)
| ESpherical (radians : bool)
| EWgs84.
Inductive eobj :=
| EProj (c : ecls) (value : attrs)       (* a PROJ.4 system *)
| EPlain (id : nat)                      (* Cartesian or Tripole *)
| EOther.                                (* None, a string, ... *)

Definition deq (a b : attrs) : bool :=
  ((length a =? length b)%nat &&
   forallb (fun '(k, v) => match aget b k with Some w => aval_eqb v w | None => false end) a)%bool.

(** [CoordinateReferenceSystem.__eq__]. *)
Definition base_eq (same : attrs -> attrs -> bool) (v : attrs) (o : eobj) : bool :=
  match o with
  | EProj _ w => (same v w || deq v w || deq (apop v "wktext") (apop w "wktext"))%bool
  | EPlain _ | EOther => false
  end.

(** [WGS84.__eq__]. *)
Definition wgs84_plain : attrs := [("proj", AStr "longlat"); ("datum", AStr "WGS84"); ("no_defs", AStr "True")].

Definition wgs_eq (same : attrs -> attrs -> bool) (v : attrs) (o : eobj) : bool :=
  (base_eq same v o || match o with EProj _ w => deq w wgs84_plain | _ => false end)%bool.

Definition method_eq (same : attrs -> attrs -> bool) (c : ecls) (v : attrs) (o : eobj) : bool :=
  match c with EWgs84 => wgs_eq same v o | _ => base_eq same v o end.

(** [a == b].  Objects of the PROJ.4 classes compare by the method of the left operand,
    except that Python tries the right one first when its class is a subclass of the class
    of the left one; an object without a method of its own compares by identity and,
    failing that, by the method of the right operand. *)
Definition py_eq (same : attrs -> attrs -> bool) (a b : eobj) : bool :=
  match a, b with
  | EProj EBase v, EProj EBase _ => base_eq same v b
  | EProj EBase _, EProj c w => method_eq same c w a
  | EProj c v, _ => method_eq same c v b
  | _, EProj c v => method_eq same c v a
  | EPlain i, EPlain j => (i =? j)%nat
  | EOther, EOther => true
  | _, _ => false
  end.

(** [a != b]: the method of the classes, or the negation of the default. *)
Definition py_ne (same : attrs -> attrs -> bool) (a b : eobj) : bool := negb (py_eq same a b).
