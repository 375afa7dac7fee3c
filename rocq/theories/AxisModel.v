(** Model of how the netCDF drivers read the axes of a file from its metadata:
    driver/nc.py, driver/nc_ugrid.py, and the parts of driver/base.py and
    driver/dimension_map.py that use what they find. *)
From Coq Require Import Ascii.
From Verif Require Import Py DmapModel.
Local Open Scope string_scope.
Local Open Scope Z_scope.

(** The metadata of a variable (driver/nc.py [parse_metadata]): its name, which is
    its key unless the metadata were given by the user, the names of its dimensions
    and its attributes, which may be absent in metadata given by the user.  Values
    of attributes are strings; a number is equal to no string, as an attribute that
    is absent. *)
Record vmeta := mkvmeta { m_name : string; m_dims : list string; m_attrs : option (list (string * string)) }.
Definition vmetas := list (string * vmeta).

(** [variable.get('attrs', {}).get(name)]. *)
Definition attr (v : vmeta) (name : string) : option string :=
  match m_attrs v with Some a => dget String.eqb a name | None => None end.
Definition has_attr (v : vmeta) (name value : string) : bool :=
  match attr v name with Some x => String.eqb x value | None => false end.

(** constants.py:436-454 [CFName.get_axis_mapping]. *)
Definition axis_names (axis : string) : list string :=
  if String.eqb axis "T" then ["time"]
  else if String.eqb axis "X" then ["x"; "xc"; "longitude"; "lon"]
  else if String.eqb axis "Y" then ["y"; "yc"; "latitude"; "lat"]
  else if String.eqb axis "Z" then ["z"; "zc"; "level"; "lvl"; "height"]
  else [].

(** driver/nc.py:765-772: the variables with the attribute; those without
    dimensions are passed over. *)
Definition by_attribute (ms : vmetas) (attr_name value : string) : list string :=
  map (fun kv => m_name (snd kv))
      (filter (fun kv => has_attr (snd kv) attr_name value && negb (zlen (m_dims (snd kv)) =? 0)) ms).

(** driver/nc.py:774-779: the variables with one of the usual names. *)
Definition by_name (ms : vmetas) (axis : string) : list string :=
  flat_map (fun pn => match dget String.eqb ms pn with Some v => [m_name v] | None => [] end) (axis_names axis).

(** driver/nc.py:743-800 [create_dimension_map_entry]; [value] is the value of the
    attribute, the axis itself unless the source is a dictionary. *)
Definition create_entry (axis value : string) (ms : vmetas) (strict : bool) (attr_name : string) : res (option (string * list string)) :=
  let vars := by_attribute ms attr_name value in
  let vars := if negb strict && (zlen vars =? 0) then by_name ms axis else vars in
  match vars with
  | [n] =>
      match dget String.eqb ms n with
      | None => Err KeyError
      | Some v =>
          let dims := m_dims v in
          let dims := if negb strict && (String.eqb axis "X" || String.eqb axis "Y") && (1 <? zlen dims)
                      then if String.eqb axis "Y" then firstn 1 dims else firstn 1 (skipn 1 dims)
                      else dims in
          Ok (Some (n, dims))
      end
  | _ => Ok None
  end.

(** util/helpers.py:182-192 [get_by_key_list]. *)
Fixpoint by_key_list (src : list (string * string)) (keys : list string) (found : option string) : res (option string) :=
  match keys with
  | [] => Ok found
  | k :: t => match dget String.eqb src k with
              | None => by_key_list src t found
              | Some x => match found with Some _ => Err ValueError | None => by_key_list src t (Some x) end
              end
  end.

(** driver/nc.py:319-331: the bounds of the axis [key] held by the variable [n]. *)
Definition entry_bounds (key n : string) (ms : vmetas) : res (option string) :=
  if String.eqb key "realization" then Ok None
  else match dget String.eqb ms n with
       | None => Err KeyError
       | Some v =>
           match m_attrs v with
           | None => Err KeyError
           | Some a =>
               do b <- by_key_list a ("bounds" :: if String.eqb key "time" then ["climatology"] else []) None;
               Ok (match b with Some x => if dmem String.eqb ms x then Some x else None | None => None end)
           end
       end.

(** An axis to look for: its key in the dimension map, its letter and the value of
    the attribute. *)
Record wanted := mkwanted { w_key : string; w_axis : string; w_value : string }.

(** driver/nc.py:306-332 [_create_dimension_map_entries_dict_]: all entries are
    found before any bounds are. *)
Definition entries_of (axes : list wanted) (ms : vmetas) (strict : bool) (attr_name : string)
  : res (list (string * (string * list string * option string))) :=
  do found <- map_res (fun w => do e <- create_entry (w_axis w) (w_value w) ms strict attr_name; Ok (w_key w, e)) axes;
  do bounded <- map_res (fun ke => match snd ke with
                                   | None => Ok (fst ke, None)
                                   | Some (n, dims) => do b <- entry_bounds (fst ke) n ms; Ok (fst ke, Some (n, dims, b))
                                   end) found;
  Ok (flat_map (fun ke => match snd ke with Some x => [(fst ke, x)] | None => [] end) bounded).

(** driver/nc.py:337-341 [_update_dimension_map_with_entries_]. *)
Definition update_with (entries : list (string * (string * list string * option string))) (st : storage) : res storage :=
  fold_res (fun st ke =>
    let '(n, dims, b) := snd ke in
    let '(st, r) := set_variable st (fst ke) (DName n) (Some dims) b None None false None in
    match r with Some e => Err e | None => Ok st end) entries st.

Definition time_level_axes : list wanted :=
  [mkwanted "realization" "R" "R"; mkwanted "time" "T" "T"; mkwanted "level" "Z" "Z"].
Definition horizontal_axes : list wanted := [mkwanted "x" "X" "X"; mkwanted "y" "Y" "Y"].
Definition spherical_axes : list wanted := [mkwanted "x" "X" "longitude"; mkwanted "y" "Y" "latitude"].

(** driver/nc.py:297-302: the first variable with the role of a mask. *)
Definition mask_of (ms : vmetas) : option (string * vmeta) :=
  find (fun kv => has_attr (snd kv) "ocgis_role" "spatial_mask") ms.

(** A step that changes a storage and may fail. *)
Definition settle (r : storage * option exc) : res storage :=
  match snd r with Some e => Err e | None => Ok (fst r) end.

(** driver/nc.py:282-304 and driver/base.py:152-161.  The name of the coordinate
    system variable (605-615) is given. *)
Definition abstract_map (driver : string) (crs_name : option string) (strict : bool) (ms : vmetas) : res storage :=
  do st <- settle (set_driver [] driver);
  do es <- entries_of time_level_axes ms strict "axis";
  do st <- update_with es st;
  do st <- match crs_name with None => Ok st | Some n => settle (set_crs st (Some n)) end;
  match mask_of ms with
  | None => Ok st
  | Some (k, v) => settle (set_spatial_mask st (DName k) (m_attrs v) None)
  end.

(** driver/nc.py:373-399 [DriverNetcdfCF.create_dimension_map].  [spherical] says
    that spherical coordinates replace those of a rotated pole (389-391). *)
Definition cf_map (crs_name : option string) (spherical strict : bool) (ms : vmetas) : res storage :=
  do st <- abstract_map "netcdf-cf" crs_name strict ms;
  do es <- entries_of horizontal_axes ms strict "axis";
  do st <- update_with es st;
  if spherical then do es <- entries_of spherical_axes ms strict "standard_name"; update_with es st else Ok st.

(** * Groups *)

(** The metadata of a group: variables, sizes of dimensions, groups. *)
Inductive gmeta := GMeta (vars : vmetas) (dims : list (string * Z)) (groups : list (string * gmeta)).
Definition g_vars (g : gmeta) := match g with GMeta v _ _ => v end.
Definition g_dims (g : gmeta) := match g with GMeta _ d _ => d end.
Definition g_groups (g : gmeta) := match g with GMeta _ _ s => s end.

(** driver/dimension_map.py:92-113 [from_metadata]; [f] is the driver's
    [create_dimension_map] on a group.  Maps of groups at any depth are set on the
    map of the root, [curr]. *)
Fixpoint add_groups (f : gmeta -> res storage) (curr : storage) (g : gmeta) : res storage :=
  match g with
  | GMeta _ _ groups =>
      (fix go (curr : storage) (l : list (string * gmeta)) : res storage :=
         match l with
         | [] => Ok curr
         | (name, sub) :: t =>
             do m <- f sub;
             do curr <- settle (set_group curr name (DMap m));
             do curr <- add_groups f curr sub;
             go curr t
         end) curr groups
  end.
Definition from_metadata (f : gmeta -> res storage) (g : gmeta) : res storage :=
  do m <- f g; add_groups f m g.

(** driver/dimension_map.py:216-228, 617-644 [get_group] for a sequence of names. *)
Fixpoint map_at (st : storage) (path : list string) : res storage :=
  match path with
  | [] => Ok st
  | k :: t => match dget String.eqb st "groups" with
              | Some (IGroups gs) => match dget String.eqb gs k with Some (DMap s) => map_at s t | None => Err DimensionMapError end
              | Some _ => Err TypeError
              | None => Err DimensionMapError
              end
  end.

(** util/helpers.py:1277-1306 [get_group] on metadata. *)
Fixpoint group_at (g : gmeta) (path : list string) : option gmeta :=
  match path with
  | [] => Some g
  | k :: t => match dget String.eqb (g_groups g) k with Some s => group_at s t | None => None end
  end.

(** driver/base.py:1064-1081 [iter_all_group_keys]. *)
Fixpoint all_paths (g : gmeta) : list (list string) :=
  match g with
  | GMeta _ _ groups =>
      [] :: (fix go (l : list (string * gmeta)) : list (list string) :=
               match l with
               | [] => []
               | (k, s) :: t => (map (cons k) (all_paths s) ++ go t)%list
               end) groups
  end.

(** * The distributed dimension *)

Inductive decomp := DOcgis | DEsmf.

(** What [get_variable] and [get_dimension] give, as results only. *)
Definition var_of (st : storage) (key : string) : res (option string) := snd (get_variable st key).
Definition dims_of (st : storage) (key : string) : res (list string) := snd (get_dimension st key).
Definition first_dim (st : storage) (key : string) : res string := do d <- dims_of st key; py_index d 0.

Definition truthy (o : option string) : bool := match o with Some s => negb (String.eqb s "") | None => false end.

(** driver/nc.py:425-444 [DriverNetcdfCF.get_distributed_dimension_name]; [argmax]
    takes the first of the largest. *)
Definition cf_distributed (st : storage) (sizes : list (string * Z)) (d : decomp) : res (option string) :=
  do x <- var_of st "x";
  do y <- var_of st "y";
  if truthy x && truthy y then
    do dx <- first_dim st "x";
    match d with
    | DEsmf => Ok (Some dx)
    | DOcgis =>
        do dy <- first_dim st "y";
        match dget String.eqb sizes dx, dget String.eqb sizes dy with
        | Some nx, Some ny => Ok (Some (if nx <? ny then dy else dx))
        | _, _ => Err KeyError
        end
    end
  else Ok None.

(** driver/dimension_map.py:574-589 [update_dimensions_from_metadata]. *)
Definition update_dimensions (ms : vmetas) (st : storage) : res storage :=
  fold_res (fun st k =>
    let '(st, v) := get_variable st k in
    let '(st, d) := get_dimension st k in
    do v <- v;
    do d <- d;
    match v, d with
    | Some n, [] =>
        match match dget String.eqb ms n with Some m => m_dims m | None => [] end with
        | [] => Ok st
        | ds => settle (set_variable st k (DName n) (Some ds) None None None false None)
        end
    | _, _ => Ok st
    end) ["realization"; "time"; "level"; "y"; "x"] st.

(** driver/base.py:184-229 [create_dist]: the distributed dimension of every group
    with dimensions, as [RequestDataset.dimension_map] (driver/request/core.py:321-326)
    gives the maps.  [user] is a dimension map given with the request dataset. *)
Definition distributed (crs_name : option string) (spherical : bool) (d : decomp) (user : option storage) (g : gmeta)
  : res (list (list string * option string)) :=
  do st <- match user with
           | Some st => Ok st
           | None => from_metadata (fun g => cf_map crs_name spherical false (g_vars g)) g
           end;
  do st <- update_dimensions (g_vars g) st;
  map_res (fun path =>
    match group_at g path with
    | None => Err KeyError
    | Some sub =>
        if zlen (g_dims sub) =? 0 then Ok (path, None)
        else match map_at st path with
             | Err DimensionMapError => Ok (path, None)
             | Err e => Err e
             | Ok m => do n <- cf_distributed m (g_dims sub) d; Ok (path, n)
             end
    end) (all_paths g).

(** * UGRID *)

(** [str.split(' ')]. *)
Fixpoint split_space (s : string) : list string :=
  match s with
  | EmptyString => [""]
  | String c t =>
      match split_space t with
      | [] => []
      | w :: ws => if Ascii.eqb c " "%char then "" :: w :: ws else String c w :: ws
      end
  end.

(** [dmap.get_topology(topology, create=True)] followed by changes of the map. *)
Definition on_topology (st : storage) (name : string) (f : storage -> res storage) : res storage :=
  let '(st, r) := get_topology st name true in
  do t <- r;
  match t with
  | None => Err AttributeError
  | Some (DMap s) =>
      do s' <- f s;
      match dget String.eqb st "topology" with
      | Some (ITopology ts) => Ok (dset String.eqb st "topology" (ITopology (dset String.eqb ts name (Some (DMap s')))))
      | _ => Err TypeError
      end
  end.

Definition first_dimension (ms : vmetas) (n : string) : res string :=
  match dget String.eqb ms n with None => Err KeyError | Some v => py_index (m_dims v) 0 end.

(** driver/nc_ugrid.py:135-159 [set_coordinate_dmap_variables]. *)
Fixpoint set_coordinates (ms : vmetas) (names keys : list string) (st : storage) : res storage :=
  match names with
  | [] => Ok st
  | n :: names =>
      match keys with
      | [] => Err IndexError
      | k :: keys =>
          do d <- first_dimension ms n;
          do st <- settle (set_variable st k (DName n) (Some [d]) None None None false None);
          set_coordinates ms names keys st
      end
  end.
Definition host_coordinates (host : vmeta) (target topology : string) (ms : vmetas) (st : storage) : res storage :=
  match attr host target with
  | None => Ok st
  | Some s => on_topology st topology (set_coordinates ms (split_space s) ["x"; "y"; "level"])
  end.

(** driver/nc_ugrid.py:72-79: the last variable that holds a mesh. *)
Fixpoint find_host (ms : vmetas) (host : option vmeta) (st : storage) : res (option vmeta * storage) :=
  match ms with
  | [] => Ok (host, st)
  | (_, v) :: t =>
      match m_attrs v with
      | None => Err KeyError
      | Some a =>
          if has_attr v "cf_role" "mesh_topology" then
            do st <- settle (set_variable st "attribute_host" (DName (m_name v)) None None (Some a) None false None);
            find_host t (Some v) st
          else find_host t host st
      end
  end.

(** driver/nc_ugrid.py:67-92 [DriverNetcdfUGRID.create_dimension_map]. *)
Definition ugrid_map (crs_name : option string) (strict : bool) (ms : vmetas) : res storage :=
  do st <- abstract_map "netcdf-ugrid" crs_name strict ms;
  do hs <- find_host ms None st;
  match fst hs with
  | None => Err ValueError
  | Some host =>
      do st <- host_coordinates host "face_coordinates" "point" ms (snd hs);
      do st <- host_coordinates host "node_coordinates" "polygon" ms st;
      match attr host "node_coordinates" with
      | None => Ok st
      | Some _ =>
          match attr host "face_node_connectivity" with
          | None => Err KeyError
          | Some c =>
              do d <- first_dimension ms c;
              on_topology st "polygon" (fun t => settle (set_variable t "element_node_connectivity" (DName c) (Some [d]) None None None false None))
          end
      end
  end.

(** driver/nc_ugrid.py:94-119 [get_distributed_dimension_name]: the map of the
    polygons is asked a second time where that of the points is meant. *)
Definition element_dim (st : storage) (topology : string) : res (option string) :=
  do t <- snd (get_topology st topology false);
  match t with
  | None => Ok None
  | Some (DMap s) =>
      do v <- var_of s "element_node_connectivity";
      match v with None => Ok None | Some _ => do d <- first_dim s "element_node_connectivity"; Ok (Some d) end
  end.
Definition ugrid_distributed (st : storage) : res string :=
  do r <- element_dim st "polygon";
  do r <- match r with Some d => Ok (Some d) | None => element_dim st "line" end;
  do r <- match r with
          | Some d => Ok (Some d)
          | None => do t <- snd (get_topology st "polygon" false);
                    match t with None => Ok None | Some (DMap s) => do d <- first_dim s "x"; Ok (Some d) end
          end;
  match r with Some d => Ok d | None => Err ValueError end.
