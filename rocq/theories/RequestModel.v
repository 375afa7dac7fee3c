(** * Requests for datasets: choice of the driver, search for files, names of
      variables and requests made of several datasets.

    Sources: src/ocgis/driver/request/core.py, src/ocgis/driver/request/multi_request.py,
    src/ocgis/driver/registry.py, src/ocgis/driver/base.py, src/ocgis/driver/nc.py and
    src/ocgis/util/helpers.py. *)
From Verif Require Import Py.
From Coq Require Import String Ascii Bool List ZArith.
Import ListNotations.
Local Open Scope string_scope.
Local Open Scope list_scope.

(** ** Choice of the driver *)

(** The registered drivers, registry.py:19-25. *)
Inductive driver := CSV | NETCDF | NETCDF_CF | VECTOR | UGRID | ESMF | SCRIP.

(** driver_registry.drivers in the order of registration, registry.py:18-25. *)
Definition registry : list driver := [CSV; NETCDF; NETCDF_CF; VECTOR; UGRID; ESMF; SCRIP].

Definition driver_eqb (a b : driver) : bool :=
  match a, b with
  | CSV, CSV | NETCDF, NETCDF | NETCDF_CF, NETCDF_CF | VECTOR, VECTOR | UGRID, UGRID
  | ESMF, ESMF | SCRIP, SCRIP => true
  | _, _ => false
  end.

(** The [key] of each driver, constants.py:389-397 and the driver classes. *)
Definition driver_key (d : driver) : string :=
  match d with
  | CSV => "csv" | NETCDF => "netcdf" | NETCDF_CF => "netcdf-cf" | VECTOR => "vector"
  | UGRID => "netcdf-ugrid" | ESMF => "netcdf-esmf-unstruct" | SCRIP => "netcdf-scrip"
  end.

(** The two forms of regular expression used for [extensions]: ['.*\.ext'] and
    ['http.*']. *)
Inductive pattern := AnyThen (lit : string) | StartsWith (lit : string).

(** [extensions], csv_.py:14, nc.py:39 (inherited by the classes of nc.py,
    nc_ugrid.py, nc_esmf_unstruct.py and nc_scrip.py), vector.py:29. *)
Definition extensions (d : driver) : list pattern :=
  match d with
  | CSV => [AnyThen ".csv"]
  | VECTOR => [AnyThen ".shp"]
  | NETCDF | NETCDF_CF | UGRID | ESMF | SCRIP => [AnyThen ".nc"; StartsWith "http"]
  end.

(** [_priority], base.py:43, nc.py:351, nc_ugrid.py:15, nc_esmf_unstruct.py:15. *)
Definition priority (d : driver) : bool :=
  match d with NETCDF_CF => true | _ => false end.

Definition newline : ascii := Ascii.ascii_of_nat 10.

(** [re.match('.*' + escaped literal, s)]: the match starts at the beginning of
    the string, need not reach its end, and a dot matches no line break. *)
Fixpoint re_any_then (lit s : string) : bool :=
  String.prefix lit s ||
  match s with
  | EmptyString => false
  | String c r => negb (Ascii.eqb c newline) && re_any_then lit r
  end.

(** [re.match(pattern, element) is not None], core.py:582. *)
Definition re_match (p : pattern) (s : string) : bool :=
  match p with
  | AnyThen lit => re_any_then lit s
  | StartsWith lit => String.prefix lit s
  end.

(** The loops of [get_autodiscovered_driver], core.py:578-583: a driver is added
    once for every pattern it matches. *)
Definition possible (uris : list string) : list driver :=
  flat_map (fun element =>
    flat_map (fun d =>
      flat_map (fun p => if re_match p element then [d] else []) (extensions d)) registry) uris.

(** [set(keys)]: one of each. *)
Fixpoint distinct (l : list driver) : list driver :=
  match l with
  | [] => []
  | d :: t => if existsb (driver_eqb d) t then distinct t else d :: distinct t
  end.

(** [get_autodiscovered_driver(uri)], core.py:570-605. *)
Definition discover (uris : list string) : res driver :=
  match possible uris with
  | [] => Err RequestValidationError
  | [d] => Ok d
  | ds =>
      let sub := filter priority ds in
      match distinct sub, sub with
      | [_], d :: _ => Ok d
      | _, _ => Err RequestValidationError
      end
  end.

(** The [driver] argument of a request: a key, a driver class of the registry, or
    a class that is not registered. *)
Inductive darg := DKey (k : string) | DClass (d : driver) | DOther.

(** What [get_driver] may return: a registered class or [AbstractDriver]. *)
Inductive dclass := Registered (d : driver) | AbstractBase.

(** The loop over the registry in [get_driver_class], registry.py:41-50: the last
    match stays. *)
Definition registry_find (a : darg) : option driver :=
  fold_left (fun ret d =>
    match a with
    | DClass c => if driver_eqb c d then Some c else ret
    | DKey k => if String.eqb (driver_key d) k then Some d else ret
    | DOther => ret
    end) registry None.

(** [get_driver_class(key_class_or_instance, default)], registry.py:28-59; an
    absent default is [None]. *)
Definition get_driver_class (a : darg) (default : option string) : res dclass :=
  match a with
  | DKey "base" => Ok AbstractBase
  | _ =>
      match registry_find a with
      | Some d => Ok (Registered d)
      | None =>
          match default with
          | None => Err ValueError
          | Some k =>
              match registry_find (DKey k) with
              | Some d => Ok (Registered d)
              | None => Err ValueError
              end
          end
      end
  end.

(** [get_driver(driver)], core.py:608-609, with [DEFAULT_DRIVER] of constants.py:545. *)
Definition get_driver (a : darg) : res dclass := get_driver_class a (Some "netcdf-cf").

(** ** Search for files *)

(** A directory as [os.walk] sees it: the names of its files, and its
    subdirectories with their names, in the order of the listing. *)
Inductive dir := Dir (files : list string) (subs : list (string * dir)).

(** [os.path.join(path, name)] for a name that is not absolute. *)
Definition join (path name : string) : string := path ++ "/" ++ name.

(** [os.walk(top)], from the top down: each directory with its files, then its
    subdirectories in order (helpers.py:910). *)
Fixpoint walk (path : string) (d : dir) {struct d} : list (string * list string) :=
  match d with
  | Dir files subs =>
      (path, files) ::
      (fix go (l : list (string * dir)) : list (string * list string) :=
         match l with
         | [] => []
         | (n, c) :: t => walk (join path n) c ++ go t
         end) subs
  end.

(** [locate(pattern, root)], helpers.py:905-912. *)
Definition locate (pattern : string) (root : string * dir) : list string :=
  flat_map (fun row => map (join (fst row)) (filter (fun x => String.eqb x pattern) (snd row)))
    (walk (fst root) (snd root)).

(** ['://' in uri]. *)
Fixpoint contains (lit s : string) : bool :=
  String.prefix lit s ||
  match s with EmptyString => false | String _ r => contains lit r end.

(** The loop over the directories, core.py:627-630: [break] leaves the inner loop
    only, so that every directory may replace what another has given. *)
Definition search (uri : string) (dirs : list (string * dir)) : option string :=
  fold_left (fun ret root =>
    match locate uri root with [] => ret | f :: _ => Some f end) dirs None.

(** The body of the loop of [get_uri], core.py:618-644. [known] is
    [os.path.exists]; [dirs] holds the directories of env.DIR_DATA, empty when it
    is not set. *)
Definition get_one_uri (known : string -> bool) (dirs : list (string * dir))
  (ignore_errors : bool) (uri : string) : res (option string) :=
  if known uri || contains "://" uri then Ok (Some uri)
  else
    match search uri dirs with
    | None => if ignore_errors then Ok None else Err ValueError
    | Some f => if negb (known f) && negb ignore_errors then Err ValueError else Ok (Some f)
    end.

(** [get_uri(uri, ignore_errors)], core.py:612-646, for a sequence of URIs. *)
Definition get_uri (known : string -> bool) (dirs : list (string * dir))
  (ignore_errors : bool) (uris : list string) : res (list (option string)) :=
  match uris with
  | [] => Err AssertionError
  | _ => map_res (get_one_uri known dirs ignore_errors) uris
  end.

(** ** Names of variables *)

(** The metadata of one variable: its name in the field, its dimensions, its units
    and the units to conform to. *)
Record vmeta := mkvm { vm_name : string; vm_dims : list string;
                       vm_units : option string; vm_conform : option string }.

(** [metadata['variables']], by the name in the file. *)
Definition meta := list (string * vmeta).

(** A request dataset: the metadata of the source, the dimensions of the time, X
    and Y axes in its dimension map (if the axis is there), the arguments
    [variable] and [rename_variable], and whether [metadata] was given. *)
Record rd := mkrd { r_meta : meta; r_time : option (list string); r_x : option (list string);
                    r_y : option (list string); r_variable : option (list string);
                    r_rename : option (list string); r_field_name : option string;
                    r_given : bool }.

(** [get_first_or_tuple], core.py:541-546. A single element and a one-element
    sequence are not told apart here, since [get_iter] and [get_tuple] give the
    same elements for both. *)
Definition first_or_tuple {A} (l : list A) : res (list A) :=
  match l with [] => Err IndexError | _ => Ok l end.

(** [set(a).intersection(set(b))], without repetitions. *)
Fixpoint undup (l : list string) : list string :=
  match l with
  | [] => []
  | x :: t => if existsb (String.eqb x) t then undup t else x :: undup t
  end.

(** [DriverNetcdfCF.get_data_variable_names], nc.py:402-423. *)
Definition data_variable_names (r : rd) (m : meta) : list string :=
  match r_time r, r_x r, r_y r with
  | Some t, Some x, Some y =>
      let needed := undup (t ++ x ++ y) in
      map fst (filter (fun kv =>
        Nat.eqb (List.length (filter (fun d => existsb (String.eqb d) (vm_dims (snd kv))) needed)) 3) m)
  | _, _, _ => []
  end.

(** [RequestDataset.variable] for the metadata [m], core.py:455-470. *)
Definition variable_of (r : rd) (m : meta) : res (list string) :=
  do ret <- match r_variable r with
            | None => Ok (data_variable_names r m)
            | Some l => if forallb (dmem String.eqb m) l then Ok l else Err VariableNotFoundError
            end;
  match first_or_tuple ret with Ok l => Ok l | Err _ => Err NoDataVariablesFound end.

(** [RequestDataset.rename_variable], core.py:391-396. *)
Definition rename_of (r : rd) (m : meta) : res (list string) :=
  match r_rename r with
  | None => variable_of r m
  | Some l => first_or_tuple l
  end.

(** [RequestDataset.rename_variable_map], core.py:399-403: [zip] stops with the
    shorter of the two. *)
Definition rename_map (r : rd) (m : meta) : res (list (string * string)) :=
  do vs <- variable_of r m;
  do ns <- rename_of r m;
  Ok (fold_left (fun d vn => dset String.eqb d (fst vn) (snd vn)) (combine vs ns) []).

Definition set_name (m : meta) (k n : string) : res meta :=
  match dget String.eqb m k with
  | None => Err KeyError
  | Some v => Ok (dset String.eqb m k (mkvm n (vm_dims v) (vm_units v) (vm_conform v)))
  end.

(** [RequestDataset.metadata], core.py:373-381: names are changed only when the
    metadata comes from the driver. *)
Definition metadata_of (r : rd) : res meta :=
  if r_given r then Ok (r_meta r)
  else match r_rename r with
       | None => Ok (r_meta r)
       | Some _ =>
           do mp <- rename_map r (r_meta r);
           fold_res (fun m kn => set_name m (fst kn) (snd kn)) mp (r_meta r)
       end.

(** [RequestDataset.variable], [rename_variable]. *)
Definition rd_variable (r : rd) : res (list string) := do m <- metadata_of r; variable_of r m.
Definition rd_rename (r : rd) : res (list string) := do m <- metadata_of r; rename_of r m.

(** [RequestDataset.units], core.py:428-433, and [conform_units_to], core.py:247-254. *)
Definition rd_values (sel : vmeta -> option string) (r : rd) : res (list (option string)) :=
  do m <- metadata_of r;
  do vs <- variable_of r m;
  do us <- map_res (fun v => match dget String.eqb m v with
                             | Some e => Ok (sel e) | None => Err KeyError end) vs;
  first_or_tuple us.

(** [len(rd)], core.py:239-244. *)
Definition rd_len (r : rd) : res nat :=
  match rd_variable r with
  | Ok vs => Ok (List.length vs)
  | Err NoDataVariablesFound => Ok 0%nat
  | Err e => Err e
  end.

(** [iter(rd)], core.py:234-237: the name, the units and the units to conform to of
    each variable. *)
Definition rd_iter (r : rd) : res (list (string * option string * option string)) :=
  do n <- rd_len r;
  map_res (fun i =>
    do vs <- rd_variable r;
    do us <- rd_values vm_units r;
    do cs <- rd_values vm_conform r;
    match nth_error vs i, nth_error us i, nth_error cs i with
    | Some v, Some u, Some c => Ok (v, u, c)
    | _, _, _ => Err IndexError
    end) (seq 0 n).

(** [DEFAULT_FIELD_NAME], constants.py:193. *)
Definition default_field_name : string := "ocgis_field".

(** [RequestDataset.field_name], core.py:339-353, with the handler of
    [create_field], core.py:482-487. *)
Definition rd_field_name (r : rd) : res string :=
  match r_field_name r with
  | Some n => Ok n
  | None =>
      match rd_rename r with
      | Ok [n] => Ok n
      | Ok _ => Ok default_field_name
      | Err NoDataVariablesFound => Ok default_field_name
      | Err e => Err e
      end
  end.

(** ** Fields *)

(** A field: its name, its variables (by name; each with the name it has in the
    file it is read from and a tag for that file), and the names tagged as data
    variables. The variable for the coordinate system and a spatial mask are not
    modelled. *)
Record field := mkfield { f_name : string; f_vars : list (string * (nat * string));
                          f_tags : list string }.

(** [create_variables] and [create_raw_field], base.py:333-375: a variable becomes a
    member of the field under its name and replaces what was there
    (variable/base.py:299-300). [file] is a tag for the file read. *)
Definition raw_variables (file : nat) (m : meta) : list (string * (nat * string)) :=
  fold_left (fun d kv => dset String.eqb d (vm_name (snd kv)) (file, fst kv)) m [].

(** [append_to_tags], variable/base.py:1879-1899, one name at a time. *)
Definition append_tag (tags : list string) (n : string) : res (list string) :=
  if existsb (String.eqb n) tags then Err ValueError else Ok (tags ++ [n]).

(** [RequestDataset.get()]: core.py:472-488 and base.py:232-331, without subsets. *)
Definition rd_get (file : nat) (r : rd) : res field :=
  do m <- metadata_of r;
  do name <- rd_field_name r;
  do tags <- match rd_rename r with
             | Ok ns => fold_res append_tag ns []
             | Err NoDataVariablesFound => Ok []
             | Err e => Err e
             end;
  Ok (mkfield name (raw_variables file m) tags).

(** [field.data_variables]: [get_by_tag] without [strict], variable/base.py:1970-1998;
    each with the file and the name it is read from. *)
Definition data_variables (f : field) : list (string * (nat * string)) :=
  flat_map (fun n => match dget String.eqb (f_vars f) n with
                     | Some s => [(n, s)] | None => [] end) (f_tags f).

(** ** Requests made of several datasets *)

(** [target.add_variable(variable.extract(), is_data=True)], multi_request.py:83-85,
    collection/field.py:362-375 and variable/base.py:1850-1877. The dimensions of the
    datasets are taken to agree and data variables to have no bounds. *)
Definition add_data_variable (f : field) (nv : string * (nat * string)) : res field :=
  if dmem String.eqb (f_vars f) (fst nv) then Err VariableInCollectionError
  else Ok (mkfield (f_name f) (dset String.eqb (f_vars f) (fst nv) (snd nv))
             (if existsb (String.eqb (fst nv)) (map fst (data_variables
                 (mkfield (f_name f) (dset String.eqb (f_vars f) (fst nv) (snd nv)) (f_tags f))))
              then f_tags f else f_tags f ++ [fst nv])).

(** The loop of [MultiRequestDataset.get], multi_request.py:74-86; the datasets are
    numbered from [file]. *)
Fixpoint multi_add (file : nat) (target : field) (rds : list rd) : res field :=
  match rds with
  | [] => Ok target
  | r :: t =>
      do current <- rd_get file r;
      do target' <- fold_res add_data_variable (data_variables current) target;
      multi_add (S file) target' t
  end.

(** [MultiRequestDataset.get()]; with no datasets [target] is never bound. *)
Definition multi_get (rds : list rd) : res field :=
  match rds with
  | [] => Err NameError
  | r :: t => do first <- rd_get 0 r; multi_add 1 first t
  end.

(** [MultiRequestDataset.metadata], multi_request.py:41-51: the copy is shallow, so the
    entries of the other datasets are added to the metadata of the first dataset
    itself. The result is the metadata and the datasets after the call. *)
Definition multi_metadata (rds : list rd) : res (meta * list rd) :=
  match rds with
  | [] => Err NameError
  | r :: t =>
      do m0 <- metadata_of r;
      do m <- fold_res (fun m q =>
                do mq <- metadata_of q;
                do vs <- variable_of q mq;
                fold_res (fun m v => match dget String.eqb mq v with
                                     | Some e => Ok (dset String.eqb m v e)
                                     | None => Err KeyError end) vs m) t m0;
      Ok (m, mkrd m (r_time r) (r_x r) (r_y r) (r_variable r) (r_rename r) (r_field_name r) true :: t)
  end.

(** [get_request_dataset_iterable_attribute], multi_request.py:101-109. *)
Definition multi_attribute {A} (f : rd -> res (list A)) (rds : list rd) : res (list A) :=
  do nested <- map_res f rds; Ok (List.concat nested).

Definition multi_variable (rds : list rd) : res (list string) := multi_attribute rd_variable rds.
Definition multi_units (rds : list rd) : res (list (option string)) := multi_attribute (rd_values vm_units) rds.
