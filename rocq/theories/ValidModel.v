(** Model of the operations object as its attributes change (src/ocgis/ops/core.py): the
    construction from arguments, the assignment of an attribute afterwards, and the validation
    that follows both, with the rules of the drivers (driver/base.py), of the converters
    (conv/nc.py, conv/fiona_.py, conv/meta.py, conv/esmpy.py) and of the calculations
    (calc/base.py, calc/library).

    How texts are turned into values of a parameter is the subject of OpsModel.v; here the
    value of a parameter is given in its final form, except for the output format, the
    selection geometry, the regridding destination and the regridding options, whose parsing
    depends on other parameters or on the state of the object.  Attributes that no rule reads
    are left out. *)
From Verif Require Import Py.
From Coq Require Import String.
Local Open Scope nat_scope.
Local Notation length := List.length.
Local Notation concat := List.concat.

(** A coordinate system up to the equality of variable/crs.py (see CrsModel.v): two of the
    last kind are equal if their numbers are. *)
Inductive system := Sphere | Wgs84 | RotatedPole (k : Z) | Other (k : Z).

Definition system_eqb (a b : system) : bool :=
  match a, b with
  | Sphere, Sphere | Wgs84, Wgs84 => true
  | RotatedPole j, RotatedPole k | Other j, Other k => Z.eqb j k
  | _, _ => false
  end.

Definition osystem_eqb (a b : option system) : bool :=
  match a, b with
  | Some x, Some y => system_eqb x y
  | None, None => true
  | _, _ => false
  end.

(** An element of the dataset: a [Field] or a [RequestDataset]; whether its driver is the
    vector driver (driver/vector.py:31); its coordinate system; whether it has a time region;
    the names of its variables; and its part in regridding, with the grid it stands for. *)
Record dataset := mkdataset {
  ds_field : bool; ds_vector : bool; ds_crs : option system; ds_region : bool;
  ds_names : list string; ds_dest : bool; ds_source : bool; ds_grid : Z }.

(** The classes of calculations that the rules tell apart: a function without rules, a set
    function (calc/base.py:742), a multivariate function with its required variables (771), a
    moving window (calc/library/statistics.py), the two duration functions
    (calc/library/index/duration.py), the second of which has keyed output, and the two kinds
    of expressions (calc/eval_function.py). *)
Inductive kind :=
| Plain | Grouped | Multi (required : list string) | Moving | Duration | FreqDuration
| Expression | MultiExpression.

(** An element of [ops.calc]: its function key, its class, and its keyword arguments.  A
    class other than an expression has the function key as its [key] (the registry finds it
    by that, ops/parms/definition.py:212-227). *)
Record calc := mkcalc { c_func : string; c_kind : kind; c_kwds : list (string * string) }.

Inductive format := Ocgis | Shp | Csv | CsvShp | GeoJson | Nc | MetaJson | MetaOcgis | Esmpy.

Definition format_eqb (a b : format) : bool :=
  match a, b with
  | Ocgis, Ocgis | Shp, Shp | Csv, Csv | CsvShp, CsvShp | GeoJson, GeoJson | Nc, Nc
  | MetaJson, MetaJson | MetaOcgis, MetaOcgis | Esmpy, Esmpy => true
  | _, _ => false
  end.

(** What may be given as the output format: one of the keys, one of the two old keys ("numpy"
    and "csv+"), or something else. *)
Inductive format_text := Key (f : format) | OldNumpy | OldCsv | Unknown.

Inductive spatial_op := Intersects | Clip.

(** What may be given as the selection geometry: nothing, dictionaries or one shape (the
    numbers stand for the geometries), a field, a key or path of a file with features (an
    identifier and an attribute each), or a cabinet iterator with its own settings. *)
Inductive geom_arg :=
| NoGeom
| Records (ids : list Z)
| FieldGeom (ids : list Z)
| FileGeom (features : list (Z * Z))
| Iterator (features : list (Z * Z)) (union : bool) (where_ : option Z) (select : option (list Z)).

(** The value of the parameter: nothing, one field for each selection geometry (the list of
    the geometries unioned into it), or an iterator.  A SQL condition is the value that the
    attribute must have. *)
Inductive geom_value :=
| GNone
| GFields (l : list (list Z))
| GIter (features : list (Z * Z)) (union : bool) (where_ : option Z) (select : option (list Z)).

(** definition.py:631-646: the settings that [Geom] is created with, and its value. *)
Record geom_parm := mkgeom { g_select : option (list Z); g_union : bool; g_where : option Z; g_value : geom_value }.

(** definition.py:678-778 [parse] and [parse_string].  A list of dictionaries is not empty. *)
Definition parse_geom (union : bool) (where_ : option Z) (select : option (list Z)) (a : geom_arg) : geom_value :=
  match a with
  | NoGeom => GNone
  | Records ids => GFields (if union then [ids] else map (fun i => [i]) ids)
  | FieldGeom ids => GFields (map (fun i => [i]) ids)
  | FileGeom features => GIter features union where_ select
  | Iterator features u w s => GIter features u w s
  end.

(** definition.py:671-674 [Geom._get_value_]. *)
Definition geom_get (g : geom_parm) : geom_value :=
  match g_value g with
  | GIter features u w _ => GIter features u w (g_select g)
  | v => v
  end.

Definition memZ (x : Z) (l : list Z) : bool := existsb (Z.eqb x) l.

(** The features an iterator selects (see CabinetModel.v): those that meet the condition and
    have one of the identifiers. *)
Definition selected (features : list (Z * Z)) (where_ : option Z) (select : option (list Z)) : list Z :=
  map fst (filter (fun f => match where_ with Some w => Z.eqb (snd f) w | None => true end
                            && match select with Some l => memZ (fst f) l | None => true end) features).

(** The selection geometries that are used: iterating the value. *)
Definition geometries (v : geom_value) : list (list Z) :=
  match v with
  | GNone => []
  | GFields l => l
  | GIter features union where_ select =>
      let ids := selected features where_ select in
      if union then [ids] else map (fun i => [i]) ids
  end.

(** [len(ops.geom)]; spatial/geom_cabinet.py:354-377 for an iterator without a slice. *)
Definition geom_len (v : geom_value) : nat :=
  match v with
  | GNone => 0
  | GFields l => length l
  | GIter _ true _ _ => 1
  | GIter _ false _ (Some l) => length l
  | GIter features false where_ None => length (selected features where_ None)
  end.

(** What may be given as regridding options: [None], a text, or a dictionary with its keys
    and whether its mask (if any) is a boolean array. *)
Inductive options_arg := NoOptions | TextOptions (s : string) | DictOptions (keys : list string) (mask_ok : bool).

(** An attribute of the operations: the parameter object with its value, or (after
    [object.__setattr__] of a value that is not a parameter) just a value. *)
Inductive slot (A : Type) := Parm (a : A) | Raw (a : A).
Arguments Parm {A} a.
Arguments Raw {A} a.
Definition slot_value {A} (s : slot A) : A := match s with Parm a | Raw a => a end.

(** definition.py:1072 and 1077-1097 [RegridOptions._parse_] after base.py:62-93: [None] and
    a text have no [keys]; missing entries are filled in. *)
Definition option_keys : list string := ["regrid_method"; "value_mask"; "split"]%string.
Definition default_options : options_arg := DictOptions option_keys true.
Definition mem_str (x : string) (l : list string) : bool := existsb (String.eqb x) l.
Definition with_key (k : string) (l : list string) : list string := if mem_str k l then l else l ++ [k].
Definition parse_options (a : options_arg) : res options_arg :=
  match a with
  | NoOptions | TextOptions _ => Err AttributeError
  | DictOptions keys ok =>
      if existsb (fun k => negb (mem_str k option_keys)) keys then Err DefinitionValidationError
      else if negb ok then Err DefinitionValidationError
      else Ok (DictOptions (with_key "value_mask"%string (with_key "regrid_method"%string keys)) true)
  end.

(** definition.py:1034-1066 [RegridDestination._parse_] for a field (its grid) or [None]. *)
Definition parse_destination (data : list dataset) (a : option Z) : res (option Z) :=
  do v <- match a with
          | Some g => Ok (Some g)
          | None =>
              if 1 <? length (filter ds_dest data) then Err DefinitionValidationError
              else Ok (option_map ds_grid (find ds_dest data))
          end;
  match v with
  | Some _ => if negb (existsb ds_source data) then Err DefinitionValidationError else Ok v
  | None => Ok None
  end.

(** definition.py:953-972: the constructor of [OutputFormat] knows the two old keys;
    base.py:236-239: an assignment only the valid ones. *)
Definition format_created (t : format_text) : res format :=
  match t with
  | Key f => Ok f
  | OldNumpy => Ok Ocgis
  | OldCsv => Ok CsvShp
  | Unknown => Err DefinitionValidationError
  end.
Definition format_assigned (t : format_text) : res format :=
  match t with Key f => Ok f | _ => Err DefinitionValidationError end.

(** The arguments of the constructor (core.py:120-128). *)
Record args := mkargs {
  a_data : list dataset; a_op : spatial_op; a_aggregate : bool; a_sample : bool;
  a_calc : option (list calc); a_grouping : option (list string); a_raw : bool;
  a_snippet : bool; a_format : format_text; a_agg_selection : bool; a_where : option Z;
  a_select : option (list Z); a_geom : geom_arg; a_slice : bool; a_file_only : bool;
  a_crs : option system; a_regrid : option Z; a_options : options_arg }.

(** The operations. *)
Record ops := mkops {
  o_data : list dataset; o_op : spatial_op; o_aggregate : bool; o_sample : bool;
  o_calc : option (list calc); o_grouping : option (list string); o_raw : bool;
  o_snippet : bool; o_format : format; o_agg_selection : bool; o_where : option Z;
  o_select : option (list Z); o_geom : geom_parm; o_slice : bool; o_file_only : bool;
  o_crs : option system; o_regrid : option Z; o_options : slot options_arg }.

Definition raise_if (b : bool) (e : exc) : res unit := if b then Err e else Ok tt.

Definition is_clip (o : ops) : bool := match o_op o with Clip => true | Intersects => false end.
Definition is_some {A} (x : option A) : bool := match x with Some _ => true | None => false end.

(** [issubclass(c['ref'], AbstractMultivariateFunction)], and for the other classes asked for. *)
Definition is_multi (c : calc) : bool := match c_kind c with Multi _ => true | _ => false end.
Definition is_multi_expression (c : calc) : bool := match c_kind c with MultiExpression => true | _ => false end.
Definition is_expression (c : calc) : bool := match c_kind c with Expression | MultiExpression => true | _ => false end.
Definition is_keyed (c : calc) : bool := match c_kind c with FreqDuration => true | _ => false end.

(** driver/base.py:736-748 [validate_ops]; only the vector driver has a list of formats. *)
Definition driver_rule (o : ops) (d : dataset) : res unit :=
  raise_if (ds_vector d && negb (format_eqb (o_format o) Ocgis || format_eqb (o_format o) Shp)) DefinitionValidationError.

(** conv/nc.py:57-112.  The message of the second check asks for the length of a generator
    (definition.py:546-549), which is a TypeError. *)
Definition nc_rule (o : ops) : res unit :=
  let several := 1 <? length (o_data o) in
  do _ <- match o_calc o with
          | None => raise_if several DefinitionValidationError
          | Some l =>
              raise_if (several && negb (length (filter is_multi l) + length (filter is_multi_expression l) =? 1)) TypeError
          end;
  do _ <- raise_if (is_clip o && negb (o_aggregate o)) DefinitionValidationError;
  do _ <- match o_calc o with
          | None => Ok tt
          | Some l =>
              do _ <- raise_if (o_raw o) DefinitionValidationError;
              raise_if (existsb is_keyed l) DefinitionValidationError
          end;
  do _ <- raise_if (o_aggregate o && (geom_len (geom_get (o_geom o)) =? 0)) DefinitionValidationError;
  raise_if (negb (o_aggregate o) && negb (o_agg_selection o) && (1 <? geom_len (geom_get (o_geom o)))) DefinitionValidationError.

(** conv/fiona_.py:72-87: membership of the class itself, which no function of the registry
    meets. *)
Definition geojson_rule (o : ops) : res unit :=
  raise_if ((1 <? length (o_data o))
            && negb (match o_calc o with Some l => existsb is_multi_expression l | None => false end)) DefinitionValidationError.

(** conv/meta.py:45-57. *)
Definition meta_rule (o : ops) : res unit :=
  if 1 <? length (o_data o) then Err DefinitionValidationError
  else raise_if (existsb ds_field (o_data o)) DefinitionValidationError.

(** conv/esmpy.py:28-45. *)
Definition esmpy_rule (o : ops) : res unit :=
  if 1 <? length (o_data o) then Err DefinitionValidationError
  else if is_clip o then Err DefinitionValidationError
  else if match o_select o with Some l => negb (o_agg_selection o) && (1 <? length l) | None => false end then Err DefinitionValidationError
  else raise_if (o_aggregate o) DefinitionValidationError.

(** conv/base.py:251-291 and 30-38: the other converters have no rules. *)
Definition converter_rule (o : ops) : res unit :=
  match o_format o with
  | Nc => nc_rule o
  | GeoJson => geojson_rule o
  | MetaJson => meta_rule o
  | Esmpy => esmpy_rule o
  | _ => Ok tt
  end.

(** core.py:340-347. *)
Definition regrid_rule (size : nat) (o : ops) : res unit :=
  match o_regrid o with
  | None => Ok tt
  | Some _ =>
      do _ <- raise_if (1 <? size) DefinitionValidationError;
      raise_if (is_clip o) DefinitionValidationError
  end.

(** core.py:349-353: the different coordinate systems, in the order of their first use. *)
Definition projections (o : ops) : list (option system) :=
  fold_left (fun acc d => if existsb (fun p => osystem_eqb p (ds_crs d)) acc then acc else acc ++ [ds_crs d]) (o_data o) [].

Definition is_rotated (p : option system) : bool := match p with Some (RotatedPole _) => true | _ => false end.

(** core.py:330-368: the checks before the output coordinate system may be replaced. *)
Definition rules_before (size : nat) (o : ops) : res unit :=
  do _ <- fold_res (fun _ d => driver_rule o d) (filter (fun d => negb (ds_field d)) (o_data o)) tt;
  do _ <- converter_rule o;
  do _ <- regrid_rule size o;
  do _ <- raise_if ((1 <? length (projections o)) && negb (format_eqb (o_format o) Ocgis) && negb (is_some (o_crs o))) DefinitionValidationError;
  raise_if (existsb is_rotated (projections o)
            && match o_crs o with Some c => negb (system_eqb c Sphere) | None => false end) DefinitionValidationError.

Definition set_crs (c : option system) (o : ops) : ops :=
  mkops (o_data o) (o_op o) (o_aggregate o) (o_sample o) (o_calc o) (o_grouping o) (o_raw o)
        (o_snippet o) (o_format o) (o_agg_selection o) (o_where o) (o_select o) (o_geom o)
        (o_slice o) (o_file_only o) c (o_regrid o) (o_options o).

(** core.py:369-374: the replacement, with a warning. *)
Definition replace_crs (o : ops) : ops :=
  if existsb is_rotated (projections o) && (o_aggregate o || is_clip o) then set_crs (Some Sphere) o else o.

(** core.py:376-386. *)
Definition on_sphere (c : system) : bool := system_eqb c Wgs84 || system_eqb c Sphere.
Definition geojson_crs_rule (o : ops) : res unit :=
  if format_eqb (o_format o) GeoJson then
    match o_crs o with
    | Some c => raise_if (negb (on_sphere c)) DefinitionValidationError
    | None => raise_if (existsb (fun p => match p with Some c => negb (on_sphere c) | None => false end) (projections o)) DefinitionValidationError
    end
  else Ok tt.

(** core.py:388-395. *)
Definition snippet_rule (o : ops) : res unit :=
  if o_snippet o then
    do _ <- raise_if (is_some (o_calc o)) DefinitionValidationError;
    raise_if (existsb ds_region (filter (fun d => negb (ds_field d)) (o_data o))) DefinitionValidationError
  else Ok tt.

(** core.py:397-399. *)
Definition slice_rule (o : ops) : res unit :=
  raise_if (o_slice o && match geom_get (o_geom o) with GNone => false | _ => true end) AssertionError.

(** core.py:401-406. *)
Definition file_only_rule (o : ops) : res unit :=
  if o_file_only o then
    do _ <- raise_if (negb (format_eqb (o_format o) Nc)) DefinitionValidationError;
    raise_if (negb (is_some (o_calc o))) DefinitionValidationError
  else Ok tt.

Definition lookup (k : string) (l : list (string * string)) : option string :=
  option_map snd (find (fun p => String.eqb (fst p) k) l).

(** calc/base.py:902-906: whether one of the mapped names is missing; a required variable
    without mapping is a KeyError. *)
Fixpoint missing_names (fnames : list string) (kwds : list (string * string)) (required : list string) : res bool :=
  match required with
  | [] => Ok false
  | x :: t =>
      match lookup x kwds with
      | None => Err KeyError
      | Some n => do b <- missing_names fnames kwds t; Ok (negb (mem_str n fnames) || b)
      end
  end.

(** calc/base.py:872-912 [AbstractMultivariateFunction.validate]: only the first calculation
    with the function key of the class is looked at. *)
Definition multi_rule (o : ops) (l : list calc) (key : string) (required : list string) : res unit :=
  do _ <- raise_if (o_sample o) DefinitionValidationError;
  match find (fun c => String.eqb (c_func c) key) l with
  | None => Ok tt
  | Some c =>
      if length (filter (fun r => mem_str r (map fst (c_kwds c))) required) <? 2 then Err DefinitionValidationError
      else do b <- missing_names (concat (map ds_names (o_data o))) (c_kwds c) required; raise_if b DefinitionValidationError
  end.

(** calc/base.py:341-348, 761-767, calc/library/statistics.py:77-82 and
    calc/library/index/duration.py:91-95, 131-133: a grouping is given by its parts, "all" as
    the list with this one element. *)
Definition calc_rule (o : ops) (l : list calc) (c : calc) : res unit :=
  match c_kind c with
  | Plain | Expression | MultiExpression => Ok tt
  | Grouped => raise_if (negb (is_some (o_grouping o))) DefinitionValidationError
  | Moving => raise_if (is_some (o_grouping o)) DefinitionValidationError
  | Duration | FreqDuration =>
      match o_grouping o with
      | None => Err TypeError
      | Some parts => raise_if (negb (mem_str "year"%string parts)) DefinitionValidationError
      end
  | Multi required => multi_rule o l (c_func c) required
  end.

(** core.py:408-417; the flag is that of the last element (definition.py:161-168), for a list
    of calculations that is not empty. *)
Definition calcs_rule (o : ops) : res unit :=
  match o_calc o with
  | None => Ok tt
  | Some l =>
      if match rev l with c :: _ => is_expression c | [] => false end
      then raise_if (is_some (o_grouping o)) DefinitionValidationError
      else fold_res (fun _ c => calc_rule o l c) l tt
  end.

Definition rules_after (o : ops) : res unit :=
  do _ <- geojson_crs_rule o;
  do _ <- snippet_rule o;
  do _ <- slice_rule o;
  do _ <- file_only_rule o;
  calcs_rule o.

(** core.py:324-417 [_validate_]: the operations after it and what it raises. *)
Definition validate (size : nat) (o : ops) : ops * res unit :=
  match rules_before size o with
  | Err e => (o, Err e)
  | Ok _ => let o' := replace_crs o in (o', rules_after o')
  end.

(** core.py:318-322 [_update_dependents_]. *)
Definition update_dependents (o : ops) : ops :=
  let g := o_geom o in
  mkops (o_data o) (o_op o) (o_aggregate o) (o_sample o) (o_calc o) (o_grouping o) (o_raw o)
        (o_snippet o) (o_format o) (o_agg_selection o) (o_where o) (o_select o)
        (mkgeom (o_select o) (g_union g) (g_where g) (g_value g))
        (o_slice o) (o_file_only o) (o_crs o) (o_regrid o) (o_options o).

(** core.py:120-185: the parameters; base.py:25-31: [None] stands for the default. *)
Definition create (a : args) : res ops :=
  do f <- format_created (a_format a);
  do r <- parse_destination (a_data a) (a_regrid a);
  do p <- match a_options a with NoOptions => parse_options default_options | v => parse_options v end;
  Ok (mkops (a_data a) (a_op a) (a_aggregate a) (a_sample a) (a_calc a) (a_grouping a) (a_raw a)
            (a_snippet a) f (a_agg_selection a) (a_where a) (a_select a)
            (mkgeom (a_select a) (a_agg_selection a) (a_where a)
                    (parse_geom (a_agg_selection a) (a_where a) (a_select a) (a_geom a)))
            (a_slice a) (a_file_only a) (a_crs a) r (Parm p)).

(** core.py:120-185 [__init__]. *)
Definition construct (size : nat) (a : args) : res ops :=
  do o <- create a;
  match validate size (update_dependents o) with
  | (o', Ok _) => Ok o'
  | (_, Err e) => Err e
  end.

(** An assignment to an attribute. *)
Inductive assignment :=
| SetData (v : list dataset) | SetOp (v : spatial_op) | SetAggregate (v : bool) | SetSample (v : bool)
| SetCalc (v : option (list calc)) | SetGrouping (v : option (list string)) | SetRaw (v : bool)
| SetSnippet (v : bool) | SetFormat (v : format_text) | SetAggSelection (v : bool) | SetWhere (v : option Z)
| SetSelect (v : option (list Z)) | SetGeom (v : geom_arg) | SetSlice (v : bool) | SetFileOnly (v : bool)
| SetCrs (v : option system) | SetRegrid (v : option Z) | SetOptions (v : options_arg).

(** core.py:206-213: the attribute keeps its parameter object, or loses it if AttributeError
    is raised while the value is set. *)
Definition set_slot {A} (parse : A -> res A) (v : A) (s : slot A) : res (slot A) :=
  match s with
  | Parm _ => match parse v with
              | Ok v' => Ok (Parm v')
              | Err AttributeError => Ok (Raw v)
              | Err e => Err e
              end
  | Raw _ => Ok (Raw v)
  end.

(** core.py:205-213, before the validation.  [agg_selection] is a plain attribute (147). *)
Definition store (s : assignment) (o : ops) : res ops :=
  let (data, op, aggregate, sample, calc, grouping, raw, snippet, fmt, sel, where_, select, geom, slc, fonly, crs, regrid, options) := o in
  match s with
  | SetData v => Ok (mkops v op aggregate sample calc grouping raw snippet fmt sel where_ select geom slc fonly crs regrid options)
  | SetOp v => Ok (mkops data v aggregate sample calc grouping raw snippet fmt sel where_ select geom slc fonly crs regrid options)
  | SetAggregate v => Ok (mkops data op v sample calc grouping raw snippet fmt sel where_ select geom slc fonly crs regrid options)
  | SetSample v => Ok (mkops data op aggregate v calc grouping raw snippet fmt sel where_ select geom slc fonly crs regrid options)
  | SetCalc v => Ok (mkops data op aggregate sample v grouping raw snippet fmt sel where_ select geom slc fonly crs regrid options)
  | SetGrouping v => Ok (mkops data op aggregate sample calc v raw snippet fmt sel where_ select geom slc fonly crs regrid options)
  | SetRaw v => Ok (mkops data op aggregate sample calc grouping v snippet fmt sel where_ select geom slc fonly crs regrid options)
  | SetSnippet v => Ok (mkops data op aggregate sample calc grouping raw v fmt sel where_ select geom slc fonly crs regrid options)
  | SetFormat v => do f <- format_assigned v; Ok (mkops data op aggregate sample calc grouping raw snippet f sel where_ select geom slc fonly crs regrid options)
  | SetAggSelection v => Ok (mkops data op aggregate sample calc grouping raw snippet fmt v where_ select geom slc fonly crs regrid options)
  | SetWhere v => Ok (mkops data op aggregate sample calc grouping raw snippet fmt sel v select geom slc fonly crs regrid options)
  | SetSelect v => Ok (mkops data op aggregate sample calc grouping raw snippet fmt sel where_ v geom slc fonly crs regrid options)
  | SetGeom v => Ok (mkops data op aggregate sample calc grouping raw snippet fmt sel where_ select
                           (mkgeom (g_select geom) (g_union geom) (g_where geom) (parse_geom (g_union geom) (g_where geom) (g_select geom) v))
                           slc fonly crs regrid options)
  | SetSlice v => Ok (mkops data op aggregate sample calc grouping raw snippet fmt sel where_ select geom v fonly crs regrid options)
  | SetFileOnly v => Ok (mkops data op aggregate sample calc grouping raw snippet fmt sel where_ select geom slc v crs regrid options)
  | SetCrs v => Ok (mkops data op aggregate sample calc grouping raw snippet fmt sel where_ select geom slc fonly v regrid options)
  | SetRegrid v => do r <- parse_destination data v; Ok (mkops data op aggregate sample calc grouping raw snippet fmt sel where_ select geom slc fonly crs r options)
  | SetOptions v => do p <- set_slot parse_options v options; Ok (mkops data op aggregate sample calc grouping raw snippet fmt sel where_ select geom slc fonly crs regrid p)
  end.

(** core.py:205-216 [__setattr__]: the operations after the statement and what it raises. *)
Definition assign (size : nat) (s : assignment) (o : ops) : ops * res unit :=
  match store s o with
  | Err e => (o, Err e)
  | Ok o' => validate size (update_dependents o')
  end.

(** A program that goes on after refused assignments. *)
Definition assign_all (size : nat) (l : list assignment) (o : ops) : ops :=
  fold_left (fun o s => fst (assign size s o)) l o.

(** util/large_array.py:70-74, 89-96 and 183-187 [compute]: the assignments made to copies of
    the operations for the empty file, for the offset of a subset (if there is a geometry), and
    for every tile. *)
Definition template_changes (o : ops) : list assignment := if is_some (o_calc o) then [SetFileOnly true] else [].
Definition offset_changes (o : ops) : list assignment :=
  match geom_get (o_geom o) with
  | GNone => []
  | _ => [SetFormat (Key Ocgis); SetCalc None; SetAggSelection true; SetSnippet false]
  end.
Definition tile_changes : list assignment := [SetGeom NoGeom; SetSlice true; SetFormat (Key Ocgis)].
