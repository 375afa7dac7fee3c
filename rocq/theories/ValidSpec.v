(** What is claimed of operations whose attributes change. *)
From Verif Require Import Py ValidModel.
From Coq Require Import String.
Local Open Scope nat_scope.
Local Notation length := List.length.

(** Two operations look the same to their user: every attribute that is read is the same. *)
Record Same (o p : ops) : Prop := {
  same_data : o_data o = o_data p; same_op : o_op o = o_op p;
  same_aggregate : o_aggregate o = o_aggregate p; same_sample : o_sample o = o_sample p;
  same_calc : o_calc o = o_calc p; same_grouping : o_grouping o = o_grouping p;
  same_raw : o_raw o = o_raw p; same_snippet : o_snippet o = o_snippet p;
  same_format : o_format o = o_format p; same_agg_selection : o_agg_selection o = o_agg_selection p;
  same_where : o_where o = o_where p; same_select : o_select o = o_select p;
  same_geom : geom_get (o_geom o) = geom_get (o_geom p); same_slice : o_slice o = o_slice p;
  same_file_only : o_file_only o = o_file_only p; same_crs : o_crs o = o_crs p;
  same_regrid : o_regrid o = o_regrid p;
  same_options : slot_value (o_options o) = slot_value (o_options p) }.

(** The arguments with one of them replaced. *)
Definition update (s : assignment) (a : args) : args :=
  let (data, op, aggregate, sample, calc, grouping, raw, snippet, fmt, sel, where_, select, geom, slc, fonly, crs, regrid, options) := a in
  match s with
  | SetData v => mkargs v op aggregate sample calc grouping raw snippet fmt sel where_ select geom slc fonly crs regrid options
  | SetOp v => mkargs data v aggregate sample calc grouping raw snippet fmt sel where_ select geom slc fonly crs regrid options
  | SetAggregate v => mkargs data op v sample calc grouping raw snippet fmt sel where_ select geom slc fonly crs regrid options
  | SetSample v => mkargs data op aggregate v calc grouping raw snippet fmt sel where_ select geom slc fonly crs regrid options
  | SetCalc v => mkargs data op aggregate sample v grouping raw snippet fmt sel where_ select geom slc fonly crs regrid options
  | SetGrouping v => mkargs data op aggregate sample calc v raw snippet fmt sel where_ select geom slc fonly crs regrid options
  | SetRaw v => mkargs data op aggregate sample calc grouping v snippet fmt sel where_ select geom slc fonly crs regrid options
  | SetSnippet v => mkargs data op aggregate sample calc grouping raw v fmt sel where_ select geom slc fonly crs regrid options
  | SetFormat v => mkargs data op aggregate sample calc grouping raw snippet v sel where_ select geom slc fonly crs regrid options
  | SetAggSelection v => mkargs data op aggregate sample calc grouping raw snippet fmt v where_ select geom slc fonly crs regrid options
  | SetWhere v => mkargs data op aggregate sample calc grouping raw snippet fmt sel v select geom slc fonly crs regrid options
  | SetSelect v => mkargs data op aggregate sample calc grouping raw snippet fmt sel where_ v geom slc fonly crs regrid options
  | SetGeom v => mkargs data op aggregate sample calc grouping raw snippet fmt sel where_ select v slc fonly crs regrid options
  | SetSlice v => mkargs data op aggregate sample calc grouping raw snippet fmt sel where_ select geom v fonly crs regrid options
  | SetFileOnly v => mkargs data op aggregate sample calc grouping raw snippet fmt sel where_ select geom slc v crs regrid options
  | SetCrs v => mkargs data op aggregate sample calc grouping raw snippet fmt sel where_ select geom slc fonly v regrid options
  | SetRegrid v => mkargs data op aggregate sample calc grouping raw snippet fmt sel where_ select geom slc fonly crs v options
  | SetOptions v => mkargs data op aggregate sample calc grouping raw snippet fmt sel where_ select geom slc fonly crs regrid v
  end.

(** The assignment that gives an attribute the value it was constructed with. *)
Definition back (s : assignment) (a : args) : assignment :=
  match s with
  | SetData _ => SetData (a_data a) | SetOp _ => SetOp (a_op a) | SetAggregate _ => SetAggregate (a_aggregate a)
  | SetSample _ => SetSample (a_sample a) | SetCalc _ => SetCalc (a_calc a) | SetGrouping _ => SetGrouping (a_grouping a)
  | SetRaw _ => SetRaw (a_raw a) | SetSnippet _ => SetSnippet (a_snippet a) | SetFormat _ => SetFormat (a_format a)
  | SetAggSelection _ => SetAggSelection (a_agg_selection a) | SetWhere _ => SetWhere (a_where a)
  | SetSelect _ => SetSelect (a_select a) | SetGeom _ => SetGeom (a_geom a) | SetSlice _ => SetSlice (a_slice a)
  | SetFileOnly _ => SetFileOnly (a_file_only a) | SetCrs _ => SetCrs (a_crs a) | SetRegrid _ => SetRegrid (a_regrid a)
  | SetOptions _ => SetOptions (a_options a)
  end.

(** No dataset on a rotated pole. *)
Definition NotRotated (data : list dataset) : Prop := forall d k, In d data -> ds_crs d <> Some (RotatedPole k).

(** Datasets with a source for regridding and none marked as its destination. *)
Definition Sources (data : list dataset) : Prop :=
  (forall d, In d data -> ds_dest d = false) /\ exists d, In d data /\ ds_source d = true.

(** A dictionary of options with known keys and a good mask. *)
Definition GoodOptions (v : options_arg) : Prop :=
  exists keys, v = DictOptions keys true /\ forall k, In k keys -> In k ["regrid_method"; "value_mask"; "split"]%string.

(** The assignments that are as good as an argument: all but those of [agg_selection], of
    [geom_select_sql_where], of an old or unknown format, of bad options, and of datasets that
    are rotated or take part in regridding in an unusual way. *)
Definition Direct (s : assignment) : Prop :=
  match s with
  | SetData v => NotRotated v /\ Sources v
  | SetFormat v => exists f, v = Key f
  | SetAggSelection _ | SetWhere _ => False
  | SetOptions v => GoodOptions v
  | _ => True
  end.

(** The coordinate system last assigned. *)
Fixpoint last_crs (l : list assignment) (c : option system) : option system :=
  match l with
  | [] => c
  | SetCrs v :: t => last_crs t v
  | _ :: t => last_crs t c
  end.

Definition NeverRotated (l : list assignment) : Prop := forall v, In (SetData v) l -> NotRotated v.

(** The rules a request has to meet, as the checks are commented in the sources.  Whether a
    calculation has to meet the rules of its class depends on the last of the list. *)
Definition Several (o : ops) : Prop := 2 <= length (o_data o).
Definition GeometriesCounted (o : ops) (n : nat) : Prop := geom_len (geom_get (o_geom o)) = n.

Record NcRules (o : ops) : Prop := {
  nc_package : Several o -> exists l, o_calc o = Some l /\
    length (filter (fun c => is_multi c || is_multi_expression c) l) = 1;
  nc_clip : o_op o = Clip -> o_aggregate o = true;
  nc_raw : o_calc o <> None -> o_raw o = false;
  nc_keyed : forall l c, o_calc o = Some l -> In c l -> c_kind c <> FreqDuration;
  nc_aggregate : o_aggregate o = true -> ~ GeometriesCounted o 0;
  nc_geometries : o_aggregate o = false -> o_agg_selection o = false -> geom_len (geom_get (o_geom o)) <= 1 }.

Record EsmpyRules (o : ops) : Prop := {
  es_package : ~ Several o;
  es_clip : o_op o = Intersects;
  es_select : forall l, o_select o = Some l -> o_agg_selection o = false -> length l <= 1;
  es_aggregate : o_aggregate o = false }.

Definition HasNames (o : ops) (required : list string) (kwds : list (string * string)) : Prop :=
  2 <= length (filter (fun r => mem_str r (map fst kwds)) required) /\
  forall r, In r required -> exists n d, lookup r kwds = Some n /\ In d (o_data o) /\ In n (ds_names d).

Definition CalcRule (o : ops) (l : list calc) (c : calc) : Prop :=
  match c_kind c with
  | Plain | Expression | MultiExpression => True
  | Grouped => o_grouping o <> None
  | Moving => o_grouping o = None
  | Duration | FreqDuration => exists parts, o_grouping o = Some parts /\ In "year"%string parts
  | Multi required =>
      o_sample o = false /\
      exists l1 c' l2, l = l1 ++ c' :: l2 /\ c_func c' = c_func c /\ (forall d, In d l1 -> c_func d <> c_func c) /\
        HasNames o required (c_kwds c')
  end.

Record Rules (size : nat) (o : ops) : Prop := {
  r_driver : forall d, In d (o_data o) -> ds_field d = false -> ds_vector d = true -> o_format o = Ocgis \/ o_format o = Shp;
  r_nc : o_format o = Nc -> NcRules o;
  r_esmpy : o_format o = Esmpy -> EsmpyRules o;
  r_geojson : o_format o = GeoJson -> Several o -> exists l c, o_calc o = Some l /\ In c l /\ c_kind c = MultiExpression;
  r_meta : o_format o = MetaJson -> ~ Several o /\ forall d, In d (o_data o) -> ds_field d = false;
  r_regrid : o_regrid o <> None -> size <= 1 /\ o_op o = Intersects;
  r_crs : (exists d e, In d (o_data o) /\ In e (o_data o) /\ ds_crs d <> ds_crs e) -> o_format o <> Ocgis -> o_crs o <> None;
  r_geojson_crs : o_format o = GeoJson ->
    match o_crs o with
    | Some c => c = Wgs84 \/ c = Sphere
    | None => forall d c, In d (o_data o) -> ds_crs d = Some c -> c = Wgs84 \/ c = Sphere
    end;
  r_snippet : o_snippet o = true -> o_calc o = None /\ forall d, In d (o_data o) -> ds_field d = false -> ds_region d = false;
  r_slice : o_slice o = true -> geom_get (o_geom o) = GNone;
  r_file_only : o_file_only o = true -> o_format o = Nc /\ o_calc o <> None;
  r_expression : forall l c, o_calc o = Some (l ++ [c]) -> c_kind c = Expression \/ c_kind c = MultiExpression -> o_grouping o = None;
  r_calc : forall l c, o_calc o = Some (l ++ [c]) -> c_kind c <> Expression -> c_kind c <> MultiExpression ->
    forall c', In c' (l ++ [c]) -> CalcRule o (l ++ [c]) c' }.

(** The selection geometries a user asks for: those of the file that meet the condition and
    have one of the identifiers, each by itself or all in one. *)
Definition Asked (a : args) (i : Z) : Prop :=
  match a_geom a with
  | NoGeom => False
  | Records ids | FieldGeom ids => In i ids /\ forall l, a_select a = Some l -> In i l
  | FileGeom features =>
      exists w, In (i, w) features /\ (forall v, a_where a = Some v -> w = v) /\ forall l, a_select a = Some l -> In i l
  | Iterator features u v s =>
      exists w, In (i, w) features /\ (forall x, v = Some x -> w = x) /\ (forall l, s = Some l -> In i l) /\
        (forall x, a_where a = Some x -> w = x) /\ forall l, a_select a = Some l -> In i l
  end.

Definition AsAsked (a : args) (used : list (list Z)) : Prop :=
  if a_agg_selection a
  then a_geom a <> NoGeom -> exists g, used = [g] /\ forall i, In i g <-> Asked a i
  else (forall g, In g used -> exists i, g = [i] /\ Asked a i) /\ (forall i, Asked a i -> In [i] used).

(** Good regridding options with the two entries that are needed. *)
Definition CompleteOptions (v : options_arg) : Prop :=
  exists keys, v = DictOptions keys true /\
    (forall k, In k keys -> In k ["regrid_method"; "value_mask"; "split"]%string) /\
    In "regrid_method"%string keys /\ In "value_mask"%string keys.

Definition DictAssigned (s : assignment) : Prop :=
  match s with SetOptions (DictOptions _ _) => True | SetOptions _ => False | _ => True end.

(** Arguments whose selection geometries are handled as asked. *)
Definition PlainSelection (a : args) : Prop :=
  match a_geom a with
  | NoGeom | FileGeom _ => True
  | Records _ => a_select a = None
  | FieldGeom _ => a_select a = None /\ a_agg_selection a = false
  | Iterator _ u _ s => u = a_agg_selection a /\ a_where a = None /\ (s = None \/ s = a_select a)
  end.

(** What an assignment that goes through leaves in its attribute, and in no other. *)
Definition OnlyChanged (s : assignment) (o p : ops) : Prop :=
  match s with
  | SetData v => o_data p = v | SetOp v => o_op p = v | SetAggregate v => o_aggregate p = v | SetSample v => o_sample p = v
  | SetCalc v => o_calc p = v | SetGrouping v => o_grouping p = v | SetRaw v => o_raw p = v | SetSnippet v => o_snippet p = v
  | SetFormat v => v = Key (o_format p) | SetAggSelection v => o_agg_selection p = v | SetWhere v => o_where p = v
  | SetSelect v => o_select p = v | SetGeom _ => True | SetSlice v => o_slice p = v | SetFileOnly v => o_file_only p = v
  | SetCrs v => o_crs p = v | SetRegrid _ => True | SetOptions _ => True
  end /\
  (o_data p = o_data o \/ exists v, s = SetData v) /\ (o_op p = o_op o \/ exists v, s = SetOp v) /\
  (o_aggregate p = o_aggregate o \/ exists v, s = SetAggregate v) /\ (o_sample p = o_sample o \/ exists v, s = SetSample v) /\
  (o_calc p = o_calc o \/ exists v, s = SetCalc v) /\ (o_grouping p = o_grouping o \/ exists v, s = SetGrouping v) /\
  (o_raw p = o_raw o \/ exists v, s = SetRaw v) /\ (o_snippet p = o_snippet o \/ exists v, s = SetSnippet v) /\
  (o_format p = o_format o \/ exists v, s = SetFormat v) /\ (o_agg_selection p = o_agg_selection o \/ exists v, s = SetAggSelection v) /\
  (o_where p = o_where o \/ exists v, s = SetWhere v) /\ (o_select p = o_select o \/ exists v, s = SetSelect v) /\
  (o_slice p = o_slice o \/ exists v, s = SetSlice v) /\ (o_file_only p = o_file_only o \/ exists v, s = SetFileOnly v) /\
  (o_crs p = o_crs o \/ exists v, s = SetCrs v) /\ (o_regrid p = o_regrid o \/ exists v, s = SetRegrid v) /\
  (o_options p = o_options o \/ exists v, s = SetOptions v).

(** Every assignment of a sequence goes through. *)
Fixpoint AllAccepted (size : nat) (l : list assignment) (o : ops) : Prop :=
  match l with
  | [] => True
  | s :: t => snd (assign size s o) = Ok tt /\ AllAccepted size t (fst (assign size s o))
  end.
