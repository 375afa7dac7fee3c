(** Model of writing collections as tables.

    conv/base.py AbstractFileConverter.__init__ (lines 65-84),
    AbstractCollectionConverter.__iter__ (118-123) and write (160-204, 231-234);
    conv/csv_.py CsvConverter._write_coll_ (21-49); conv/fiona_.py
    AbstractFionaConverter._write_coll_ (22-60); collection/spatial.py
    iter_fields (158-167); variable/base.py get_is_empty_recursive (2406-2414);
    driver/base.py write_field (769-772), write_variable_collection (775-800),
    _get_write_modes_ (825-830); driver/csv_.py
    _write_variable_collection_main_ (57-76), get_variable_value (20-40),
    _get_metadata_main_ (42-55); driver/vector.py
    _write_variable_collection_main_ (216-271), format_record_for_fiona
    (274-282), get_fiona_schema (311-318, the names only) and
    write_records_to_fiona (421-425).

    Simplifications.  A cell is a string: formatting of values, quoting of CSV
    cells and the types of vector properties are not modelled, nor are
    geometries and coordinate systems.  The records of a field
    are given, one list for each rank; the identifiers added by the
    converters are part of the records.  A file is what it holds: the rows of a
    CSV file, the property names and features of a vector file.  The ranks
    write in turn, which the barrier of the code enforces.  The metadata files
    and the user geometry file are not modelled. *)
From Verif Require Import Py.

(** ** Empty collections *)

(** A collection: the flag it was created with, whether each of its variables
    is empty, and its children. *)
Inductive vtree := VT (flag : option bool) (vars : list bool) (children : list vtree).

(** variable/base.py:2406-2414 [get_is_empty_recursive]: the loop over the
    children assigns its result anew for every child. *)
Fixpoint tree_is_empty (t : vtree) : bool :=
  match t with
  | VT (Some b) _ _ => b
  | VT None vars children =>
      if existsb id vars then true else fold_left (fun _ c => tree_is_empty c) children false
  end.

(** ** Fields and collections *)

(** One row of the table of a field: a dictionary. *)
Definition record := list (string * string).

(** A field as the writers see it: whether it is empty and its records on each
    rank. *)
Record ptable := mkptable { pt_empty : bool; pt_parts : list (list record) }.

(** A container of a spatial collection, with its fields, and a collection. *)
Record container := mkcontainer { ct_flag : option bool; ct_vars : list bool; ct_fields : list ptable }.
Record coll := mkcoll { co_flag : option bool; co_vars : list bool; co_containers : list container }.

Definition container_tree (c : container) : vtree :=
  VT (ct_flag c) (ct_vars c) (map (fun f => VT (Some (pt_empty f)) [] []) (ct_fields c)).
Definition coll_tree (c : coll) : vtree := VT (co_flag c) (co_vars c) (map container_tree (co_containers c)).

(** variable/base.py:2318-2319 [VariableCollection.is_empty]. *)
Definition coll_is_empty (c : coll) : bool := tree_is_empty (coll_tree c).

(** collection/spatial.py:158-167 [SpatialCollection.iter_fields]. *)
Definition coll_fields (c : coll) : list ptable := flat_map ct_fields (co_containers c).

(** ** Write modes *)

(** constants.py:282-288 [MPIWriteMode]: WRITE is NORMAL and APPEND is FILL. *)
Inductive wmode := Normal | Template | Fill.
Definition Append : wmode := Fill.

Definition is_fill (m : wmode) : bool := match m with Fill => true | _ => false end.
Definition is_template (m : wmode) : bool := match m with Template => true | _ => false end.

(** driver/base.py:825-830 [_get_write_modes_] for a number of ranks. *)
Definition get_write_modes (size : nat) : list wmode :=
  if (1 <? size)%nat then [Template; Fill] else [Normal].

(** driver/base.py:769-800 [write_field] and [write_variable_collection]: the
    main function of the driver is called once for each write mode. *)
Definition write_field {F} (main : wmode -> F -> ptable -> res F) (mode : option wmode) (f : F) (t : ptable) : res F :=
  if pt_empty t then Err EmptyObjectError
  else fold_res (fun f m => main m f t)
         (match mode with None => get_write_modes (List.length (pt_parts t)) | Some m => [m] end) f.

(** conv/csv_.py:27-49, conv/fiona_.py:39-60 [_write_coll_]: every field with
    the same write mode. *)
Definition write_coll {F} (main : wmode -> F -> ptable -> res F) (mode : option wmode) (f : F) (c : coll) : res F :=
  fold_res (write_field main mode) (coll_fields c) f.

(** conv/base.py:118-123 [__iter__], with [_allow_empty = False]. *)
Definition iter_colls (cs : list coll) : list coll := filter (fun c => negb (coll_is_empty c)) cs.

(** conv/base.py:169-198 [write]: the first collection builds, the others are
    appended. *)
Fixpoint write_loop {F} (main : wmode -> F -> ptable -> res F) (build : bool) (f : F) (cs : list coll) : res F :=
  match cs with
  | [] => Ok f
  | c :: t =>
      do f' <- write_coll main (if build then None else Some Append) f c;
      write_loop main false f' t
  end.

Definition write_all {F} (main : wmode -> F -> ptable -> res F) (f : F) (cs : list coll) : res F :=
  write_loop main true f (iter_colls cs).

(** conv/base.py:65-84 [AbstractFileConverter.__init__] followed by [write]:
    what is at the path of the output, if anything, before and after. *)
Definition convert {X} (main : wmode -> option X -> ptable -> res (option X)) (overwrite : bool)
    (existing : option X) (cs : list coll) : res (option X) :=
  match existing with
  | Some _ => if overwrite then write_all main existing cs else Err IOError
  | None => write_all main existing cs
  end.

(** ** CSV files *)

(** The rows of a CSV file, the header first. *)
Definition csv_file := list (list string).

(** [csv.DictWriter.writerow]: the cells by field name; a name the writer does
    not know is refused, a missing one is an empty cell. *)
Definition csv_row (names : list string) (r : record) : res (list string) :=
  if forallb (fun p => existsb (String.eqb (fst p)) names) r
  then Ok (map (fun n => match dget String.eqb r n with Some v => v | None => "" end)%string names)
  else Err ValueError.

(** driver/csv_.py:63 the field names: the keys of the first record. *)
Definition field_names (part : list record) : res (list string) :=
  match part with [] => Err StopIteration | r :: _ => Ok (map fst r) end.

(** driver/csv_.py:72-75 one rank appends its records. *)
Definition csv_append (f : option csv_file) (part : list record) : res (option csv_file) :=
  do names <- field_names part;
  do rows <- map_res (csv_row names) part;
  Ok (Some ((match f with Some l => l | None => [] end) ++ rows))%list.

(** driver/csv_.py:57-76 [DriverCSV._write_variable_collection_main_]. *)
Definition csv_main (m : wmode) (f : option csv_file) (t : ptable) : res (option csv_file) :=
  do names <- map_res field_names (pt_parts t);
  let f := if is_fill m then f
           else match names with n :: _ => Some [n] | [] => f end in
  if is_template m then Ok f else fold_res csv_append (pt_parts t) f.

(** [csv.DictReader]: the rows below the header as dictionaries. *)
Definition csv_records (f : csv_file) : list record :=
  match f with [] => [] | h :: rows => map (fun r => combine h r) rows end.

(** driver/csv_.py:46-54 [_get_metadata_main_]: the variables are the header and
    the size is the number of rows below it. *)
Definition csv_metadata (f : csv_file) : res (list string * Z) :=
  match f with [] => Err StopIteration | h :: rows => Ok (h, zlen rows) end.

(** driver/csv_.py:27-40 [get_variable_value] of the variable [name] on a rank
    holding the rows from [lo] to [hi]: rows before are skipped, the loop ends
    at [hi].  [idx] is the loop counter. *)
Fixpoint csv_read_loop (rs : list record) (name : string) (lo hi idx : Z) : res (list string) :=
  match rs with
  | [] => Ok []
  | r :: t =>
      if idx <? lo then csv_read_loop t name lo hi (idx + 1)
      else if hi <=? idx then Ok []
      else match dget String.eqb r name with
           | None => Err KeyError
           | Some v => do rest <- csv_read_loop t name lo hi (idx + 1); Ok (v :: rest)
           end
  end.
Definition csv_read (f : csv_file) (name : string) (lo hi : Z) : res (list string) :=
  csv_read_loop (csv_records f) name lo hi 0.

(** ** Vector files *)

(** The names of the properties of a vector file and its features. *)
Record vfile := mkvfile { vf_names : list string; vf_features : list record }.

(** driver/vector.py:274-282 [format_record_for_fiona] for shapefiles: names
    are cut to ten characters, in a dictionary. *)
Definition cut_name (k : string) : string := if (10 <? String.length k)%nat then substring 0 10 k else k.
Definition format_shapefile (r : record) : record :=
  fold_left (fun d p => dset String.eqb d (cut_name (fst p)) (snd p)) r [].

(** [sink.write]: fiona refuses a feature whose property names are not those of
    the file. *)
Definition same_names (a b : list string) : bool :=
  forallb (fun n => existsb (String.eqb n) b) a && forallb (fun n => existsb (String.eqb n) a) b.
Definition sink_write (f : vfile) (r : record) : res vfile :=
  if same_names (map fst r) (vf_names f) then Ok (mkvfile (vf_names f) (vf_features f ++ [r])%list)
  else Err ValueError.

(** driver/vector.py:241-244 the property names of the first record on a rank. *)
Definition schema_names (format : record -> record) (part : list record) : res (list string) :=
  match part with [] => Err StopIteration | r :: _ => Ok (map fst (format r)) end.

(** driver/vector.py:267-270 one rank writes its records.  Opening a GeoJSON
    file with mode ['w'] starts a new file with the names of this rank's first
    record; opening a shapefile with mode ['a'] needs a file. *)
Definition open_sink (geojson : bool) (names : list string) (f : option vfile) : res vfile :=
  if geojson then Ok (mkvfile names [])
  else match f with Some v => Ok v | None => Err IOError end.
Definition vector_append (geojson : bool) (format : record -> record) (f : option vfile) (part : list record)
  : res (option vfile) :=
  do names <- schema_names format part;
  do sink <- open_sink geojson names f;
  do sink' <- fold_res (fun s r => sink_write s (format r)) part sink;
  Ok (Some sink').

(** driver/vector.py:216-271 [DriverVector._write_variable_collection_main_]. *)
Definition vector_main (geojson : bool) (format : record -> record) (m : wmode) (f : option vfile) (t : ptable)
  : res (option vfile) :=
  do names <- map_res (schema_names format) (pt_parts t);
  let f := if geojson || is_fill m then f
           else match names with n :: _ => Some (mkvfile n []) | [] => f end in
  if is_template m then Ok f else fold_res (vector_append geojson format) (pt_parts t) f.

(** conv/fiona_.py:63-70 the two vector formats. *)
Definition shapefile_main : wmode -> option vfile -> ptable -> res (option vfile) := vector_main false format_shapefile.
Definition geojson_main : wmode -> option vfile -> ptable -> res (option vfile) := vector_main true (fun r => r).
