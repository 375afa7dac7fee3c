(** Model of reading the features of a vector file.

    spatial/geom_cabinet.py GeomCabinet.iter_geoms (lines 98-192, [union] false),
    _get_features_object_ (215-275), GeomCabinetIterator.__len__ (354-377,
    [union] false), get_uid_from_properties (380-413),
    get_index_slice_for_iteration (431-433); driver/vector.py
    DriverVector.get_variable_value (108-159, one property of a field),
    _open_ (201-209, reading).

    Simplifications.  The iterator is run to its end, so that an error hides
    what was yielded before.  Geometries and the schema are not modelled.  A
    property is an integer, a text that [int] refuses, or null.  OGR is trusted
    to run the statements: a WHERE clause given by the user is a predicate on
    features, [uid IN (...)] compares integers and fails for an unknown column
    or an empty list, [GetFeature] finds the feature with that identifier (FID)
    and fails if there is none.  A slice with a step is not modelled. *)
From Verif Require Import Py PartitionModel DimensionModel.

Inductive cell := CInt (z : Z) | CText (s : string) | CNull.

(** A feature: its FID and its properties. *)
Record feature := mkfeature { ft_fid : Z; ft_props : list (string * cell) }.

(** A file: whether it is a file geodatabase, its columns and its features. *)
Record gfile := mkgfile { gf_gdb : bool; gf_columns : list string; gf_features : list feature }.

(** [env.DEFAULT_GEOM_UID] unless set otherwise. *)
Definition default_uid : string := "UGID".

(** The Python built-in [int]. *)
Definition py_int (c : cell) : res Z :=
  match c with CInt z => Ok z | CText _ => Err ValueError | CNull => Err TypeError end.

(** geom_cabinet.py:380-413 [get_uid_from_properties]: the name of the
    identifier and whether it has to be added. *)
Definition get_uid_from_properties (props : list (string * cell)) (uid : option string) : res (string * bool) :=
  do uid <- match uid with
            | None => if dmem String.eqb props default_uid then Ok (Some default_uid) else Ok None    (* 390-392 *)
            | Some u => if dmem String.eqb props u then Ok (Some u) else Err ValueError               (* 394-396 *)
            end;
  match uid with
  | Some u =>
      match dget String.eqb props u with                                                              (* 399-404 *)
      | Some c => do _ <- py_int c; Ok (u, false)
      | None => Err KeyError
      end
  | None => Ok (default_uid, true)                                                                    (* 407-409 *)
  end.

Definition zmem (z : Z) (l : list Z) : bool := existsb (Z.eqb z) l.

(** geom_cabinet.py:256-275 [_get_features_object_]. *)
Definition get_features (f : gfile) (uid : option string) (select_uid : option (list Z)) (cond : option (feature -> bool))
  : res (list feature) :=
  match cond, select_uid with
  | Some w, _ => Ok (filter w (gf_features f))                                                        (* 260-261 *)
  | None, Some l =>
      let u := match uid with None => default_uid | Some u => u end in                                (* 264-265 *)
      if existsb (String.eqb u) (gf_columns f) then
        match l with
        | [] => Err RuntimeError
        | _ => Ok (filter (fun ft => match dget String.eqb (ft_props ft) u with
                                     | Some (CInt z) => zmem z l
                                     | _ => false
                                     end) (gf_features f))                                            (* 267-272 *)
        end
      else Err RuntimeError
  | None, None => Ok (gf_features f)                                                                  (* 274 *)
  end.

(** geom_cabinet.py:431-433 [get_index_slice_for_iteration]. *)
Definition index_slice (s : rawslc) : res slc := get_formatted_slice1 s.

(** geom_cabinet.py:139-147 [_o_itr_] with the loop counter [ctr]; comparing the
    counter with [None] raises. *)
Fixpoint o_itr (fs : list feature) (ctr : Z) (start stop : option Z) : res (list feature) :=
  match fs with
  | [] => Ok []
  | f :: t =>
      match start with
      | None => Err TypeError
      | Some a =>
          if ctr <? a then o_itr t (ctr + 1) start stop
          else if match stop with Some b => ctr =? b | None => false end then Ok []
          else do r <- o_itr t (ctr + 1) start stop; Ok (f :: r)
      end
  end.

(** [features.GetFeature(int(idx))]. *)
Definition get_feature (fs : list feature) (i : Z) : res feature :=
  match find (fun f => ft_fid f =? i) fs with Some f => Ok f | None => Err RuntimeError end.

(** geom_cabinet.py:134-152 the features to go through. *)
Definition feature_iterator (f : gfile) (fs : list feature) (s : option slc) : res (list feature) :=
  match s with
  | None => Ok fs
  | Some (SSlice s) => o_itr fs 0 (sl_start s) (sl_stop s)
  | Some (SInts l) => if gf_gdb f then Err AttributeError else map_res (get_feature fs) l
  | Some (SBools m) =>
      if gf_gdb f then Err AttributeError
      else map_res (fun b : bool => get_feature fs (if b then 1 else 0)) m
  end.

(** What is yielded for a feature: its properties after the identifier was set. *)
Record row := mkrow { rw_uid : string; rw_props : list (string * cell) }.

(** geom_cabinet.py:170-175 *)
Definition set_uid (uid : string) (add : bool) (f : feature) : res row :=
  if add then Ok (mkrow uid (dset String.eqb (ft_props f) uid (CInt (ft_fid f))))
  else match dget String.eqb (ft_props f) uid with
       | None => Err KeyError
       | Some c => do z <- py_int c; Ok (mkrow uid (dset String.eqb (ft_props f) uid (CInt z)))
       end.

(** geom_cabinet.py:98-192 [iter_geoms]. *)
Definition iter_geoms (f : gfile) (uid : option string) (select_uid : option (list Z)) (cond : option (feature -> bool))
    (slc : option rawslc) : res (list row) :=
  let selects := match select_uid, cond with None, None => false | _, _ => true end in
  do _ <- match slc with
          | Some _ => if selects then Err ValueError else Ok tt                                        (* 118-120 *)
          | None => Ok tt
          end;
  do s <- match slc with None => Ok None | Some r => do s <- index_slice r; Ok (Some s) end;           (* 123-124 *)
  do fs <- get_features f uid select_uid cond;
  do itr <- feature_iterator f fs s;
  match itr with
  | [] => Err ValueError                                                                               (* 182-187 *)
  | first :: _ =>
      do ua <- get_uid_from_properties (ft_props first) uid;                                           (* 164-165 *)
      map_res (set_uid (fst ua) (snd ua)) itr
  end.

(** geom_cabinet.py:354-377 [__len__]. *)
Definition cabinet_len (f : gfile) (uid : option string) (select_uid : option (list Z)) (cond : option (feature -> bool))
    (slc : option rawslc) : res Z :=
  match slc with
  | Some r => do s <- index_slice r;
              match s with SSlice _ => Err TypeError | SInts l => Ok (zlen l) | SBools m => Ok (zlen m) end
  | None => match select_uid with
            | Some l => Ok (zlen l)
            | None => do fs <- get_features f uid None cond; Ok (zlen fs)
            end
  end.

(** ** The variables of a vector file *)

(** [arr[i] = v] for an array with as many elements. *)
Fixpoint set_at {A} (l : list A) (i : nat) (v : A) : option (list A) :=
  match l, i with
  | [], _ => None
  | _ :: t, O => Some (v :: t)
  | x :: t, S j => match set_at t j v with Some t' => Some (x :: t') | None => None end
  end.

(** driver/vector.py:135-147 the loop that fills the array of the property
    [name]; a null is masked. *)
Fixpoint fill (rows : list row) (idx : nat) (name : string) (acc : list cell) : res (list cell) :=
  match rows with
  | [] => Ok acc
  | r :: t =>
      match dget String.eqb (rw_props r) name with
      | None => Err KeyError
      | Some c => match set_at acc idx c with
                  | None => Err IndexError
                  | Some acc' => fill t (S idx) name acc'
                  end
      end
  end.

(** driver/vector.py:108-159 [get_variable_value] of a property on a dimension of
    length [n] with the source index [src]; the array starts with zeros, and a
    masked element is written [CNull]. *)
Definition vector_value (f : gfile) (n : Z) (src : option srcidx) (name : string) : res (list cell) :=
  match src with
  | None => Err ValueError
  | Some s =>
      let slc := match s with SrcBounds a b => RSlice (slice_of a b) | SrcFancy l => RInts l end in
      do rows <- iter_geoms f None None None (Some slc);
      fill rows 0 name (repeat (CInt 0) (Z.to_nat n))
  end.
