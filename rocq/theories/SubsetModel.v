(** Subsetting a field by selection geometries: spatial/spatial_subset.py,
    spatial/grid.py (subset operation), collection/field.py and variable/crs.py
    (wrapping), ops/engine.py (the loop over datasets and geometries).

    Simplifications.  The field has a grid without bounds and without a mask of its
    own, and one data variable over time, row and column.  Arrays are functions of
    their indices.  Longitudes and latitudes are integers.  A selection geometry is a
    set of places, given as a test on a longitude of the range -180 to 180 and a
    latitude; Shapely's tests and the change of a geometry's coordinate system or
    range are thereby assumed right.  Regridding, aggregation, calculations, bounds,
    nearest selection, buffering and the parallel parts are left out. *)
From Verif Require Import Py.

(** variable/crs.py:790,853,1134: spherical (790-809 and 1031-1068), WGS84 (853-885), rotated
    pole (1134-1178) and other, flat coordinate systems. *)
Inductive crs := Sph | Geo | Rot | Flat.

Definition crs_eqb (a b : crs) : bool :=
  match a, b with Sph, Sph | Geo, Geo | Rot, Rot | Flat, Flat => true | _, _ => false end.

(** constants.py:207-213 [WrappedState]; [NoState] is Python's [None]. *)
Inductive wstate := Wrapped | Unwrapped | Unknown | NoState.

Definition wstate_eqb (a b : wstate) : bool :=
  match a, b with
  | Wrapped, Wrapped | Unwrapped, Unwrapped | Unknown, Unknown | NoState, NoState => true
  | _, _ => false
  end.

(** A field in memory (collection/field.py).  [f_vec]: the longitudes are an array over columns only
    (spatial/grid.py [is_vectorized]).  [f_loaded]: the data variable is in memory;
    otherwise each subset reads its own copy from the source (variable/base.py:1675-1699). *)
Record field := mkF {
  f_crs : crs;
  f_ny : nat;
  f_nx : nat;
  f_vec : bool;
  f_lon : nat -> nat -> Z;
  f_lat : nat -> nat -> Z;
  f_mask : option (nat -> nat -> nat -> bool);
  f_loaded : bool }.

(** The result of a subset: rows [r_j0] to [r_j1] and columns [r_i0] to [r_i1] of
    the field.  Coordinates are a view of the field's arrays ([None]) or arrays of
    the result's own; so is the data mask (variable/base.py:322-334, 846-861). *)
Record result := mkR {
  r_crs : crs;
  r_j0 : nat;
  r_j1 : nat;
  r_i0 : nat;
  r_i1 : nat;
  r_own : option ((nat -> nat -> Z) * (nat -> nat -> Z));
  r_smask : nat -> nat -> bool;
  r_dmask : option (nat -> nat -> nat -> bool) }.

Definition set_lon (f : field) (lon : nat -> nat -> Z) : field :=
  mkF (f_crs f) (f_ny f) (f_nx f) (f_vec f) lon (f_lat f) (f_mask f) (f_loaded f).

Definition set_dmask (f : field) (m : option (nat -> nat -> nat -> bool)) : field :=
  mkF (f_crs f) (f_ny f) (f_nx f) (f_vec f) (f_lon f) (f_lat f) m (f_loaded f).

(** variable/base.py:322-334, 846-861: what a reader of the result sees while the field's arrays are those of [m]. *)
Definition read_lon (m : field) (r : result) (j i : nat) : Z :=
  match r_own r with Some (x, _) => x j i | None => f_lon m (r_j0 r + j) (r_i0 r + i) end.

Definition read_lat (m : field) (r : result) (j i : nat) : Z :=
  match r_own r with Some (_, y) => y j i | None => f_lat m (r_j0 r + j) (r_i0 r + i) end.

Definition read_mask (m : field) (r : result) (t j i : nat) : bool :=
  match r_dmask r with
  | Some d => d t j i
  | None => match f_mask m with Some d => d t (r_j0 r + j)%nat (r_i0 r + i)%nat | None => false end
  end.

Definition height (r : result) : nat := (r_j1 r - r_j0 r)%nat.
Definition width (r : result) : nat := (r_i1 r - r_i0 r)%nat.

(** variable/crs.py:357-376 [_get_wrapped_state_from_array_], 217-272 [get_wrapped_state]. *)
Definition state_of (c : crs) (ny nx : nat) (lon : nat -> nat -> Z) : wstate :=
  let any p := existsb (fun j => existsb (fun i => p (lon j i)) (seq 0 nx)) (seq 0 ny) in
  match c with
  | Sph | Geo => if any (fun x => 180 <? x) then Unwrapped else if any (fun x => x <? 0) then Wrapped else Unknown
  | Rot | Flat => NoState
  end.

Definition field_state (f : field) : wstate := state_of (f_crs f) (f_ny f) (f_nx f) (f_lon f).
Definition result_state (m : field) (r : result) : wstate :=
  state_of (r_crs r) (height r) (width r) (read_lon m r).

(** spatial/spatial_subset.py:217-256 [_prepare_geometry_]: where the selection geometry is
    found in the range of the field's longitudes. *)
Definition geom_at (s : wstate) (inside : Z -> Z -> bool) (x y : Z) : bool :=
  match s with
  | Unwrapped => (0 <=? x) && inside (if 180 <? x then x - 360 else x) y
  | _ => inside x y
  end.

(** spatial/wrap.py:54-82 [wrap], [unwrap] on one longitude. *)
Definition wrap_x (x : Z) : Z := if 180 <? x then x - 360 else x.
Definition unwrap_x (x : Z) : Z := if x <? 0 then x + 360 else x.

Section Proj.

(** Change of coordinate system of one point (proj4): a parameter. *)
Variable reproject : crs -> crs -> Z -> Z -> Z * Z.

(** collection/field.py:1014-1029 and spatial/base.py:567-603 [update_crs] on a field: new arrays, the
    grid is expanded (spatial/grid.py:806-808). *)
Definition update_crs (f : field) (to : crs) : field :=
  mkF to (f_ny f) (f_nx f) false
      (fun j i => fst (reproject (f_crs f) to (f_lon f j i) (f_lat f j i)))
      (fun j i => snd (reproject (f_crs f) to (f_lon f j i) (f_lat f j i)))
      (f_mask f) (f_loaded f).

(** The same (collection/field.py:1014-1029) on a result. *)
Definition update_crs_result (m : field) (r : result) (to : crs) : result :=
  mkR to (r_j0 r) (r_j1 r) (r_i0 r) (r_i1 r)
      (Some (fun j i => fst (reproject (r_crs r) to (read_lon m r j i) (read_lat m r j i)),
             fun j i => snd (reproject (r_crs r) to (read_lon m r j i) (read_lat m r j i))))
      (r_smask r) (r_dmask r).

(** variable/crs.py:343-346 writing the longitudes of a result in place: a view writes
    to the field's array.  An array over columns only is written in all rows. *)
Definition write_lon (m : field) (r : result) (h : Z -> Z) : result * field :=
  match r_own r with
  | Some (x, y) =>
      (mkR (r_crs r) (r_j0 r) (r_j1 r) (r_i0 r) (r_i1 r) (Some (fun j i => h (x j i), y)) (r_smask r) (r_dmask r), m)
  | None =>
      (r, set_lon m (fun j i =>
            if (f_vec m || ((r_j0 r <=? j) && (j <? r_j1 r)))%nat && ((r_i0 r <=? i) && (i <? r_i1 r))%nat
            then h (f_lon m j i) else f_lon m j i))
  end.

(** util/helpers.py:715-790 [get_trimmed_array_by_mask]: the first and one past the last
    index that holds a selected cell. *)
Definition extent (p : nat -> bool) (n : nat) : nat * nat :=
  let found := filter p (seq 0 n) in
  (hd 0%nat found, S (last found 0%nat)).

(** spatial/grid.py:555-726 [get_spatial_subset_operation], variable/geom.py:1233-1300 [get_masking_slice]: slice to the
    extent of the selected cells, mask the others, and mask the data variable along.
    If the data variable is loaded and has a mask, variable/base.py:2509-2541 writes the
    spatial mask into it through a view, so into the field's array. *)
Definition grid_subset (f : field) (sel : nat -> nat -> bool) : res (result * field) :=
  let row j := existsb (fun i => sel j i) (seq 0 (f_nx f)) in
  let col i := existsb (fun j => sel j i) (seq 0 (f_ny f)) in
  if existsb row (seq 0 (f_ny f)) then
    let (j0, j1) := extent row (f_ny f) in
    let (i0, i1) := extent col (f_nx f) in
    let smask := fun j i => negb (sel (j0 + j) (i0 + i))%nat in
    let masked := existsb (fun j => existsb (fun i => smask j i) (seq 0 (i1 - i0))) (seq 0 (j1 - j0)) in
    if masked then
      let base := fun t j i => match f_mask f with Some d => d t j i | None => false end in
      let r := mkR (f_crs f) j0 j1 i0 i1 None smask
                   (Some (fun t j i => base t (j0 + j) (i0 + i) || smask j i)%nat) in
      let f' := if f_loaded f then
                  set_dmask f (match f_mask f with
                    | Some d => Some (fun t j i =>
                        d t j i || (((j0 <=? j) && (j <? j1)) && ((i0 <=? i) && (i <? i1)))%nat && negb (sel j i))
                    | None => None end)
                else f in
      Ok (r, f')
    else Ok (mkR (f_crs f) j0 j1 i0 i1 None smask None, f)
  else Err EmptySubsetError.

(** spatial/spatial_subset.py:29-39: the operation object.  [o_rotated]:
    [_original_rotated_pole_state] is set; [o_shifted]: [_transformed_unwrapped_select]. *)
Record operation := mkOp {
  o_wrap : bool;
  o_output : option crs;
  o_rotated : bool;
  o_shifted : option (nat -> nat -> bool) }.

Definition new_operation (wrap : bool) (output : option crs) : operation := mkOp wrap output false None.

(** spatial/spatial_subset.py:264-277 [_prepare_target_]. *)
Definition prepare_target (o : operation) (f : field) : operation * field :=
  match f_crs f with
  | Rot => (mkOp (o_wrap o) (o_output o) true (o_shifted o), update_crs f Sph)
  | Sph =>
      if wstate_eqb (field_state f) Unwrapped then
        let select := fun j i => f_lon f j i <? 0 in
        if existsb (fun j => existsb (fun i => select j i) (seq 0 (f_nx f))) (seq 0 (f_ny f)) then
          (mkOp (o_wrap o) (o_output o) (o_rotated o) (Some select),
           set_lon f (fun j i => if select j i then f_lon f j i + 360 else f_lon f j i))
        else (o, f)
      else (o, f)
  | _ => (o, f)
  end.

(** spatial/spatial_subset.py:258-262 [_finalize_target]. *)
Definition finalize_target (o : operation) (f : field) : operation * field :=
  match o_shifted o with
  | Some select => (mkOp (o_wrap o) (o_output o) (o_rotated o) None,
                    set_lon f (fun j i => if select j i then f_lon f j i - 360 else f_lon f j i))
  | None => (o, f)
  end.

(** spatial/spatial_subset.py:53-175 [get_spatial_subset] with [operation='intersects'] and one
    geometry.  The operation and the field after the call are returned with the
    outcome: when no cell is selected the exception leaves them as they are then. *)
Definition get_spatial_subset (o : operation) (f : field) (inside : Z -> Z -> bool) : res result * operation * field :=
  let s := field_state f in
  let (o1, f1) := prepare_target o f in
  match grid_subset f1 (fun j i => geom_at s inside (f_lon f1 j i) (f_lat f1 j i)) with
  | Err e => (Err e, o1, f1)
  | Ok (r, f2) =>
      let r1 := match o_output o1 with None => if o_rotated o1 then update_crs_result f2 r Rot else r | Some _ => r end in
      let (r2, f3) := if o_wrap o1 && wstate_eqb (result_state f2 r1) Unwrapped
                      then write_lon f2 r1 wrap_x else (r1, f2) in
      let r3 := match o_output o1 with
                | Some c => if crs_eqb c (f_crs f3) then r2 else update_crs_result f3 r2 c
                | None => r2 end in
      let (o2, f4) := finalize_target o1 f3 in
      (Ok r3, o2, f4)
  end.

(** The part of the request (ops/core.py:118-175) that matters here.  [e_wrapping]: [Some true] is
    ['wrap'], [Some false] is ['unwrap']. *)
Record request := mkE {
  e_allow_empty : bool;
  e_output : option crs;
  e_wrapping : option bool }.

(** ops/engine.py:681-695 [_update_wrapping_]. *)
Definition update_wrapping (e : request) (m : field) (r : result) : result * field :=
  match e_wrapping e with
  | None => (r, m)
  | Some w =>
      match r_crs r with
      | Sph | Geo =>
          if wstate_eqb (result_state m r) (if w then Wrapped else Unwrapped) then (r, m)
          else write_lon m r (if w then wrap_x else unwrap_x)
      | _ => (r, m)
      end
  end.

(** ops/engine.py:573-678 [_update_aggregation_wrapping_crs_] without aggregation and vector output. *)
Definition update_result (e : request) (rotated : bool) (m : field) (r : result) : result * field :=
  let r1 := if rotated then match e_output e with
                            | Some Sph | Some Geo => r
                            | _ => update_crs_result m r Rot end
            else r in
  let r2 := match e_output e with Some c => update_crs_result m r1 c | None => r1 end in
  update_wrapping e m r2.

(** ops/engine.py:287-385, 413-437, 474-560 [_process_geometries_], one turn of the loop: the result ([None] is an empty
    field) and the field for the next turn. *)
Definition process_geometry (e : request) (f : field) (inside : Z -> Z -> bool) : res (option result) * field :=
  let rotated := crs_eqb (f_crs f) Rot in
  let f1 := if rotated then update_crs f Sph else f in
  match get_spatial_subset (new_operation false None) f1 inside with
  | (Err EmptySubsetError, _, f2) => if e_allow_empty e then (Ok None, f2) else (Err ExtentError, f2)
  | (Err x, _, f2) => (Err x, f2)
  | (Ok r, _, f2) =>
      if e_allow_empty e then (Ok (Some r), f2)
      else let (r', f3) := update_result e rotated f2 r in (Ok (Some r'), f3)
  end.

(** ops/engine.py:300-385, the whole loop: the results yielded, the exception that ended it, and the field
    whose arrays the results may be views of. *)
Fixpoint process_geometries (e : request) (f : field) (gs : list (Z -> Z -> bool)) : list (option result) * option exc * field :=
  match gs with
  | [] => ([], None, f)
  | g :: t =>
      match process_geometry e f g with
      | (Err x, f') => ([], Some x, f')
      | (Ok r, f') => let '(rs, stop, last) := process_geometries e f' t in (r :: rs, stop, last)
      end
  end.

(** ops/engine.py:75-156, 158-285 [_iter_collections_], [_process_subsettables_]: each dataset in turn, without
    calculations.  A dataset is read anew, so its field has arrays of its own; with
    each result goes the field it belongs to. *)
Fixpoint process_datasets (e : request) (fs : list field) (gs : list (Z -> Z -> bool)) : list (list (option result) * field) * option exc :=
  match fs with
  | [] => ([], None)
  | f :: t =>
      let '(rs, stop, last) := process_geometries e f gs in
      match stop with
      | Some x => ([(rs, last)], Some x)
      | None => let (out, stop') := process_datasets e t gs in ((rs, last) :: out, stop')
      end
  end.

End Proj.

(** ops/engine.py:453-472 [_get_slice_or_snippet_] and collection/field.py:578-581: the slices asked for, by standard name.
    Each dataset is given by the standard names of its dimensions; the entries of
    the request's dictionary without such a dimension are removed from the
    dictionary itself, which the next dataset is sliced with. *)
Definition slice_names (names : list string) (d : list (string * (Z * Z))) : list (string * (Z * Z)) :=
  filter (fun kv => existsb (String.eqb (fst kv)) names) d.

Fixpoint slice_datasets (d : list (string * (Z * Z))) (dss : list (list string)) : list (list (string * (Z * Z))) :=
  match dss with
  | [] => []
  | names :: t => let d' := slice_names names d in d' :: slice_datasets d' t
  end.
