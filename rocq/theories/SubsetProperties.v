(** Subsetting by selection geometries: C73 (one geometry leaves the field as it was)
    and C74 (several geometries and datasets do not get in each other's way). *)
From Verif Require Import Py Lib SubsetModel SubsetSpec SubsetProofs SubsetEngine SubsetWitness.
Local Open Scope string_scope.
Local Open Scope Z_scope.

(** * C73 *)

(** The result is the smallest window around the cells inside the geometry; the other
    cells of the window are masked; coordinates and data masks are those of the field.
    Missing: rotated pole fields and [wrap=True]. *)
Theorem C73_cells_partial : forall reproject f inside o f' r, InRange f -> f_crs f <> Rot ->
  get_spatial_subset reproject (new_operation false None) f inside = (Ok r, o, f') -> SubsetOf f inside f' r.
Proof. exact result_partial. Qed.
Print Assumptions C73_cells_partial.

(** [EmptySubsetError] is raised exactly when no cell lies inside. *)
Theorem C73_nothing_partial : forall reproject f inside, InRange f -> f_crs f <> Rot ->
  match get_spatial_subset reproject (new_operation false None) f inside with
  | (Ok _, _, _) => exists j i, Inside f inside j i
  | (Err e, _, _) => e = EmptySubsetError /\ forall j i, ~ Inside f inside j i
  end.
Proof. exact nothing_partial. Qed.
Print Assumptions C73_nothing_partial.

(** The field is afterwards as it was.  Missing: rotated pole fields, [wrap=True], and
    data in memory that have a mask. *)
Theorem C73_same_partial : forall reproject f inside r o f', f_crs f <> Rot -> f_loaded f = false \/ f_mask f = None ->
  get_spatial_subset reproject (new_operation false None) f inside = (Ok r, o, f') -> SameField f' f.
Proof. exact same_partial. Qed.
Print Assumptions C73_same_partial.

(** So it is when no cell lies inside.  Missing: spherical fields with longitudes
    both below 0 and above 180. *)
Theorem C73_same_empty_partial : forall reproject f inside o f', f_crs f <> Rot ->
  f_crs f <> Sph \/ (forall j i, 0 <= f_lon f j i) \/ (forall j i, f_lon f j i <= 180) ->
  get_spatial_subset reproject (new_operation false None) f inside = (Err EmptySubsetError, o, f') -> SameField f' f.
Proof. exact same_empty_partial. Qed.
Print Assumptions C73_same_empty_partial.

(** A mixed spherical field: 350 is the place -10. *)
Example C73_case :
  let f := row Sph [-30; 100; 170; 200; 350] false None in
  InRange f /\
  match get_spatial_subset move (new_operation false None) f (fun x _ => (-100 <=? x) && (x <=? -5)) with
  | (Ok r, _, f') => lons_of f' (Some r) = [-30; 100; 170; 200; 350] /\
                     masks_of f' (Some r) = [false; true; true; true; false] /\ field_lons f' = field_lons f
  | _ => False
  end /\
  match get_spatial_subset move (new_operation false None) f (fun x _ => (95 <=? x) && (x <=? 175)) with
  | (Ok r, _, f') => lons_of f' (Some r) = [100; 170] /\ masks_of f' (Some r) = [false; false]
  | _ => False
  end.
Proof.
  cbv zeta. split.
  - intros j i _ M. cbn in M |- *. do 5 (destruct i as [|i]; [cbn; lia|]). lia.
  - vm_compute. repeat split; reflexivity.
Qed.

(** A rotated pole field is left in the other coordinate system, always. *)
Theorem C73_rotated_refuted : forall reproject wrap output f inside, f_crs f = Rot ->
  f_crs (snd (get_spatial_subset reproject (new_operation wrap output) f inside)) = Sph.
Proof. exact rotated_target. Qed.
Print Assumptions C73_rotated_refuted.

(** When no cell lies inside, the longitudes of a mixed spherical field are left shifted. *)
Theorem C73_shifted_refuted :
  let f := row Sph [-10; 200] false None in
  let '(x, _, f') := get_spatial_subset move (new_operation false None) f (fun _ _ => false) in
  x = Err EmptySubsetError /\ field_lons f = [-10; 200] /\ field_lons f' = [350; 200].
Proof. vm_compute. repeat split; reflexivity. Qed.
Print Assumptions C73_shifted_refuted.

(** With [wrap=True] the longitudes of the field are wrapped along with those of the
    result; those that were below 0 end up 360 degrees too low. *)
Theorem C73_wrap_refuted :
  (let f := row Geo [170; 190] false None in
   let '(x, _, f') := get_spatial_subset move (new_operation true None) f (fun _ _ => true) in
   (exists r, x = Ok r) /\ field_lons f = [170; 190] /\ field_lons f' = [170; -170]) /\
  (let f := row Sph [-1; 190] false None in
   let '(x, _, f') := get_spatial_subset move (new_operation true None) f (fun _ _ => true) in
   (exists r, x = Ok r /\ lons_of f' (Some r) = [-361; -170]) /\ field_lons f' = [-361; -170]).
Proof. vm_compute. split; (split; [eexists; auto | auto]). Qed.
Print Assumptions C73_wrap_refuted.

(** Data in memory that have a mask get the cells outside the geometry masked in the
    field itself. *)
Theorem C73_mask_refuted :
  let f := row Geo [10; 20; 30] true (Some (fun _ _ _ => false)) in
  let '(x, _, f') := get_spatial_subset move (new_operation false None) f (fun x _ => negb (x =? 20)) in
  (exists r, x = Ok r) /\ field_masks f = [false; false; false] /\ field_masks f' = [false; true; false].
Proof. vm_compute. split; [eexists; reflexivity | auto]. Qed.
Print Assumptions C73_mask_refuted.

(** * C74 *)

(** Each geometry gives what it gives alone.  [Apart] lists what is missing. *)
Theorem C74_each_partial : forall reproject e f gs rs m, Apart e f ->
  process_geometries reproject e f gs = (rs, None, m) ->
  length rs = length gs /\
  forall k g r, nth_error gs k = Some g -> nth_error rs k = Some r ->
    exists r1 m1, process_geometries reproject e f [g] = ([r1], None, m1) /\ SameOutcome m r m1 r1.
Proof. exact each_partial. Qed.
Print Assumptions C74_each_partial.

(** The exception that ends a request is that of a geometry which alone raises it. *)
Theorem C74_stop_partial : forall reproject e f gs rs x m, Apart e f ->
  process_geometries reproject e f gs = (rs, Some x, m) ->
  exists g m1, nth_error gs (length rs) = Some g /\ process_geometries reproject e f [g] = ([], Some x, m1).
Proof. exact stop_partial. Qed.
Print Assumptions C74_stop_partial.

(** Each result holds the cells inside its geometry, with longitudes in the range asked for. *)
Theorem C74_cells_partial : forall reproject e f gs rs m, Apart e f -> InRange f -> e_output e = None ->
  process_geometries reproject e f gs = (rs, None, m) ->
  forall k g o, nth_error gs k = Some g -> nth_error rs k = Some o ->
    exists r, o = Some r /\
      SubsetWith (match e_wrapping e with
                  | Some true => PlaceOf (f_crs f)
                  | Some false => fun x y => y = x
                  | None => fun x y => y = x end) f g m r.
Proof. exact cells_partial. Qed.
Print Assumptions C74_cells_partial.

(** A rotated pole field asked for in longitudes and latitudes is subset like the field
    whose cells lie where [reproject] puts the rotated ones. *)
Theorem C74_rotated_partial : forall (reproject : crs -> crs -> Z -> Z -> Z * Z) e f f' g t, f_crs f = Rot -> e_output e = Some Sph \/ e_output e = Some Geo ->
  f' = mkF Sph (f_ny f) (f_nx f) false
         (fun j i => let (x, _) := reproject Rot Sph (f_lon f j i) (f_lat f j i) in x)
         (fun j i => let (_, y) := reproject Rot Sph (f_lon f j i) (f_lat f j i) in y) (f_mask f) (f_loaded f) ->
  process_geometries reproject e f (g :: t) = process_geometries reproject e f' (g :: t).
Proof. exact rotated_partial. Qed.
Print Assumptions C74_rotated_partial.

(** With an output coordinate system, each result has its coordinates in it. *)
Theorem C74_output_partial : forall reproject e f c gs rs m, Apart e f -> f_crs f <> Rot -> e_output e = Some c ->
  process_geometries reproject e f gs = (rs, None, m) ->
  forall k o, nth_error rs k = Some o -> exists r, o = Some r /\ r_crs r = c /\
    forall j i, (j < height r)%nat -> (i < width r)%nat ->
      let q := reproject (f_crs f) c (f_lon f (r_j0 r + j) (r_i0 r + i)) (f_lat f (r_j0 r + j) (r_i0 r + i)) in
      read_lat m r j i = snd q /\
      match e_wrapping e with
      | None => read_lon m r j i = fst q
      | Some w => w = true -> -180 < fst q <= 360 -> PlaceOf c (fst q) (read_lon m r j i)
      end.
Proof. exact output_partial. Qed.
Print Assumptions C74_output_partial.

(** Each dataset gives what it gives alone. *)
Theorem C74_datasets : forall reproject e fs gs out, process_datasets reproject e fs gs = (out, None) ->
  length out = length fs /\
  forall k f, nth_error fs k = Some f ->
    exists rs m, nth_error out k = Some (rs, m) /\ process_geometries reproject e f gs = (rs, None, m).
Proof. exact datasets_each. Qed.
Print Assumptions C74_datasets.

(** An exception ends the request at the first dataset that alone raises it. *)
Theorem C74_datasets_stop : forall reproject e fs gs out x, process_datasets reproject e fs gs = (out, Some x) ->
  exists done rs m f, out = (done ++ [(rs, m)])%list /\ nth_error fs (length done) = Some f /\
    process_geometries reproject e f gs = (rs, Some x, m) /\
    forall k f', (k < length done)%nat -> nth_error fs k = Some f' ->
      exists rs' m', nth_error done k = Some (rs', m') /\ process_geometries reproject e f' gs = (rs', None, m').
Proof. exact datasets_stop. Qed.
Print Assumptions C74_datasets_stop.

(** Two overlapping geometries on a mixed spherical field, wrapped. *)
Example C74_case :
  let e := mkE false None (Some true) in
  let f := row Sph [-30; 100; 170; 200; 350] false None in
  Apart e f /\
  let '(rs, stop, m) := process_geometries move e f [(fun x _ => (95 <=? x) || (x <=? -150)); (fun x _ => x <=? 150)] in
  stop = None /\ map (lons_of m) rs = [[100; 170; -160]; [-30; 100; 170; -160; -10]] /\
  map (masks_of m) rs = [[false; false; false]; [false; false; true; false; false]].
Proof.
  cbv zeta. split.
  - split; [reflexivity|]. split; [now left|]. cbn [e_output e_wrapping]. split; [discriminate|].
    right. left. split; [reflexivity|]. split; [reflexivity|].
    intros j i _ M. cbn in M |- *. do 5 (destruct i as [|i]; [cbn; lia|]). lia.
  - vm_compute. repeat split; reflexivity.
Qed.

(** A rotated pole field with an output coordinate system, and a geometry without cells. *)
Example C74_case_output :
  let e := mkE false (Some Geo) (Some true) in
  let f := row Rot [0; 100; 140] true None in
  Apart e f /\
  (let '(rs, stop, m) := process_geometries move e f [(fun x _ => x <=? 60); (fun x _ => (x <=? 60) || (140 <=? x))] in
   stop = None /\ map (lons_of m) rs = [[50; 150; -170]; [50; 150; -170]] /\
   map (masks_of m) rs = [[false; true; false]; [false; false; false]]) /\
  (let '(rs, stop, m) := process_geometries move e f [(fun x _ => x <=? 60); (fun x _ => x =? 77)] in
   length rs = 1%nat /\ stop = Some ExtentError) /\
  snd (process_datasets move e [f; f] [(fun x _ => x <=? 60)]) = None /\
  snd (process_datasets move e [f; f] [(fun x _ => x =? 77)]) = Some ExtentError.
Proof.
  cbv zeta. split.
  - split; [reflexivity|]. split; [now right|]. cbn [e_output]. auto.
  - vm_compute. repeat split; reflexivity.
Qed.

(** Slices given by standard names, when every dataset has every name. *)
Theorem C74_slice_partial : forall d dss, (forall names, In names dss -> forall kv, In kv d -> In (fst kv) names) ->
  slice_datasets d dss = flat_map (fun names => slice_datasets d [names]) dss.
Proof. exact slice_partial. Qed.
Print Assumptions C74_slice_partial.

Example C74_case_slice :
  slice_datasets [("time", (0, 2)); ("y", (1, 3))] [["time"; "y"; "x"]; ["y"; "time"]] =
  [[("time", (0, 2)); ("y", (1, 3))]; [("time", (0, 2)); ("y", (1, 3))]].
Proof. reflexivity. Qed.

(** Without an output coordinate system, only the first geometry's result of a rotated
    pole field is brought back. *)
Theorem C74_rotated_refuted :
  let e := mkE false None None in
  let f := row Rot [0; 10] false None in
  let all := fun _ _ : Z => true in
  let '(rs, stop, m) := process_geometries move e f [all; all] in
  stop = None /\ map (lons_of m) rs = [[0; 10]; [50; 60]] /\
  map (option_map r_crs) rs = [Some Rot; Some Sph].
Proof. vm_compute. repeat split; reflexivity. Qed.
Print Assumptions C74_rotated_refuted.

(** Wrapping the first result of a WGS84 field wraps the field: the second geometry
    misses a cell, or finds none where alone it finds one. *)
Theorem C74_wgs84_refuted :
  let e := mkE false None (Some true) in
  let f := row Geo [190; 200; 300] false None in
  let g1 := fun x _ : Z => x =? -170 in
  let g2 := fun _ _ : Z => true in
  (let '(rs, stop, m) := process_geometries move e f [g1; g2] in
   stop = None /\ map (masks_of m) rs = [[false]; [false; false]]) /\
  (let '(rs, stop, m) := process_geometries move e f [g2] in
   stop = None /\ map (masks_of m) rs = [[false; false; false]]) /\
  (let '(rs, stop, m) := process_geometries move e f [g1; g1] in stop = Some ExtentError).
Proof. vm_compute. repeat split; reflexivity. Qed.
Print Assumptions C74_wgs84_refuted.

(** Unwrapping overlapping results leaves longitudes of both ranges. *)
Theorem C74_unwrap_refuted :
  let e := mkE false None (Some false) in
  let f := row Sph [-100; -90; -80] false None in
  let g1 := fun x _ : Z => x =? -90 in
  let g2 := fun _ _ : Z => true in
  (let '(rs, stop, m) := process_geometries move e f [g1; g2] in
   stop = None /\ map (lons_of m) rs = [[270]; [-100; 270; -80]]) /\
  (let '(rs, stop, m) := process_geometries move e f [g2] in
   stop = None /\ map (lons_of m) rs = [[260; 270; 280]]).
Proof. vm_compute. repeat split; reflexivity. Qed.
Print Assumptions C74_unwrap_refuted.

(** Data in memory that have a mask: cells masked for one geometry are masked for the next. *)
Theorem C74_mask_refuted :
  let e := mkE false None None in
  let f := row Geo [10; 20; 30] true (Some (fun _ _ _ => false)) in
  let g1 := fun x _ : Z => negb (x =? 20) in
  let g2 := fun _ _ : Z => true in
  (let '(rs, stop, m) := process_geometries move e f [g1; g2] in
   stop = None /\ map (masks_of m) rs = [[false; true; false]; [false; true; false]]) /\
  (let '(rs, stop, m) := process_geometries move e f [g2] in
   stop = None /\ map (masks_of m) rs = [[false; false; false]]).
Proof. vm_compute. repeat split; reflexivity. Qed.
Print Assumptions C74_mask_refuted.

(** With [allow_empty=True] no result is brought to the coordinate system or the range
    asked for. *)
Theorem C74_allow_empty_refuted : forall reproject e f inside r m, f_crs f <> Rot -> e_allow_empty e = true ->
  process_geometry reproject e f inside = (Ok (Some r), m) -> r_crs r = f_crs f /\ (f_loaded f = false -> SameField m f).
Proof. exact allow_empty_crs. Qed.
Print Assumptions C74_allow_empty_refuted.

(** And a geometry without cells changes the longitudes of the results before it. *)
Theorem C74_allow_empty_shift_refuted :
  let e := mkE true None None in
  let f := row Sph [-10; 200] false None in
  let g1 := fun _ _ : Z => true in
  let g2 := fun _ _ : Z => false in
  (let '(rs, stop, m) := process_geometries move e f [g1; g2] in
   stop = None /\ map (lons_of m) rs = [[350; 200]; []]) /\
  (let '(rs, stop, m) := process_geometries move e f [g1] in
   stop = None /\ map (lons_of m) rs = [[-10; 200]]).
Proof. vm_compute. repeat split; reflexivity. Qed.
Print Assumptions C74_allow_empty_shift_refuted.

(** A dataset without one of the dimensions takes that slice from the datasets after it. *)
Theorem C74_slice_refuted :
  slice_datasets [("time", (0, 2)); ("y", (1, 3))] [["y"]; ["time"; "y"]] = [[("y", (1, 3))]; [("y", (1, 3))]] /\
  slice_datasets [("time", (0, 2)); ("y", (1, 3))] [["time"; "y"]] = [[("time", (0, 2)); ("y", (1, 3))]].
Proof. split; reflexivity. Qed.
Print Assumptions C74_slice_refuted.
