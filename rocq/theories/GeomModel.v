(** Model of the spatial operations of a geometry variable (variable/geom.py):
    [get_mask_from_intersects], [get_masking_slice], [get_intersects], [get_intersection],
    [get_nearest] and [get_buffer], and of the spatial index (spatial/index.py).

    Shapely and rtree are parameters: [intersects], [touches], [inter], [buffered],
    [distance], [centroid], the parts of a geometry, and the identifiers that rtree finds
    for a box.  Array indices are natural numbers.  Mask and value of the other variables
    of the collection (the cascade) are modelled in NdModel.v. *)
From Coq Require Import QArith.
From Verif Require Import Py NdModel.
Local Close Scope Q_scope.
Local Open Scope nat_scope.

(** A numpy array of one or two dimensions; [A2 n rows] has [n] columns. *)
Inductive arr (A : Type) := A1 (l : list A) | A2 (ncol : nat) (rows : list (list A)).
Arguments A1 {A} l.
Arguments A2 {A} ncol rows.
(** [reshape(-1)] and back. *)
Definition flat {A} (a : arr A) : list A := match a with A1 l => l | A2 _ rows => concat rows end.
Fixpoint chop {A} (ncol nrow : nat) (l : list A) : list (list A) :=
  match nrow with O => [] | S k => firstn ncol l :: chop ncol k (skipn ncol l) end.
Definition reshape {A B} (like : arr A) (l : list B) : arr B :=
  match like with A1 _ => A1 l | A2 n rows => A2 n (chop n (length rows) l) end.
(** [a.__getitem__] of slices, one for each dimension. *)
Definition slice_list {A} (s : nat * nat) (l : list A) : list A := firstn (snd s - fst s) (skipn (fst s) l).
Definition slice_arr {A} (s : list (nat * nat)) (a : arr A) : arr A :=
  match a, s with
  | A1 l, [s0] => A1 (slice_list s0 l)
  | A2 _ rows, [s0; s1] => A2 (snd s1 - fst s1) (map (slice_list s1) (slice_list s0 rows))
  | _, _ => a
  end.
Fixpoint replace_nth {A} (l : list A) (i : nat) (x : A) : list A :=
  match l, i with
  | [], _ => []
  | _ :: t, O => x :: t
  | y :: t, S k => y :: replace_nth t k x
  end.

Section Geometry.
Variable G : Type.
Variable intersects touches : G -> G -> bool.
Variable inter : G -> G -> G.
(** [iter(geom)], or the geometry itself. *)
Variable parts : G -> list G.
(** rtree: identifiers of the added geometries whose bounds meet those of the geometry. *)
Variable rtree : list G -> G -> list nat.

(** A geometry variable: values and mask ([None] if there is none). *)
Record gvar := mkgvar { gv_value : arr G; gv_mask : option (arr bool) }.
(** variable/base.py:1004-1024 [get_mask(create=True)]. *)
Definition mask_of (v : gvar) : arr bool :=
  match gv_mask v with Some m => m | None => reshape (gv_value v) (map (fun _ => false) (flat (gv_value v))) end.

(** [np.ma.array(l, mask=m).compressed()]. *)
Fixpoint compressed {A} (l : list A) (m : list bool) : list A :=
  match l, m with
  | x :: t, b :: s => if b then compressed t s else x :: compressed t s
  | _, _ => []
  end.

(** spatial/index.py:37-71 [SpatialIndex.iter_intersects]. *)
Definition iter_intersects (geom : G) (target : list G) (keep_touches : bool) : list nat :=
  flat_map (fun sub =>
    filter (fun idx =>
      match nth_error target idx with
      | Some g => intersects sub g && (keep_touches || negb (touches sub g))
      | None => false
      end) (rtree target sub)) (parts geom).

(** variable/geom.py:1401-1435 [geometryvariable_get_mask_from_intersects]. *)
Definition mask_from_intersects (v : gvar) (geom : G) (use_spatial_index keep_touches : bool) (original : option (arr bool)) : arr bool :=
  let original_mask := match original with Some m => m | None => mask_of v end in       (* 1404-1405 *)
  let fill := map (fun _ => true) (flat original_mask) in                               (* 1406-1408 *)
  let global_index := compressed (seq 0 (length (flat original_mask))) (flat original_mask) in
  let target := compressed (flat (gv_value v)) (flat original_mask) in                  (* 1415 *)
  reshape original_mask
    (if use_spatial_index then
       fold_left (fun f idx => replace_nth f (nth idx global_index 0) false)
         (iter_intersects geom target keep_touches) fill                                (* 1417-1421 *)
     else
       fold_left (fun f (ig : nat * G) =>
           replace_nth f (nth (fst ig) global_index 0)
             (if intersects geom (snd ig) then negb keep_touches && touches geom (snd ig) else true))
         (combine (seq 0 (length target)) target) fill).                                (* 1422-1433 *)

(** variable/geom.py:1243-1255: the slice of one process; [None] if all is masked.
    A mask without masked elements is taken to have two dimensions (1250). *)
Definition local_slice (m : arr bool) : res (option (list (nat * nat))) :=
  if forallb (fun b => b) (flat m) then Ok None
  else if negb (existsb (fun b => b) (flat m)) then
    match m with A1 _ => Err IndexError | A2 n rows => Ok (Some [(0, length rows); (0, n)]) end
  else match m with
       | A1 l => do s <- trim_slices_1d l; Ok (Some [s])
       | A2 n rows => do s <- trim_slices rows n; Ok (Some [fst s; snd s])
       end.

Definition list_min (l : list nat) : nat := match l with [] => 0 | x :: t => fold_left Nat.min t x end.
Definition list_max (l : list nat) : nat := fold_left Nat.max l 0.
Definition shifted (off : list nat) (s : list (nat * nat)) : list (nat * nat) :=
  map (fun os => (fst (snd os) + fst os, snd (snd os) + fst os)) (combine off s).

(** variable/geom.py:1233-1284 [get_masking_slice], the global slice: every process holds a
    block of the variable, with the start of its local bounds in each dimension, and a
    mask for it, or none.  Simplified: if a process raises, all do (the others wait for it). *)
Definition global_slice (ranks : list (list nat * option (arr bool))) : res (list (nat * nat)) :=
  do ls <- map_res (fun r => match snd r with
                             | None => Ok None
                             | Some m => do s <- local_slice m;
                                         Ok (match s with Some s => Some (shifted (fst r) s) | None => None end)
                             end) ranks;
  let found := flat_map (fun s => match s with Some s => [s] | None => [] end) ls in    (* 1266 *)
  match found with
  | [] => Err EmptySubsetError                                                          (* 1267-1281 *)
  | s0 :: _ => Ok (map (fun idx =>
      let column := flat_map (fun s => let p := nth idx s (0, 0) in [fst p; snd p]) found in
      (list_min column, list_max column)) (seq 0 (length s0)))                          (* 1272-1275 *)
  end.

(** variable/base.py:1026-1047 [set_mask(mask, update=True)]. *)
Definition or_masks (a b : arr bool) : arr bool :=
  reshape a (map (fun ab => fst ab || snd ab) (combine (flat a) (flat b))).
Definition set_mask (v : gvar) (m : arr bool) : gvar :=
  mkgvar (gv_value v) (Some (match gv_mask v with Some old => or_masks m old | None => m end)).
Definition slice_gvar (s : list (nat * nat)) (v : gvar) : gvar :=
  mkgvar (slice_arr s (gv_value v)) (match gv_mask v with Some m => Some (slice_arr s m) | None => None end).
Definition zero_offsets {A} (a : arr A) : list nat := match a with A1 _ => [0] | A2 _ _ => [0; 0] end.

(** variable/geom.py:679-716 [get_intersects] on one process. The mask is created on the
    copy (696-697, 1405) and sliced along. *)
Definition get_intersects (v : gvar) (geom : G) (use_spatial_index keep_touches : bool) : res (gvar * list (nat * nat)) :=
  let m := mask_from_intersects v geom use_spatial_index keep_touches None in
  do s <- global_slice [(zero_offsets m, Some m)];
  let sliced := slice_gvar s (mkgvar (gv_value v) (Some (mask_of v))) in
  Ok (set_mask sliced (slice_arr s m), s).

(** variable/geom.py:761-763: the unmasked geometries are replaced by their intersections. *)
Definition clipped (v : gvar) (geom : G) : arr G :=
  reshape (gv_value v) (map (fun gm : G * bool => if snd gm then fst gm else inter (fst gm) geom)
                          (combine (flat (gv_value v)) (flat (mask_of v)))).
(** Writing the array [a] through the view [s] of [whole]. *)
Definition put_slice {A} (s : list (nat * nat)) (a whole : arr A) : arr A :=
  match s, a, whole with
  | [s0], A1 l, A1 w => A1 (firstn (fst s0) w ++ l ++ skipn (fst s0 + length l) w)
  | [s0; s1], A2 n rows, A2 wn w =>
      A2 wn (firstn (fst s0) w
             ++ map (fun rw : list A * list A => firstn (fst s1) (snd rw) ++ fst rw ++ skipn (fst s1 + n) (snd rw))
                    (combine rows (skipn (fst s0) w))
             ++ skipn (fst s0 + length rows) w)
  | _, _, _ => whole
  end.

(** What is returned: a variable, or a tuple of the variable and the slice. *)
Inductive answer := Plain (v : gvar) | WithSlice (v : gvar) (s : list (nat * nat)).

(** variable/geom.py:718-764 [get_intersection]; returns the answer and the variable
    itself afterwards. *)
Definition get_intersection (v : gvar) (geom : G) (use_spatial_index keep_touches inplace intersects_check return_slice : bool)
  : res answer * gvar :=
  if intersects_check then
    match get_intersects v geom use_spatial_index keep_touches with
    | Err e => (Err e, v)
    | Ok (obj, s) =>
        let new := mkgvar (clipped obj geom) (gv_mask obj) in
        let v' := if inplace then mkgvar (put_slice s (clipped obj geom) (gv_value v)) (gv_mask v) else v in
        (Ok (if return_slice then WithSlice new s else Plain new), v')
    end
  else if return_slice then (Err AttributeError, v)                                     (* 750-757: [obj] is a tuple *)
  else
    let new := mkgvar (clipped v geom) (gv_mask v) in
    (Ok (Plain new), if inplace then new else v).

(** util/helpers.py:861-902 [iter_array(arr, return_value=True, mask=mask)]: positions of
    the flattened array. *)
Definition iter_array {A} (a : list A) (mask : option (list bool)) : list (nat * A) :=
  match mask with
  | None => combine (seq 0 (length a)) a
  | Some m => compressed (combine (seq 0 (length a)) a) m
  end.

(** ** Nearest *)
Variable distance : G -> G -> Q.
Variable centroid : G -> G.

(** A dictionary with numbers as keys: an equal key is replaced. *)
Fixpoint qset (d : list (Q * nat)) (k : Q) (i : nat) : list (Q * nat) :=
  match d with
  | [] => [(k, i)]
  | (k', i') :: t => if Qeq_bool k' k then (k', i) :: t else (k', i') :: qset t k i
  end.
Fixpoint qmin (d : list (Q * nat)) (best : Q * nat) : Q * nat :=
  match d with [] => best | (k, i) :: t => qmin t (if Qle_bool (fst best) k then best else (k, i)) end.

(** variable/geom.py:803-821 [get_nearest]: the position of the nearest geometry. *)
Definition get_nearest (v : gvar) (target : G) : res nat :=
  let c := centroid target in                                                           (* 811 *)
  let distances := fold_left (fun d (ig : nat * G) => qset d (distance c (snd ig)) (fst ig))
                     (iter_array (flat (gv_value v)) (match gv_mask v with Some m => Some (flat m) | None => None end)) [] in
  match distances with
  | [] => Err ValueError                                                                (* 815: min of nothing *)
  | kv :: t => Ok (snd (qmin t kv))
  end.
(** spatial/grid.py:523-524 [Grid.get_nearest]: with [return_indices] the answer is a tuple
    and has no [parent]. *)
Definition grid_get_nearest (v : gvar) (target : G) (return_indices : bool) : res nat :=
  do i <- get_nearest v target; if return_indices then Err AttributeError else Ok i.

(** ** Buffer *)
Variable buffered : G -> G.

(** variable/geom.py:646-677 [get_buffer]: the loop runs over the mask; no mask is an array
    with one element (util/helpers.py:862-867), which is not true.  A new array of objects
    holds [None] everywhere.  A row of a two-dimensional array has no [buffer]. *)
Definition get_buffer (v : gvar) : res (arr (option G)) :=
  let n := length (flat (gv_value v)) in
  match gv_mask v with
  | None =>
      match gv_value v with
      | A1 [] => Err IndexError
      | A1 (g :: t) => Ok (A1 (Some (buffered g) :: map (fun _ => None) t))
      | A2 _ _ => Err AttributeError
      end
  | Some m =>
      Ok (reshape (gv_value v) (map (fun gm : G * bool => if snd gm then None else Some (buffered (fst gm)))
                                  (combine (flat (gv_value v)) (flat m))))
  end.
End Geometry.
Arguments mkgvar {G} gv_value gv_mask.
Arguments gv_value {G} g.
Arguments gv_mask {G} g.
Arguments mask_of {G} v.
Arguments Plain {G} v.
Arguments WithSlice {G} v s.
