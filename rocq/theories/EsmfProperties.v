(** C87-C89. *)
From Verif Require Import Py Spec NdModel NdSpec CoordModel RegridModel EsmfModel EsmfSpec EsmfProofs EsmfMore EsmfField EsmfWitness.
Local Close Scope Q_scope.
Local Open Scope string_scope.
Local Open Scope Z_scope.

(** ** C87.  Grids there and back: centres are the same, corners are the same but go round
    the other way. *)
Theorem C87_partial : forall A (zero : A) (g : cgrid A) m k, GoodGrid g -> get_mask g = Ok k -> MaskFits g k ->
  (m = Flag Conserve -> has_bounds (cg_coords g) = true) -> Touching zero g ->
  exists e g' h, to_esmf zero g m None false = Ok (e, g') /\ from_esmf zero e = Ok h /\ GoodGrid h /\ cg_yd h = cg_yd g /\ cg_xd h = cg_xd g /\
    (k = None -> cg_mask_key g = None -> get_mask h = Ok None) /\
    forall i j, InGrid g i j -> center zero h i j = center zero g i j /\
      ring zero h i j = if wants_corners g m then option_map turned (ring zero g i j) else None.
Proof. exact @grid_roundtrip. Qed.
Print Assumptions C87_partial.
Example C87_case : GoodGrid (grid23 None []) /\ Touching 0 (grid23 None []) /\ wants_corners (grid23 None []) Auto = true /\
  ring 0 (grid23 None []) 1 2 = Some [(2, 240); (2, 360); (4, 360); (4, 240)] /\
  match to_esmf 0 (grid23 None []) Auto None false with
  | Ok (e, _) => match from_esmf 0 e with Ok h => center 0 h 1 2 = (3, 300) /\ ring 0 h 1 2 = Some [(2, 240); (4, 240); (4, 360); (2, 360)] | Err _ => False end
  | Err _ => False end.
Proof. split; [apply grid23_good|]. split; [apply grid23_good|]. vm_compute. auto. Qed.

(** The grid that is converted keeps its cells and its mask. *)
Theorem C87_source_partial : forall A (zero : A) (g : cgrid A) m k p, GoodGrid g -> get_mask g = Ok k -> MaskFits g k ->
  (m = Flag Conserve -> has_bounds (cg_coords g) = true) -> Touching zero g ->
  exists e g', to_esmf zero g m None p = Ok (e, g') /\ cg_yd g' = cg_yd g /\ cg_xd g' = cg_xd g /\ get_mask g' = Ok k /\
    forall i j, center zero g' i j = center zero g i j /\ ring zero g' i j = ring zero g i j.
Proof. exact @grid_source. Qed.
Print Assumptions C87_source_partial.
(** But vectors with bounds become two-dimensional coordinates on the caller's grid. *)
Theorem C87_source_refuted : forall A (zero : A) (g : cgrid A) ys xs b k p, cg_coords g = Vectors ys xs (Some b) -> GoodGrid g -> get_mask g = Ok k -> MaskFits g k ->
  Touching zero g -> exists e g' y x c, to_esmf zero g Auto None p = Ok (e, g') /\ cg_coords g' = Arrays y x c.
Proof. exact @grid_expanded. Qed.
Print Assumptions C87_source_refuted.

(** Converting the result again moves the corners at the far edges. *)
Theorem C87_again_refuted : exists (g g' h h' : cgrid Z) e e' cy cx cy' cx', GoodGrid g /\ Touching 0 g /\
  to_esmf 0 g Auto None false = Ok (e, g') /\ from_esmf 0 e = Ok h /\ to_esmf 0 h Auto None false = Ok (e', h') /\
  ce_corners e = Some (cy, cx) /\ ce_corners e' = Some (cy', cx') /\ (nd_at cy [3; 0], nd_at cx [3; 0]) = (0, 360) /\ (nd_at cy' [3; 0], nd_at cx' [3; 0]) = (2, 240).
Proof. exact converted_twice. Qed.
Print Assumptions C87_again_refuted.

(** Periodic grids: the far corners of the last column become the near corners of the
    first (0 instead of 360 degrees). *)
Theorem C87_periodic_refuted : forall A (zero : A) (g : cgrid A) m k, GoodGrid g -> get_mask g = Ok k -> MaskFits g k ->
  (m = Flag Conserve -> has_bounds (cg_coords g) = true) -> Touching zero g -> wants_corners g m = true ->
  exists e g' h, to_esmf zero g m None true = Ok (e, g') /\ from_esmf zero e = Ok h /\
    (forall i j, InGrid g i j -> j < snd (cg_xd g) - 1 -> ring zero h i j = option_map turned (ring zero g i j)) /\
    forall i a b c d a' b' c' d', InGrid g i 0 -> ring zero g i (snd (cg_xd g) - 1) = Some [a; b; c; d] -> ring zero g i 0 = Some [a'; b'; c'; d'] ->
      ring zero h i (snd (cg_xd g) - 1) = Some [a; d; d'; a'].
Proof. exact @grid_periodic. Qed.
Print Assumptions C87_periodic_refuted.
Example C87_periodic_case : match to_esmf 0 (grid23 None []) Auto None true with
  | Ok (e, _) => match from_esmf 0 e with Ok h => ring 0 h 1 2 = Some [(2, 240); (4, 240); (4, 0); (2, 0)] | Err _ => False end
  | Err _ => False end.
Proof. vm_compute. reflexivity. Qed.

(** The mask keeps the order (x, y) of ESMF: unless the grid is square the result cannot
    be converted any more.  A mask variable with a name of its own is not found. *)
Theorem C87_mask_refuted : forall A (zero : A) (g : cgrid A) m a p, GoodGrid g -> get_mask g = Ok (Some a) -> MaskFits g (Some a) ->
  (m = Flag Conserve -> has_bounds (cg_coords g) = true) -> Touching zero g ->
  exists e g' h, to_esmf zero g m None p = Ok (e, g') /\ from_esmf zero e = Ok h /\
    (cg_mask_key g = Some SPATIAL_MASK -> exists b, get_mask h = Ok (Some b) /\ dget String.eqb (cg_masks h) SPATIAL_MASK = Some (mkmvar [cg_xd g; cg_yd g] b) /\
       nd_shape b = [snd (cg_xd g); snd (cg_yd g)] /\ (forall i j, InGrid g i j -> nd_at b [j; i] = nd_at a [i; j]) /\
       (snd (cg_xd g) <> snd (cg_yd g) -> forall m' p', to_esmf zero h m' None p' = Err ValueError)) /\
    (cg_mask_key g <> Some SPATIAL_MASK -> get_mask h = Err KeyError).
Proof. exact @grid_mask. Qed.
Print Assumptions C87_mask_refuted.
Example C87_mask_case : let g := grid23 (Some SPATIAL_MASK) [(SPATIAL_MASK, mkmvar [("lat", 2); ("lon", 3)] mask23)] in
  GoodGrid g /\ Touching 0 g /\ get_mask g = Ok (Some mask23) /\ MaskFits g (Some mask23).
Proof. split; [apply grid23_good|]. split; [apply grid23_good|]. split; reflexivity. Qed.
(** On a square grid other cells are masked. *)
Theorem C87_square_mask_refuted : exists (g g' h : cgrid Z) e a b, GoodGrid g /\ get_mask g = Ok (Some a) /\ to_esmf 0 g Auto None false = Ok (e, g') /\ from_esmf 0 e = Ok h /\
  get_mask h = Ok (Some b) /\ nd_shape b = nd_shape a /\ nd_at a [0; 1] = true /\ nd_at b [0; 1] = false /\ nd_at b [1; 0] = true.
Proof. exact square_mask. Qed.
Print Assumptions C87_square_mask_refuted.
(** A mask given by the caller is lost, and the grid acquires a mask that hides nothing. *)
Theorem C87_value_mask_refuted : forall A (zero : A) (g : cgrid A) m v p e g', cg_mask_key g = None -> to_esmf zero g m (Some v) p = Ok (e, g') ->
  (exists a, get_mask g' = Ok (Some a) /\ forall i j, nd_at a [i; j] = false) /\ (exists a, ce_mask e = Some a) /\ forall h, from_esmf zero e = Ok h -> get_mask h = Ok None.
Proof. exact @grid_value_mask. Qed.
Print Assumptions C87_value_mask_refuted.
Example C87_value_mask_case : match to_esmf 0 (grid23 None []) Auto (Some mask23) false with
  | Ok (e, g') => match ce_mask e, get_mask g' with Some b, Ok (Some a) => nd_at b [2; 0] = false /\ nd_at b [0; 0] = true /\ nd_at a [0; 2] = false | _, _ => False end
  | Err _ => False end.
Proof. vm_compute. auto. Qed.

(** ** C88.  Fields there and back: the variable has the same dimensions and values; masked
    is what the grid hides. *)
Theorem C88_partial : forall A (zero : A) (f : dfield A) v name, Convertible f v -> GoodCells (df_grid f) ->
  forall m, (m = Flag Conserve -> rg_bounds (df_grid f) = true) ->
  exists e v' w, to_efield f name m None = Ok (e, v') /\ SameVar v' (dv_var v) /\ from_efield zero e = Ok w /\
    dv_name w = match name with Some n => n | None => dv_name v end /\ nv_dims (dv_var w) = nv_dims (dv_var v) /\
    SameArray (nv_value (dv_var w)) (nv_value (dv_var v)) /\
    forall idx, IndexOf (nv_shape (dv_var v)) idx ->
      (masked (dv_var w) idx = true <->
       exists k i j, rg_mask (df_grid f) = Some k /\ CellOf (nv_names (dv_var v)) (df_grid f) idx i j /\ nd_at k [i; j] = true).
Proof. exact @field_roundtrip. Qed.
Print Assumptions C88_partial.
Example C88_case : Convertible field_t22 dvar_t22 /\ GoodCells cells22.
Proof. exact field_t22_ok. Qed.
(** So what the variable itself hides is shown again. *)
Theorem C88_mask_refuted : exists (f : dfield Z) v e v' w, Convertible f v /\ GoodCells (df_grid f) /\ to_efield f None Auto None = Ok (e, v') /\ from_efield 0 e = Ok w /\
  masked (dv_var v) [0; 1; 1] = true /\ masked (dv_var w) [0; 1; 1] = false /\ masked (dv_var w) [2; 0; 1] = true.
Proof. exact shown_again. Qed.
Print Assumptions C88_mask_refuted.
(** Variables without the dimension of time, and integers, cannot be converted. *)
Theorem C88_no_time_refuted : forall A (f : dfield A) v name m vm t r, df_vars f = [v] -> df_time f = Some (t :: r) -> ~ In (fst t) (nv_names (dv_var v)) ->
  exists ex, to_efield f name m vm = Err ex.
Proof. exact @field_no_time. Qed.
Print Assumptions C88_no_time_refuted.
Theorem C88_integers_refuted : forall A (f : dfield A) v name m vm, df_vars f = [v] -> dv_float v = false -> exists ex, to_efield f name m vm = Err ex.
Proof. exact @field_integers. Qed.
Print Assumptions C88_integers_refuted.

(** ** C89.  The regridding operation: the result is in the system of the source. *)
Theorem C89_result_partial : forall C F (eqb : C -> C -> bool) (spherical : C) (transform : C -> C -> F -> res F) subset regrid,
  (forall a b, eqb a b = true <-> a = b) -> forall u r src dst o s' d', (forall a b x, regrid a b = Ok (Some x) -> of_crs x = Some spherical) ->
  execute eqb spherical transform subset regrid u r src dst = (Ok (Some o), s', d') -> of_crs o = of_crs src.
Proof. exact @operation_result. Qed.
Print Assumptions C89_result_partial.
Example C89_case : run false true (mkofield (Some 1) 5) (mkofield (Some 1) 7) =
  (Ok (Some (mkofield (Some 1) 407)), mkofield (Some 0) 4, mkofield (Some 1) 7).
Proof. exact run_case. Qed.
(** It is made from the source and the destination (or its subset) in the spherical system. *)
Theorem C89_inputs_partial : forall C F (eqb : C -> C -> bool) (spherical : C) (transform : C -> C -> F -> res F) subset regrid,
  (forall a b, eqb a b = true <-> a = b) -> forall u r src dst o s' d' c, (forall a b x, regrid a b = Ok (Some x) -> of_crs x = Some spherical) -> of_crs src = Some c ->
  execute eqb spherical transform subset regrid u r src dst = (Ok (Some o), s', d') ->
  exists s d sub out, BroughtTo transform spherical src s /\ BroughtTo transform spherical dst d /\ (if (u : bool) then subset d else Ok d) = Ok sub /\
    regrid s sub = Ok (Some out) /\ BroughtTo transform c out o.
Proof. exact @operation_inputs. Qed.
Print Assumptions C89_inputs_partial.
(** The destination is given back as it was if that is asked for, the transformation can be
    undone and nothing is raised. *)
Theorem C89_destination_partial : forall C F (eqb : C -> C -> bool) (spherical : C) (transform : C -> C -> F -> res F) subset regrid,
  (forall a b, eqb a b = true <-> a = b) -> forall u src dst o s' d', Exact transform spherical dst ->
  execute eqb spherical transform subset regrid u true src dst = (Ok o, s', d') -> d' = dst.
Proof. exact @operation_destination. Qed.
Print Assumptions C89_destination_partial.
(** Sources regridded one after the other to one destination: every result is what it would
    be on its own. *)
Theorem C89_sequence : forall C F (eqb : C -> C -> bool) (spherical : C) (transform : C -> C -> F -> res F) subset regrid,
  (forall a b, eqb a b = true <-> a = b) -> forall u r srcs dst outs, (r = true -> Exact transform spherical dst) ->
  execute_all eqb spherical transform subset regrid u r srcs dst = outs -> Forall (fun o => exists x, o = Ok x) outs ->
  outs = map (fun s => fst (fst (execute eqb spherical transform subset regrid u r s dst))) srcs.
Proof. exact @operation_sequence. Qed.
Print Assumptions C89_sequence.
Example C89_sequence_case : execute_all Z.eqb 0 shift same_subset take_dst false false [mkofield (Some 1) 5; mkofield (Some 0) 6] (mkofield (Some 1) 7) =
  [Ok (Some (mkofield (Some 1) 407)); Ok (Some (mkofield (Some 0) 606))].
Proof. reflexivity. Qed.
(** The source is left in the spherical system. *)
Theorem C89_source_refuted : forall C F (eqb : C -> C -> bool) (spherical : C) (transform : C -> C -> F -> res F) subset regrid,
  (forall a b, eqb a b = true <-> a = b) -> forall u r src dst o s' d' c, of_crs src = Some c -> c <> spherical ->
  execute eqb spherical transform subset regrid u r src dst = (Ok o, s', d') -> of_crs s' = Some spherical.
Proof. exact @operation_source. Qed.
Print Assumptions C89_source_refuted.
(** If anything is raised, the destination stays in the spherical system even if it was to
    be given back. *)
Theorem C89_failure_refuted : forall C F (eqb : C -> C -> bool) (spherical : C) (transform : C -> C -> F -> res F) subset regrid,
  (forall a b, eqb a b = true <-> a = b) -> forall u r src dst dst1 c e, of_crs dst = Some c -> c <> spherical -> to_spherical eqb spherical transform dst = Ok (dst1, Some c) ->
  fst (fst (execute eqb spherical transform subset regrid u r src dst)) = Err e ->
  of_crs (snd (execute eqb spherical transform subset regrid u r src dst)) = Some spherical.
Proof. exact @operation_failure. Qed.
Print Assumptions C89_failure_refuted.
Example C89_failure_case : execute Z.eqb 0 shift same_subset (fun _ _ => Err RegriddingError) false true (mkofield (Some 0) 5) (mkofield (Some 1) 7) =
  (Err RegriddingError, mkofield (Some 0) 5, mkofield (Some 0) 6).
Proof. reflexivity. Qed.
(** Only writing weights for a source in another system raises. *)
Theorem C89_weights_refuted : forall C F (eqb : C -> C -> bool) (spherical : C) (transform : C -> C -> F -> res F) subset regrid,
  (forall a b, eqb a b = true <-> a = b) -> forall u r src dst c dst1 bd, of_crs src = Some c -> c <> spherical -> (forall a b, regrid a b = Ok None) ->
  to_spherical eqb spherical transform dst = Ok (dst1, bd) -> (u = true -> exists s, subset dst1 = Ok s) -> (exists s, update_crs transform src spherical = Ok s) ->
  exists s' d', execute eqb spherical transform subset regrid u r src dst = (Err AttributeError, s', d').
Proof. exact @operation_weights. Qed.
Print Assumptions C89_weights_refuted.
