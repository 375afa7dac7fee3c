(** C90-C92. *)
From Verif Require Import Py Spec CoordModel WrapModel WrapSpec WrapProofs WrapMore WrapWitness.
Local Open Scope Q_scope.

(** ** C90.  Polygons without holes that are wrapped cover the same places; multi-part or
    not, cut or not. *)
Theorem C90_wrap_partial : forall inside clip, Library inside clip -> forall g g', CornersWithin (- (180)) 360 g -> NoHoles g -> wrap_region clip g = Ok g' ->
  CornersWithin (- (180)) 180 g' /\ NoHoles g' /\
  forall x y, - (180) < x < 180 -> ~ x == 0 -> (Covers inside g' x y <-> Covers inside g x y \/ Covers inside g (x + 360) y).
Proof.
  intros inside clip L g g' W N H. destruct (wrap_within _ _ L _ _ W H) as [A B]. split; [exact A|]. split; [exact (B N)|].
  intros x y R R0. split; [exact (wrap_adds _ _ L _ _ W N H x y R R0)|exact (wrap_keeps _ _ L _ _ W H x y R R0)].
Qed.
Print Assumptions C90_wrap_partial.
Theorem C90_unwrap_partial : forall inside clip, Library inside clip -> forall g g', CornersWithin (- (180)) 180 g -> NoHoles g -> unwrap_region clip g = Ok g' ->
  CornersWithin 0 360 g' /\ NoHoles g' /\
  forall x y, 0 < x < 360 -> ~ x == 180 -> (Covers inside g' x y <-> Covers inside g x y \/ Covers inside g (x - 360) y).
Proof.
  intros inside clip L g g' W N H. destruct (unwrap_within _ _ L _ _ W H) as [A B]. split; [exact A|]. split; [exact (B N)|].
  intros x y R R0. split; [exact (unwrap_adds _ _ L _ _ N H x y R R0)|exact (unwrap_keeps _ _ L _ _ W H x y R R0)].
Qed.
Print Assumptions C90_unwrap_partial.
(** There is such a library, for rectangles. *)
Example C90_library : Library rect_inside rect_clip.
Proof. exact rect_library. Qed.
Example C90_case : CornersWithin 0 360 box_case /\ NoHoles box_case /\ Crosses box_case /\
  wrap_region rect_clip box_case = Ok (Multi [box 170 (- (10)) 180 10; box (- (180)) (- (10)) (- (160)) 10]).
Proof. destruct box_case_ok as (A & B & C). auto. Qed.
(** There and back. *)
Theorem C90_roundtrip_partial : forall inside clip, Library inside clip -> forall g w u, CornersWithin 0 360 g -> NoHoles g ->
  wrap_region clip g = Ok w -> unwrap_region clip w = Ok u -> forall x y, 0 < x < 360 -> ~ x == 180 -> (Covers inside u x y <-> Covers inside g x y).
Proof. exact wrap_unwrap. Qed.
Print Assumptions C90_roundtrip_partial.
Example C90_roundtrip_case : exists w u, wrap_region rect_clip box_case = Ok w /\ unwrap_region rect_clip w = Ok u.
Proof. eexists. eexists. split; vm_compute; reflexivity. Qed.
(** With holes nothing is lost. *)
Theorem C90_holes_partial : forall inside clip, Library inside clip -> forall g g',
  (CornersWithin (- (180)) 360 g -> wrap_region clip g = Ok g' ->
     forall x y, - (180) < x < 180 -> ~ x == 0 -> Covers inside g x y \/ Covers inside g (x + 360) y -> Covers inside g' x y) /\
  (CornersWithin (- (180)) 180 g -> unwrap_region clip g = Ok g' ->
     forall x y, 0 < x < 360 -> ~ x == 180 -> Covers inside g x y \/ Covers inside g (x - 360) y -> Covers inside g' x y).
Proof. intros inside clip L g g'. split; [exact (wrap_keeps _ _ L g g')|exact (unwrap_keeps _ _ L g g')]. Qed.
Print Assumptions C90_holes_partial.
(** But the holes are filled. *)
Theorem C90_holes_refuted : exists g', wrap_region rect_clip (Single holed) = Ok g' /\ ~ rect_inside holed 205 15 /\ Covers rect_inside g' (- (155)) 15.
Proof. exact holed_case. Qed.
Print Assumptions C90_holes_refuted.
(** A geometry on both sides of the zero meridian that also reaches beyond the 180th loses
    that part. *)
Theorem C90_beyond_refuted : forall inside clip, Library inside clip -> forall p g', p_holes p = [] -> (exists q, In q (p_ext p) /\ fst q < 0) ->
  unwrap_region clip (Single p) = Ok g' -> forall x y, 180 < x < 360 -> ~ inside p (x - 360) y -> ~ Covers inside g' x y.
Proof. exact unwrap_drops. Qed.
Print Assumptions C90_beyond_refuted.
Example C90_beyond_case : unwrap_region rect_clip (Single (box (- (10)) 0 200 10)) = Ok (Multi [box 350 0 360 10; box 0 0 180 10]).
Proof. vm_compute. reflexivity. Qed.
(** When it raises: parts of lines and points. *)
Theorem C90_wrap_raises : forall clip g, Crosses g ->
  ((exists g', wrap_region clip g = Ok g') <->
   ~ In Dot (clip (exploded g) (- (180)) 180) /\ ~ In Line (clip (exploded g) 180 360) /\ ~ In Dot (clip (exploded g) 180 360)).
Proof. exact wrap_succeeds. Qed.
Print Assumptions C90_wrap_raises.
Theorem C90_unwrap_raises : forall clip p, (exists q, In q (p_ext p) /\ fst q < 0) ->
  ((exists r, unwrap_one clip p = Ok r) <-> ~ In Line (clip [p] (- (180)) 0) /\ ~ In Dot (clip [p] (- (180)) 0) /\ ~ In Dot (clip [p] 0 180)).
Proof. exact unwrap_succeeds. Qed.
Print Assumptions C90_unwrap_raises.
(** So a triangle that touches the zero meridian in one corner cannot be unwrapped. *)
Theorem C90_touching_refuted : forall clip p, (exists q, In q (p_ext p) /\ fst q < 0) -> clip [p] 0 180 = [Dot] -> forall g', unwrap_region clip (Single p) <> Ok g'.
Proof.
  intros clip p X E g' H. destruct (unwrap_all _ _ _ p H (or_introl eq_refl)) as [r Er].
  destruct (proj1 (unwrap_succeeds clip p X) (ex_intro _ r Er)) as (_ & _ & D). rewrite E in D. apply D. left. reflexivity.
Qed.
Print Assumptions C90_touching_refuted.

(** ** C91.  The wrapped state depends on the coordinates only, not on their order or on
    the processes, as long as there are not both negative longitudes and ones beyond 180. *)
Theorem C91_partial : forall pick pick' ranks ranks', (forall l, l <> [] -> In (pick l) l) -> (forall l, l <> [] -> In (pick' l) l) ->
  ranks <> [] -> ranks' <> [] -> ~ In EmptyTarget ranks -> ~ In EmptyTarget ranks' ->
  (forall x, (exists t, In t ranks /\ In x (xs_of_target t)) <-> (exists t, In t ranks' /\ In x (xs_of_target t))) ->
  ~ ((exists t x, In t ranks /\ In x (xs_of_target t) /\ x < 0) /\ (exists t x, In t ranks /\ In x (xs_of_target t) /\ 180 < x)) ->
  global_state pick ranks = global_state pick' ranks'.
Proof. exact state_distribution. Qed.
Print Assumptions C91_partial.
(** And it says what it should. *)
Theorem C91_meaning_partial : forall pick ranks, (forall l, l <> [] -> In (pick l) l) -> ranks <> [] -> ~ In EmptyTarget ranks ->
  ~ ((exists t x, In t ranks /\ In x (xs_of_target t) /\ x < 0) /\ (exists t x, In t ranks /\ In x (xs_of_target t) /\ 180 < x)) ->
  exists s, global_state pick ranks = Some s /\
    (s = UNWRAPPED <-> exists t x, In t ranks /\ In x (xs_of_target t) /\ 180 < x) /\
    (s = WRAPPED <-> exists t x, In t ranks /\ In x (xs_of_target t) /\ x < 0).
Proof. exact state_everywhere. Qed.
Print Assumptions C91_meaning_partial.
Example C91_case : global_state (fun l => hd None l) [GeomTarget [None; Some [10; 20]]; GridTarget [170; 190]] = Some UNWRAPPED /\
  global_state (fun l => hd None l) [GeomTarget [Some [190; 20]; None]; GeomTarget [Some [10; 170]]] = Some UNWRAPPED.
Proof. split; reflexivity. Qed.
(** Otherwise the order of the geometries and the distribution decide. *)
Theorem C91_mixed_refuted : forall pick a b, wrapped_state_from_array a = UNWRAPPED -> wrapped_state_from_array b = WRAPPED ->
  global_state pick [GeomTarget [Some a; Some b]] = Some UNWRAPPED /\ global_state pick [GeomTarget [Some b; Some a]] = Some WRAPPED /\
  global_state pick [GeomTarget [Some a]; GeomTarget [Some b]] = Some WRAPPED /\
  global_state pick [GridTarget (a ++ b)] = Some UNWRAPPED /\ global_state pick [GridTarget a; GridTarget b] = Some WRAPPED.
Proof. exact state_mixed. Qed.
Print Assumptions C91_mixed_refuted.
Example C91_mixed_case : wrapped_state_from_array [350] = UNWRAPPED /\ wrapped_state_from_array [- (10)] = WRAPPED.
Proof. split; reflexivity. Qed.
(** With a process that holds nothing it is a matter of chance. *)
Theorem C91_empty_refuted : forall xs, (forall x, In x xs -> 0 <= x <= 180) -> exists pick pick', (forall l, l <> [] -> In (pick l) l) /\ (forall l, l <> [] -> In (pick' l) l) /\
  global_state pick [EmptyTarget; GridTarget xs] = None /\ global_state pick' [EmptyTarget; GridTarget xs] = Some UNKNOWN.
Proof. exact state_empty. Qed.
Print Assumptions C91_empty_refuted.
(** The action found for two states does away with the difference. *)
Theorem C91_action : forall xs dst, (forall x, In x xs -> - (180) <= x <= 360) ->
  let ys := match get_wrap_action (wrapped_state_from_array xs) dst with Some WRAP => wrap_array 180 xs | Some UNWRAP => unwrap_array 0 xs | None => xs end in
  (dst = WRAPPED -> wrapped_state_from_array ys <> UNWRAPPED) /\ (dst = UNWRAPPED -> wrapped_state_from_array ys <> WRAPPED).
Proof. exact action_matches. Qed.
Print Assumptions C91_action.

(** ** C92.  A box prepared for a grid covers the longitudes of the box, up to whole turns. *)
Theorem C92_unwrapped_partial : forall inside clip, Library inside clip -> forall x0 y0 x1 y1, x0 < x1 -> y0 <= y1 -> forall tol, 0 <= tol -> - (180) <= x0 -> x1 <= 360 ->
  exists v, prepare clip tol UNWRAPPED (mkgvar (Single (box x0 y0 x1 y1)) None true) = Ok v /\
  forall x y, 0 < x < 360 -> ~ x == 180 -> (Covers inside (gv_geom v) x y <-> y0 <= y <= y1 /\ (x0 <= x <= x1 \/ x0 <= x - 360 <= x1)).
Proof. exact prepare_unwrapped. Qed.
Print Assumptions C92_unwrapped_partial.
Theorem C92_wrapped_partial : forall inside clip, Library inside clip -> forall x0 y0 x1 y1, x0 < x1 -> y0 <= y1 -> forall tol s, s = None \/ s = Some UNWRAPPED ->
  - (180) <= x0 -> x1 <= 360 ->
  exists v, prepare clip tol WRAPPED (mkgvar (Single (box x0 y0 x1 y1)) s true) = Ok v /\
  forall x y, - (180) < x < 180 -> ~ x == 0 -> (Covers inside (gv_geom v) x y <-> y0 <= y <= y1 /\ (x0 <= x <= x1 \/ x0 <= x + 360 <= x1)).
Proof. exact prepare_wrapped. Qed.
Print Assumptions C92_wrapped_partial.
(** Boxes with a margin around parts of an unwrapped grid. *)
Theorem C92_margin_partial : forall inside clip, Library inside clip -> forall x0 y0 x1 y1, x0 < x1 -> y0 <= y1 -> forall tol, 0 <= tol -> 0 <= x1 -> x1 <= 360 ->
  exists v, prepare clip tol UNWRAPPED (mkgvar (Single (box x0 y0 x1 y1)) (Some UNWRAPPED) true) = Ok v /\
  forall x y, 0 < x < 360 -> (Covers inside (gv_geom v) x y <-> y0 <= y <= y1 /\ (x0 <= x <= x1 \/ x0 <= x - 360 <= x1)).
Proof. exact prepare_margin. Qed.
Print Assumptions C92_margin_partial.
Example C92_case : match prepare rect_clip 10 UNWRAPPED (mkgvar (Single (box (- (10)) 0 50 20)) (Some UNWRAPPED) true) with
  | Ok v => exploded (gv_geom v) = [box (- (10)) 0 50 20; box 350 0 370 20] | Err _ => False end.
Proof. vm_compute. reflexivity. Qed.
(** Margins beyond 360, or beyond 180 for wrapped grids, are not brought round. *)
Theorem C92_east_refuted : forall inside clip, Library inside clip -> forall x0 y0 x1 y1, x0 < x1 -> y0 <= y1 -> forall tol s, 0 <= x0 -> 180 < x1 -> s = None \/ s = Some UNWRAPPED ->
  exists v, prepare clip tol UNWRAPPED (mkgvar (Single (box x0 y0 x1 y1)) s true) = Ok v /\
  forall x y, 0 < x < x0 -> x0 <= x + 360 <= x1 -> ~ Covers inside (gv_geom v) x y.
Proof.
  intros inside clip L x0 y0 x1 y1 Hx Hy tol s H0 H1 Hs. eexists. split; [exact (prepare_beyond_east clip x0 y0 x1 y1 Hx tol s H0 H1 Hs)|].
  intros x y R _ C. apply (box_covers inside clip L x0 y0 x1 y1 Hx Hy) in C. destruct C as [[C _] _]. apply (Qlt_not_le _ _ (proj2 R) C).
Qed.
Print Assumptions C92_east_refuted.
Example C92_east_case : 0 < 5 < 260 /\ 260 <= 5 + 360 <= 370.
Proof. repeat split; discriminate || reflexivity. Qed.
Theorem C92_dateline_refuted : forall inside clip, Library inside clip -> forall x0 y0 x1 y1, x0 < x1 -> y0 <= y1 -> forall tol,
  exists v, prepare clip tol WRAPPED (mkgvar (Single (box x0 y0 x1 y1)) (Some WRAPPED) true) = Ok v /\
  forall x y, - (180) < x < x0 /\ x0 <= x + 360 <= x1 \/ x1 < x < 180 /\ x0 <= x - 360 <= x1 -> ~ Covers inside (gv_geom v) x y.
Proof.
  intros inside clip L x0 y0 x1 y1 Hx Hy tol. eexists. split; [exact (prepare_beyond_west clip x0 y0 x1 y1 tol)|].
  intros x y R C. apply (box_covers inside clip L x0 y0 x1 y1 Hx Hy) in C. destruct C as [[C C'] _].
  destruct R as [[[_ R] _]|[[R _] _]]; [exact (Qlt_not_le _ _ R C)|exact (Qlt_not_le _ _ R C')].
Qed.
Print Assumptions C92_dateline_refuted.
Example C92_dateline_case : - (180) < - (175) < 160 /\ 160 <= - (175) + 360 <= 190.
Proof. repeat split; discriminate || reflexivity. Qed.
(** Longitudes below -180 are lost on unwrapped grids. *)
Theorem C92_west_refuted : forall inside clip, Library inside clip -> forall x0 y0 x1 y1, x0 < x1 -> forall tol s v, x0 < - (180) -> x1 < 0 -> s = None \/ s = Some WRAPPED ->
  y0 <= y1 -> prepare clip tol UNWRAPPED (mkgvar (Single (box x0 y0 x1 y1)) s true) = Ok v -> forall x y, 0 < x < 180 -> ~ Covers inside (gv_geom v) x y.
Proof. intros inside clip L x0 y0 x1 y1 Hx tol s v H0 H1 Hs Hy. exact (prepare_lost inside clip L x0 y0 x1 y1 Hx Hy tol s v H0 H1 Hs). Qed.
Print Assumptions C92_west_refuted.
Example C92_west_case : match prepare rect_clip 10 UNWRAPPED (mkgvar (Single (box (- (190)) 0 (- (90)) 20)) (Some WRAPPED) true) with
  | Ok v => exploded (gv_geom v) = [box 180 0 270 20] | Err _ => False end.
Proof. vm_compute. reflexivity. Qed.
