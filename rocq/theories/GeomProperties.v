(** Selecting geometries (C93), intersections (C94), the nearest geometry (C95) and
    buffers (C96). *)
From Coq Require Import QArith Lia.
From Verif Require Import Py NdModel GeomModel GeomSpec GeomProofs GeomSlice GeomOps GeomMore GeomWitness.
Local Close Scope Q_scope.
Local Open Scope nat_scope.

Lemma not_all G (intersects touches : G -> G -> bool) keep v geom :
  length (shape (gv_value v)) = 2 \/ (exists pos g, at_ (gv_value v) pos = Some g /\ ~ Chosen intersects touches keep v geom pos) ->
  ~ AllIn G intersects touches keep v geom.
Proof. intros [H|[pos [g [E N]]]] [L [_ A]]; [congruence | exact (N (A pos g E))]. Qed.

(** * C93 *)

(** Missing: a variable of one dimension all of whose geometries are selected.

    The result has the box of positions that encloses the selected geometries tightly, the
    geometries of the variable in it, and exactly the selected ones are not masked. *)
Theorem C93_selected_partial : forall G (intersects touches : G -> G -> bool) parts rtree v geom use_index keep,
  IndexLibrary intersects touches parts rtree -> GoodVar v ->
  length (shape (gv_value v)) = 2 \/ (exists pos g, at_ (gv_value v) pos = Some g /\ ~ Chosen intersects touches keep v geom pos) ->
  (exists pos, Chosen intersects touches keep v geom pos) ->
  exists r s m, get_intersects G intersects touches parts rtree v geom use_index keep = Ok (r, s) /\
    Tight (Chosen intersects touches keep v geom) s /\ length s = length (shape (gv_value v)) /\
    shape (gv_value r) = map (fun p => snd p - fst p) s /\
    (forall pos g, at_ (gv_value r) pos = Some g <->
       length pos = length s /\ InSlices s (moved_idx s pos) /\ at_ (gv_value v) (moved_idx s pos) = Some g) /\
    gv_mask r = Some m /\ shape m = shape (gv_value r) /\
    forall pos, at_ m pos = Some false <-> length pos = length s /\ Chosen intersects touches keep v geom (moved_idx s pos).
Proof.
  intros G intersects touches parts rtree v geom use_index keep Lib Gv H [pos0 C0].
  pose proof (intersects_spec G intersects touches parts rtree Lib v geom use_index keep Gv (not_all _ _ _ _ _ _ H)) as X.
  destruct (get_intersects G intersects touches parts rtree v geom use_index keep) as [[r s]|e]; [|destruct X as [_ X]; now apply X in C0].
  destruct X as [F [W [Ev [Rv [Sv [m [Em [Rm [Sm Hm]]]]]]]]]. exists r, s, m. destruct F as [Ls [_ [T _]]].
  split; [reflexivity|]. split; [exact T|]. split; [exact Ls|]. split; [exact Sv|]. split; [|split; [exact Em|]; split; [exact Sm | exact Hm]].
  intros pos g. rewrite Ev. now apply slice_at.
Qed.
Print Assumptions C93_selected_partial.

(** Nothing selected: an exception says so. *)
Theorem C93_nothing_partial : forall G (intersects touches : G -> G -> bool) parts rtree v geom use_index keep,
  IndexLibrary intersects touches parts rtree -> GoodVar v ->
  length (shape (gv_value v)) = 2 \/ (exists pos g, at_ (gv_value v) pos = Some g) ->
  (forall pos, ~ Chosen intersects touches keep v geom pos) ->
  get_intersects G intersects touches parts rtree v geom use_index keep = Err EmptySubsetError.
Proof.
  intros G intersects touches parts rtree v geom use_index keep Lib Gv H No.
  assert (H' : length (shape (gv_value v)) = 2 \/ (exists pos g, at_ (gv_value v) pos = Some g /\ ~ Chosen intersects touches keep v geom pos)).
  { destruct H as [H|[pos [g E]]]; [now left | right]. exists pos, g. split; auto. }
  pose proof (intersects_spec G intersects touches parts rtree Lib v geom use_index keep Gv (not_all _ _ _ _ _ _ H')) as X.
  destruct (get_intersects G intersects touches parts rtree v geom use_index keep) as [[r s]|e].
  - destruct X as [[_ [_ [_ [pos C]]]] _]. now apply No in C.
  - now destruct X as [-> _].
Qed.
Print Assumptions C93_nothing_partial.

(** With the spatial index or without it: the same. *)
Theorem C93_index : forall G (intersects touches : G -> G -> bool) parts rtree v geom keep,
  IndexLibrary intersects touches parts rtree -> GoodVar v ->
  get_intersects G intersects touches parts rtree v geom true keep = get_intersects G intersects touches parts rtree v geom false keep /\
  mask_from_intersects G intersects touches parts rtree v geom true keep None = mask_from_intersects G intersects touches parts rtree v geom false keep None.
Proof. intros. split; [now apply same_intersects | now apply same_mask]. Qed.
Print Assumptions C93_index.

(** On any number of processes, each with its block of the variable: the slice encloses the
    selected positions of all processes tightly, or the exception says that there are none. *)
Theorem C93_processes_partial : forall ndim ranks, Blocks ndim ranks ->
  (forall off l, In (off, Some (A1 l)) ranks -> In true l) ->
  ((exists idx, Held ranks idx) -> exists s, global_slice ranks = Ok s /\ length s = ndim /\ Tight (Held ranks) s) /\
  ((forall idx, ~ Held ranks idx) -> global_slice ranks = Err EmptySubsetError).
Proof.
  intros ndim ranks Bl H.
  assert (N : forall off m, In (off, Some m) ranks -> ~ AllChosen1 m).
  { intros off [l|n rows] I A; [|exact A]. destruct A as [_ A]. specialize (A true (H off l I)). discriminate. }
  pose proof (global_slice_spec ndim ranks Bl N) as X. destruct (global_slice ranks) as [s|e].
  - split.
    + intros _. exists s. destruct X as [L [_ [T _]]]. auto.
    + intro No. destruct X as [_ [_ [_ [idx C]]]]. now apply No in C.
  - destruct X as [-> X]. split; auto. intros [idx C]. now apply X in C.
Qed.
Print Assumptions C93_processes_partial.

(** So the slice does not depend on the distribution. *)
Theorem C93_distribution_partial : forall ndim ranks ranks', Blocks ndim ranks -> Blocks ndim ranks' ->
  (forall off l, In (off, Some (A1 l)) ranks -> In true l) -> (forall off l, In (off, Some (A1 l)) ranks' -> In true l) ->
  (forall idx, Held ranks idx <-> Held ranks' idx) -> global_slice ranks = global_slice ranks'.
Proof.
  intros ndim ranks ranks' Bl Bl' H H' E.
  assert (N : forall rk : list (list nat * option (arr bool)), (forall off l, In (off, Some (A1 l)) rk -> In true l) -> forall off m, In (off, Some m) rk -> ~ AllChosen1 m).
  { intros rk K off [l|n rows] I A; [|exact A]. destruct A as [_ A]. specialize (A true (K off l I)). discriminate. }
  pose proof (global_slice_spec ndim ranks Bl (N _ H)) as X. pose proof (global_slice_spec ndim ranks' Bl' (N _ H')) as Y.
  destruct (global_slice ranks) as [s|e], (global_slice ranks') as [s'|e'].
  - f_equal. exact (tight_unique ndim _ _ _ _ X Y E).
  - destruct X as [_ [_ [_ [idx C]]]]. destruct Y as [_ Y]. apply E in C. now apply Y in C.
  - destruct Y as [_ [_ [_ [idx C]]]]. destruct X as [_ X]. apply E in C. now apply X in C.
  - destruct X as [-> _], Y as [-> _]. reflexivity.
Qed.
Print Assumptions C93_distribution_partial.

(** A variable of one dimension all of whose geometries are selected: no result, but an
    exception about an index. *)
Theorem C93_all_refuted : forall G (intersects touches : G -> G -> bool) parts rtree v geom use_index keep,
  IndexLibrary intersects touches parts rtree -> GoodVar v -> length (shape (gv_value v)) = 1 ->
  (exists pos g, at_ (gv_value v) pos = Some g) -> (forall pos g, at_ (gv_value v) pos = Some g -> Chosen intersects touches keep v geom pos) ->
  get_intersects G intersects touches parts rtree v geom use_index keep = Err IndexError.
Proof. intros. apply intersects_raises; auto. now split. Qed.
Print Assumptions C93_all_refuted.

(** On several processes it is enough that all geometries of one process are selected. *)
Theorem C93_all_of_one_refuted : forall ranks off l, In (off, Some (A1 l)) ranks -> l <> [] -> (forall b, In b l -> b = false) ->
  global_slice ranks = Err IndexError.
Proof. intros ranks off l I N A. apply (global_slice_raises ranks off (A1 l)); auto. now split. Qed.
Print Assumptions C93_all_of_one_refuted.

Example C93_case :
  IndexLibrary b_intersects b_touches b_parts b_rtree /\ GoodVar cells33 /\
  Chosen b_intersects b_touches false cells33 sel33 [0; 1] /\ ~ Chosen b_intersects b_touches false cells33 sel33 [1; 0] /\
  get_intersects boxes b_intersects b_touches b_parts b_rtree cells33 sel33 true false =
    Ok (mkgvar (A2 2 [[cellb 0 0; cellb 1 0]; [cellb 0 1; cellb 1 1]; [cellb 0 2; cellb 1 2]])
               (Some (A2 2 [[false; false]; [true; true]; [true; false]])), [(0, 3); (0, 2)]) /\
  get_intersects boxes b_intersects b_touches b_parts b_rtree row3 [(0, 0, 3, 1)%Z] false false = Err IndexError /\
  global_slice [([0; 0], Some (A2 2 [[true; true]; [true; false]])); ([2; 0], Some (A2 2 [[false; true]])); ([3; 0], None)] = Ok [(1, 3); (0, 2)].
Proof.
  split; [exact boxes_library|]. split; [repeat constructor|].
  split; [split; [reflexivity|]; exists (cellb 1 0); repeat split; now right|].
  split; [|vm_compute; repeat split].
  intros [_ [g [E [I [T|T]]]]]; [discriminate|]. vm_compute in E. injection E as <-. vm_compute in T. discriminate.
Qed.

(** * C94 *)

(** Missing: [intersects_check=False] together with [return_slice=True], and what C93 lacks.

    Exactly the selected geometries are replaced by their intersections; the variable
    itself stays as it was, unless the change was to be in place: then its selected
    geometries are replaced and nothing else. *)
Theorem C94_intersection_partial : forall G (intersects touches : G -> G -> bool) parts rtree inter v geom use_index keep (inplace return_slice : bool),
  IndexLibrary intersects touches parts rtree -> GoodVar v ->
  length (shape (gv_value v)) = 2 \/ (exists pos g, at_ (gv_value v) pos = Some g /\ ~ Chosen intersects touches keep v geom pos) ->
  (exists pos, Chosen intersects touches keep v geom pos) ->
  exists r s v', get_intersection G intersects touches inter parts rtree v geom use_index keep inplace true return_slice
                   = (Ok (if return_slice then WithSlice r s else Plain r), v') /\
    Tight (Chosen intersects touches keep v geom) s /\ shape (gv_value r) = map (fun p => snd p - fst p) s /\
    (forall pos g, at_ (gv_value r) pos = Some g -> exists g0, at_ (gv_value v) (moved_idx s pos) = Some g0 /\
       (Chosen intersects touches keep v geom (moved_idx s pos) -> g = inter g0 geom) /\
       (~ Chosen intersects touches keep v geom (moved_idx s pos) -> g = g0)) /\
    (forall pos, length pos = length s -> InSlices s (moved_idx s pos) -> exists g, at_ (gv_value r) pos = Some g) /\
    (forall pos, length pos = length s -> (at_ (mask_of r) pos = Some false <-> Chosen intersects touches keep v geom (moved_idx s pos))) /\
    (inplace = false -> v' = v) /\
    (inplace = true -> gv_mask v' = gv_mask v /\ forall pos g0, at_ (gv_value v) pos = Some g0 ->
       (Chosen intersects touches keep v geom pos -> at_ (gv_value v') pos = Some (inter g0 geom)) /\
       (~ Chosen intersects touches keep v geom pos -> at_ (gv_value v') pos = Some g0)).
Proof. intros. apply intersection_spec; auto. now apply not_all. Qed.
Print Assumptions C94_intersection_partial.

Theorem C94_nothing_partial : forall G (intersects touches : G -> G -> bool) parts rtree inter v geom use_index keep inplace return_slice,
  IndexLibrary intersects touches parts rtree -> GoodVar v ->
  length (shape (gv_value v)) = 2 \/ (exists pos g, at_ (gv_value v) pos = Some g) ->
  (forall pos, ~ Chosen intersects touches keep v geom pos) ->
  get_intersection G intersects touches inter parts rtree v geom use_index keep inplace true return_slice = (Err EmptySubsetError, v).
Proof.
  intros G intersects touches parts rtree inter v geom use_index keep inplace return_slice Lib Gv H No. apply intersection_empty; auto. apply not_all.
  destruct H as [H|[pos [g E]]]; [now left | right]. exists pos, g. split; auto.
Qed.
Print Assumptions C94_nothing_partial.

(** Without the check every unmasked geometry is replaced. *)
Theorem C94_unchecked : forall G (intersects touches : G -> G -> bool) parts rtree inter v geom use_index keep (inplace : bool), GoodVar v ->
  exists r v', get_intersection G intersects touches inter parts rtree v geom use_index keep inplace false false = (Ok (Plain r), v') /\
    shape (gv_value r) = shape (gv_value v) /\ gv_mask r = gv_mask v /\
    (forall pos g0, at_ (gv_value v) pos = Some g0 ->
       (Unmasked v pos -> at_ (gv_value r) pos = Some (inter g0 geom)) /\ (~ Unmasked v pos -> at_ (gv_value r) pos = Some g0)) /\
    v' = if inplace then r else v.
Proof. intros. now apply intersection_unchecked. Qed.
Print Assumptions C94_unchecked.

(** Without the check the slice is never returned. *)
Theorem C94_slice_refuted : forall G (intersects touches : G -> G -> bool) parts rtree inter v geom use_index keep inplace,
  fst (get_intersection G intersects touches inter parts rtree v geom use_index keep inplace false true) = Err AttributeError.
Proof. reflexivity. Qed.
Print Assumptions C94_slice_refuted.

Example C94_case : let pair g geom := g ++ geom in
  get_intersection boxes b_intersects b_touches pair b_parts b_rtree cells33 [(0, 0, 2, 1)%Z] true false true true true =
    (Ok (WithSlice (mkgvar (A2 2 [[cellb 0 0 ++ [(0, 0, 2, 1)%Z]; cellb 1 0 ++ [(0, 0, 2, 1)%Z]]]) (Some (A2 2 [[false; false]]))) [(0, 1); (0, 2)]),
     mkgvar (A2 3 [[cellb 0 0 ++ [(0, 0, 2, 1)%Z]; cellb 1 0 ++ [(0, 0, 2, 1)%Z]; cellb 2 0]; [cellb 0 1; cellb 1 1; cellb 2 1]; [cellb 0 2; cellb 1 2; cellb 2 2]])
            (gv_mask cells33)).
Proof. vm_compute. reflexivity. Qed.

(** * C95 *)

(** Missing: targets other than points, for which the distance to the centroid counts.

    The geometry returned is not masked and none is nearer to the centroid of the target;
    without unmasked geometries there is an exception. *)
Theorem C95_centroid_partial : forall G (distance : G -> G -> Q) centroid (v : gvar G) target,
  (forall i, get_nearest G distance centroid v target = Ok i ->
     exists g, nth_error (flat (gv_value v)) i = Some g /\ match gv_mask v with Some m => nth_error (flat m) i = Some false | None => True end /\
       forall i' g', nth_error (flat (gv_value v)) i' = Some g' -> match gv_mask v with Some m => nth_error (flat m) i' = Some false | None => True end ->
         (distance (centroid target) g <= distance (centroid target) g')%Q) /\
  (forall e, get_nearest G distance centroid v target = Err e -> e = ValueError /\
     forall i g, nth_error (flat (gv_value v)) i = Some g -> match gv_mask v with Some m => nth_error (flat m) i <> Some false | None => False end).
Proof.
  intros G distance centroid v target. pose proof (nearest_spec G distance centroid v target) as X.
  destruct (get_nearest G distance centroid v target) as [i|e].
  - split; [|discriminate]. intros i' E. injection E as <-. destruct X as [g [I A]]. apply live_In in I as [I U]. exists g. split; auto. split; auto.
    intros i' g' I' U'. apply (A i'). apply live_In. auto.
  - split; [discriminate|]. intros e' E. injection E as <-. destruct X as [X L]. split; auto. intros i g I.
    assert (N : ~ In (i, g) (live G v)) by (rewrite L; intros []). rewrite live_In in N. destruct (gv_mask v); [intro U|]; apply N; auto.
Qed.
Print Assumptions C95_centroid_partial.

(** For targets that are their own centroids, as points are, it is the nearest one. *)
Theorem C95_point_partial : forall G (distance : G -> G -> Q) centroid (v : gvar G) target i, centroid target = target ->
  get_nearest G distance centroid v target = Ok i ->
  exists g, nth_error (flat (gv_value v)) i = Some g /\ match gv_mask v with Some m => nth_error (flat m) i = Some false | None => True end /\
    forall i' g', nth_error (flat (gv_value v)) i' = Some g' -> match gv_mask v with Some m => nth_error (flat m) i' = Some false | None => True end ->
      (distance target g <= distance target g')%Q.
Proof.
  intros G distance centroid v target i C E. destruct (C95_centroid_partial G distance centroid v target) as [H _]. rewrite C in H. now apply H.
Qed.
Print Assumptions C95_point_partial.

(** Boxes in the plane with Euclidean distances (squared): of two points the one at a
    distance of 18 from the box is returned, not the one at a distance of 1. *)
Theorem C95_polygon_refuted :
  get_nearest boxes b_distance b_centroid two_points long_box = Ok 1 /\
  nth_error (flat (gv_value two_points)) 0 = Some [(101, 1, 101, 1)%Z] /\ nth_error (flat (gv_value two_points)) 1 = Some [(50, 20, 50, 20)%Z] /\
  (b_distance long_box [(101, 1, 101, 1)%Z] == 1)%Q /\ (b_distance long_box [(50, 20, 50, 20)%Z] == 18 * 18)%Q.
Proof. vm_compute. repeat split. Qed.
Print Assumptions C95_polygon_refuted.

(** A grid never returns the indices with the nearest cell. *)
Theorem C95_grid_refuted : forall G (distance : G -> G -> Q) centroid (v : gvar G) target,
  exists e, grid_get_nearest G distance centroid v target true = Err e.
Proof. intros. unfold grid_get_nearest. destruct (get_nearest G distance centroid v target); cbn [bind]; eauto. Qed.
Print Assumptions C95_grid_refuted.

Example C95_case : b_centroid [(3, 3, 3, 3)%Z] = [(3, 3, 3, 3)%Z] /\
  get_nearest boxes b_distance b_centroid masked_points [(3, 3, 3, 3)%Z] = Ok 1.
Proof. vm_compute. split; reflexivity. Qed.

(** * C96 *)

(** Missing: variables of several geometries without a mask.

    Every unmasked geometry is buffered; the places of masked ones hold nothing. *)
Theorem C96_masked_partial : forall G buffered (v : gvar G) m, GoodVar v -> gv_mask v = Some m ->
  exists r, get_buffer G buffered v = Ok r /\ shape r = shape (gv_value v) /\
    forall pos g, at_ (gv_value v) pos = Some g ->
      (Unmasked v pos -> at_ r pos = Some (Some (buffered g))) /\ (~ Unmasked v pos -> at_ r pos = Some None).
Proof. intros. now apply (buffer_spec G buffered v m). Qed.
Print Assumptions C96_masked_partial.

Theorem C96_one_partial : forall G (buffered : G -> G) g, get_buffer G buffered (mkgvar (A1 [g]) None) = Ok (A1 [Some (buffered g)]).
Proof. intros. apply buffer_one. Qed.
Print Assumptions C96_one_partial.

(** Without a mask the first geometry is buffered and all others are lost. *)
Theorem C96_lost_refuted : forall G (buffered : G -> G) g g' l,
  exists r, get_buffer G buffered (mkgvar (A1 (g :: g' :: l)) None) = Ok r /\
    forall i, 0 < i < length (g :: g' :: l) -> Unmasked (mkgvar (A1 (g :: g' :: l)) None) [i] /\ at_ r [i] = Some None.
Proof.
  intros. destruct (buffer_rest G buffered g g' l) as [r [E H]]. exists r. split; auto. intros i L. split; [exact I | now apply H].
Qed.
Print Assumptions C96_lost_refuted.

(** In two dimensions there is an exception. *)
Theorem C96_rows_refuted : forall G (buffered : G -> G) n rows, get_buffer G buffered (mkgvar (A2 n rows) None) = Err AttributeError.
Proof. reflexivity. Qed.
Print Assumptions C96_rows_refuted.

Example C96_case : GoodVar masked_points /\
  get_buffer boxes b_buffered masked_points = Ok (A1 [Some [(100, 0, 102, 2)%Z]; Some [(49, 19, 51, 21)%Z]; None]) /\
  get_buffer boxes b_buffered two_points = Ok (A1 [Some [(100, 0, 102, 2)%Z]; None]).
Proof. split; [repeat constructor | vm_compute; split; reflexivity]. Qed.
