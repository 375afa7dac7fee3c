(** Splitting polygons with holes (C97) and with many nodes (C98), removing
    self-intersections (C99), and geometries that cannot be prepared (C100). *)
From Coq Require Import QArith Lia.
From Verif Require Import Py Lib ChunkModel PolyModel PolySpec PolyProofs PolyRing PolyWitness.
Local Close Scope Q_scope.
Local Open Scope nat_scope.

(** * C97 *)

(** Missing: polygons with several holes, and exceptions.

    Off the lines along which it is split, the parts cover exactly what the geometry covers,
    and each place as often as the geometry does (so once if it is valid). *)
Theorem C97_cover_partial : forall P H covers holes hole_centroid hole_bounds bounds cut meets good e (g r : list P) pt,
  PolygonLibrary covers (holes : P -> list H) hole_centroid hole_bounds bounds cut meets good ->
  (forall p, In p g -> good p /\ OffHoleLines holes hole_centroid p pt /\ length (holes p) <= 1) ->
  split P H holes hole_centroid bounds cut e g = Ok r -> covered covers r pt = covered covers g pt.
Proof.
  intros P H covers holes hole_centroid hole_bounds bounds cut meets good e g r pt Lib A E.
  rewrite (split_cover P H holes hole_centroid hole_bounds bounds covers cut meets good e Lib g r pt) by (auto; intros p I; now destruct (A p I) as [? [? _]]).
  clear E. induction g as [|p t IH]; auto. cbn [map]. rewrite sum_cons, IH by (intros; apply A; now right).
  change (p :: t) with ([p] ++ t). rewrite covered_app. destruct (A p (or_introl eq_refl)) as [_ [_ L]].
  replace (Nat.max 1 (length (holes p))) with 1 by lia. lia.
Qed.
Print Assumptions C97_cover_partial.

(** And no part has a hole. *)
Theorem C97_no_holes_partial : forall P H covers holes hole_centroid hole_bounds bounds cut meets good e (g r : list P) q,
  PolygonLibrary covers (holes : P -> list H) hole_centroid hole_bounds bounds cut meets good ->
  (forall p, In p g -> good p /\ length (holes p) <= 1) ->
  split P H holes hole_centroid bounds cut e g = Ok r -> In q r -> holes q = [].
Proof. intros P H covers holes hole_centroid hole_bounds bounds cut meets good e g r q Lib A E I. exact (split_no_holes P H holes hole_centroid hole_bounds bounds covers cut meets good e Lib g r q A E I). Qed.
Print Assumptions C97_no_holes_partial.

(** With several holes every place is covered once for each hole. *)
Theorem C97_cover_refuted : forall P H covers holes hole_centroid hole_bounds bounds cut meets good e (p : P) r pt,
  PolygonLibrary covers (holes : P -> list H) hole_centroid hole_bounds bounds cut meets good ->
  good p -> OffHoleLines holes hole_centroid p pt -> covers p pt = true -> holes p <> [] ->
  split P H holes hole_centroid bounds cut e [p] = Ok r -> covered covers r pt = length (holes p).
Proof.
  intros P H covers holes hole_centroid hole_bounds bounds cut meets good e p r pt Lib Gp Off C N E.
  rewrite (split_cover P H holes hole_centroid hole_bounds bounds covers cut meets good e Lib [p] r pt) by (auto; intros p' [<-|[]]; auto).
  cbn [map]. rewrite sum_cons. unfold covered. cbn [filter]. rewrite C. cbn. destruct (holes p); [easy|]. cbn [length]. lia.
Qed.
Print Assumptions C97_cover_refuted.

(** A geometry without holes is not split: an exception says so. *)
Theorem C97_nothing : forall P H holes hole_centroid bounds cut e (g : list P), (forall p, In p g -> holes p = []) ->
  split P H holes hole_centroid bounds cut e g = Err NoInteriorsError.
Proof.
  intros P H holes hole_centroid bounds cut e g A. unfold split. assert (Z : interior_count P H holes g = 0); [|now rewrite Z].
  unfold interior_count. induction g as [|p t IH]; auto. cbn [map]. rewrite sum_cons, (A p) by now left. cbn [length Nat.add]. apply IH. intros; apply A; now right.
Qed.
Print Assumptions C97_nothing.

(** A square with two holes: the parts cover places twice, and two parts still have a hole,
    although holes are what splitting is to remove. *)
Theorem C97_holes_refuted :
  match split rect qbox r_holes r_centroid r_box r_cut TypeError [two_holes] with
  | Ok r => covered r_covers r (1, 1)%Q = 2 /\ length (filter (fun q => match r_holes q with [] => false | _ => true end) r) = 2
  | Err _ => False
  end.
Proof. vm_compute. split; reflexivity. Qed.
Print Assumptions C97_holes_refuted.

Example C97_case :
  PolygonLibrary r_covers r_holes r_centroid (fun h => h) r_box r_cut r_meets r_good /\ r_good one_hole /\
  OffHoleLines r_holes r_centroid one_hole (1, 1)%Q /\ length (r_holes one_hole) = 1 /\ r_covers one_hole (1, 1)%Q = true /\
  match split rect qbox r_holes r_centroid r_box r_cut TypeError [one_hole; ell] with Ok r => length r = 5 | Err _ => False end.
Proof.
  split; [exact rects_library|]. split; [intros h [<-|[]]; split; reflexivity|].
  split; [intros h [<-|[]]; split; intro E; vm_compute in E; discriminate|]. vm_compute. repeat split.
Qed.

(** * C98 *)

(** Missing: parts may still have more nodes than the threshold, and exceptions.

    Off the lines of the splitting grids the parts cover what the geometry covers, as often
    as it does. *)
Theorem C98_cover_partial : forall P H covers holes hole_centroid hole_bounds bounds cut meets good e node_count (g r : list P) thr pt,
  PolygonLibrary covers (holes : P -> list H) hole_centroid hole_bounds bounds cut meets good -> (0 < thr)%Z ->
  (forall p, In p g -> good p /\ ((thr < node_count p)%Z -> OffGridLines (bounds p) (split_shape (node_count p) thr) pt)) ->
  split_by_node_threshold P bounds cut meets node_count e g thr = Ok r -> covered covers r pt = covered covers g pt.
Proof.
  intros P H covers holes hole_centroid hole_bounds bounds cut meets good e node_count g r thr pt Lib Ht A E.
  exact (by_nodes_cover P H holes hole_centroid hole_bounds bounds covers cut meets good e Lib node_count g thr r pt Ht A E).
Qed.
Print Assumptions C98_cover_partial.

(** A polygon within the threshold is kept as it is. *)
Theorem C98_small : forall P (bounds : P -> qbox) cut meets e node_count (g : list P) thr, (forall p, In p g -> (node_count p <= thr)%Z) ->
  split_by_node_threshold P bounds cut meets node_count e g thr = Ok g.
Proof.
  intros P bounds cut meets e node_count g thr A. unfold split_by_node_threshold. induction g as [|p t IH]; auto. cbn [flat_map].
  assert (thr <? node_count p = false)%Z as -> by (apply Z.ltb_ge, A; now left). cbn [app multipolygon].
  rewrite IH by (intros; apply A; now right). reflexivity.
Qed.
Print Assumptions C98_small.

(** A comb with all its teeth in one corner: 45 nodes, at most 20 wanted; a part has 45. *)
Theorem C98_threshold_refuted :
  r_nodes comb10 = 45%Z /\
  match split_by_node_threshold rect r_box r_cut r_meets r_nodes TypeError [comb10] 20 with
  | Ok r => exists q, In q r /\ r_nodes q = 45%Z
  | Err _ => False
  end.
Proof. split; [reflexivity|]. vm_compute. eexists. split; [right; right; left; reflexivity | reflexivity]. Qed.
Print Assumptions C98_threshold_refuted.

(** A polygon that meets a box of the grid in more than polygons (such as along a side
    only) is not split; there is an exception. *)
Theorem C98_touch_refuted : forall P (bounds : P -> qbox) cut meets e node_count (g : list P) thr p b,
  In p g -> (thr < node_count p)%Z ->
  In b (create_split_polygons (bounds p) (split_shape (node_count p) thr, split_shape (node_count p) thr) (0, 0, 0, 0)%Q) ->
  meets p b = true -> (exists l, cut p b = Mixed l) ->
  split_by_node_threshold P bounds cut meets node_count e g thr = Err e.
Proof. intros P bounds cut meets e node_count g thr p b I L Ib M C. exact (by_nodes_raises P bounds cut meets e node_count g thr p b I L Ib M C). Qed.
Print Assumptions C98_touch_refuted.

Example C98_case :
  (8 < r_nodes ell)%Z /\ split_shape (r_nodes ell) 8 = 2%Z /\
  (exists b, In b (create_split_polygons (r_box ell) (2, 2)%Z (0, 0, 0, 0)%Q) /\ r_meets ell b = true /\ r_cut ell b = Mixed []) /\
  split_by_node_threshold rect r_box r_cut r_meets r_nodes TypeError [ell] 8 = Err TypeError /\
  r_good comb10 /\ OffGridLines (r_box comb10) 2 (1 # 3, 1 # 3)%Q.
Proof.
  split; [reflexivity|]. split; [reflexivity|]. split.
  - eexists. split; [right; right; right; left; reflexivity|]. split; reflexivity.
  - split; [vm_compute; reflexivity|]. split; [intros h []|]. intros i Hi.
    assert (C : (i = 0 \/ i = 1 \/ i = 2)%Z) by lia. destruct C as [->|[->| ->]]; split; intro E; vm_compute in E; discriminate.
Qed.

(** * C99 *)

(** Missing: that the result covers the same places (it need not), holes, and nodes that occur
    more than twice.

    What is returned is valid. *)
Theorem C99_valid_partial : forall P H V holes veqb coords of_ring valid valid_multi buffer0 (p : P) g,
  do_remove_self_intersects P H V holes veqb coords of_ring valid valid_multi buffer0 p = Ok g ->
  match g with Single q => valid q = true | Several l => valid_multi l = true | _ => True end.
Proof. intros P H V holes veqb coords of_ring valid valid_multi buffer0 p g E. apply remove_valid in E. now destruct g. Qed.
Print Assumptions C99_valid_partial.

(** Without repeated nodes a valid polygon is returned as it is. *)
Theorem C99_unchanged_partial : forall P H V holes veqb coords of_ring valid valid_multi buffer0 (p : P),
  (forall a b : V, veqb a b = true <-> a = b) -> (holes p : list H) = [] -> (forall x, In x (coords p) -> occurrences veqb x (coords p) <= 1) ->
  valid p = true -> do_remove_self_intersects P H V holes veqb coords of_ring valid valid_multi buffer0 p = Ok (Single p).
Proof.
  intros P H V holes veqb coords of_ring valid valid_multi buffer0 p Eq Eh A Va. unfold do_remove_self_intersects.
  rewrite (once_unchanged V veqb Eq P H holes coords of_ring p Eh A). cbn [bind]. now rewrite Va.
Qed.
Print Assumptions C99_unchanged_partial.

(** With repeated nodes: the ring is built anew from the same nodes in the same order; a
    node that occurred twice occurs once, and if the new polygon is valid it is returned. *)
Theorem C99_nodes_partial : forall P H V holes veqb coords of_ring valid valid_multi buffer0 (p : P) x0,
  (forall a b : V, veqb a b = true <-> a = b) -> (holes p : list H) = [] -> 1 < occurrences veqb x0 (coords p) ->
  exists ring, (exists sel, length sel = length (coords p) /\ ring = map snd (filter fst (combine sel (coords p)))) /\
    (forall x, occurrences veqb x (coords p) = 0 -> occurrences veqb x ring = 0) /\
    (forall x, 1 <= occurrences veqb x (coords p) <= 2 -> occurrences veqb x ring = 1) /\
    forall q, of_ring ring = Ok q -> valid q = true ->
      do_remove_self_intersects P H V holes veqb coords of_ring valid valid_multi buffer0 p = Ok (Single q).
Proof.
  intros P H V holes veqb coords of_ring valid valid_multi buffer0 p x0 Eq Eh O.
  exists (keep V veqb (coords p) [] (coords p)). split; [apply keep_sub|].
  split; [|split].
  - intros x Ox. rewrite (keep_occ V veqb Eq). rewrite Ox. reflexivity.
  - intros x Ox. rewrite (keep_occ V veqb Eq). cbn [seen_in existsb negb]. rewrite andb_true_r.
    destruct (Nat.ltb_spec 1 (occurrences veqb x (coords p))); lia.
  - intros q Er Vq. unfold do_remove_self_intersects. rewrite (once_removed V veqb Eq P H holes coords of_ring p x0 Eh O), Er. cbn [bind]. now rewrite Vq.
Qed.
Print Assumptions C99_nodes_partial.

(** A node that occurs more than twice is still repeated in the new ring. *)
Theorem C99_thrice_refuted : forall P H V holes veqb coords of_ring valid valid_multi buffer0 (p : P) x0,
  (forall a b : V, veqb a b = true <-> a = b) -> (holes p : list H) = [] -> 2 < occurrences veqb x0 (coords p) ->
  exists ring, 1 < occurrences veqb x0 ring /\
    forall q, of_ring ring = Ok q -> valid q = true ->
      do_remove_self_intersects P H V holes veqb coords of_ring valid valid_multi buffer0 p = Ok (Single q).
Proof.
  intros P H V holes veqb coords of_ring valid valid_multi buffer0 p x0 Eq Eh O.
  exists (keep V veqb (coords p) [] (coords p)). split.
  - rewrite (keep_occ V veqb Eq). cbn [seen_in existsb negb]. rewrite andb_true_r. destruct (Nat.ltb_spec 1 (occurrences veqb x0 (coords p))); lia.
  - intros q Er Vq. unfold do_remove_self_intersects.
    rewrite (once_removed V veqb Eq P H holes coords of_ring p x0 Eh) by lia. rewrite Er. cbn [bind]. now rewrite Vq.
Qed.
Print Assumptions C99_thrice_refuted.

(** A polygon with holes, valid or not, always fails. *)
Theorem C99_holes_refuted : forall P H V holes veqb coords of_ring valid valid_multi buffer0 (p : P), (holes p : list H) <> [] ->
  do_remove_self_intersects P H V holes veqb coords of_ring valid valid_multi buffer0 p = Err SelfIntersectsRemovalError.
Proof.
  intros. unfold do_remove_self_intersects. now rewrite once_holes.
Qed.
Print Assumptions C99_holes_refuted.

Example C99_case :
  let rm := do_remove_self_intersects letters unit nat (fun _ => []) Nat.eqb (fun p => p) Ok (fun p => negb (existsb (Nat.eqb 9) p)) (fun _ => true) (fun _ => Nothing) in
  occurrences Nat.eqb 2 [1; 2; 3; 2; 4] = 2 /\ rm [1; 2; 3; 2; 4] = Ok (Single [1; 3; 2; 4]) /\
  rm [2; 1; 2; 3; 2; 4] = Ok (Single [1; 2; 3; 2; 4]) /\ rm [1; 2; 3] = Ok (Single [1; 2; 3]).
Proof. vm_compute. repeat split. Qed.

(** * C100 *)
Section Prepared.
Variable P H V : Type.
Variable holes : P -> list H.
Variable hole_centroid : H -> point.
Variable bounds : P -> qbox.
Variable cut : P -> qbox -> geometry P.
Variable meets : P -> qbox -> bool.
Variable node_count : P -> Z.
Variable member_exc : exc.
Variable veqb : V -> V -> bool.
Variable coords : P -> list V.
Variable of_ring : list V -> res P.
Variable valid : P -> bool.
Variable valid_multi : list P -> bool.
Variable buffer0 : P -> geometry P.
Notation prep := (prepare P H V holes hole_centroid bounds cut meets node_count member_exc veqb coords of_ring valid valid_multi buffer0).
Notation index := (element_index P H V holes hole_centroid bounds cut meets node_count member_exc veqb coords of_ring valid valid_multi buffer0).

(** Missing: geometries that cannot be prepared are not left out.

    The entry of every geometry that can be prepared holds its parts, whatever becomes of
    the others; without [allow_splitting_excs] every geometry can, or there is an
    exception. *)
Theorem C100_entries_partial : forall o gs entries, index o gs = Ok entries ->
  length entries = length gs /\
  (forall i g l, nth_error gs i = Some g -> prep o g = Ok (Some l) -> nth_error entries i = Some (Parts P l)) /\
  (so_allow_splitting_excs o = false -> forall i e, nth_error entries i = Some e -> exists l, e = Parts P l).
Proof.
  intros o gs entries E. unfold element_index in E. apply map_res_Forall2 in E. split; [|split].
  - symmetry. clear - E. induction E; cbn; congruence.
  - intros i g l Eg Ep. revert i Eg. induction E as [|g' e' gs' es' F E IH]; intros i Eg; [destruct i; discriminate|].
    destruct i as [|i]; cbn [nth_error] in *; [|now apply IH]. injection Eg as ->. rewrite Ep in F. cbn [bind] in F. now injection F as <-.
  - intros N i e Ee. revert i Ee. induction E as [|g' e' gs' es' F E IH]; intros i Ee; [destruct i; discriminate|].
    destruct i as [|i]; cbn [nth_error] in Ee; [|now apply IH in Ee]. injection Ee as ->.
    assert (S : forall r, prep o g' = Ok r -> r <> None).
    { clear - N. intros r E ->. unfold prepare in E. rewrite N in E.
      repeat match type of E with
        | context [match ?x with _ => _ end] => destruct x; try discriminate
        end. }
    destruct (prep o g') as [[l|]|]; [|now elim (S None)|discriminate]. cbn [bind] in F. injection F as <-. now exists l.
Qed.

(** Holes are never ignored: without [split_interiors] there is an exception. *)
Theorem C100_unsplit : forall o g, so_remove_self_intersects o = false -> so_split_interiors o = false ->
  (exists p, In p (polygons g) /\ holes p <> []) -> prep o g = Err ValueError.
Proof.
  intros o g Er Es [p [I N]]. unfold prepare. rewrite Er, Es. assert (Z : interior_count P H holes (polygons g) <> 0).
  { unfold interior_count. revert I. induction (polygons g) as [|q t IH]; [easy|]. cbn [map]. rewrite sum_cons. intros [->|I].
    - destruct (holes p); [easy|]. cbn [length]. lia.
    - specialize (IH I). lia. }
  apply Nat.eqb_neq in Z. now rewrite Z.
Qed.

(** The parts of a geometry with at most one hole in each polygon cover what it covers, off
    the lines along which it and then its parts are split; they have no holes
    if they need not be split for their nodes. *)
Theorem C100_cover_partial : forall covers hole_bounds good o g l,
  PolygonLibrary covers holes hole_centroid hole_bounds bounds cut meets good ->
  (forall p b q, good p -> In q (polygons (cut p b)) -> good q) ->
  so_remove_self_intersects o = false -> match so_node_threshold o with Some thr => (0 < thr)%Z | None => True end ->
  (forall p, In p (polygons g) -> good p /\ length (holes p) <= 1) -> prep o g = Ok (Some l) ->
  exists parts, (forall p, In p parts -> holes p = []) /\
    (forall pt, (forall p, In p (polygons g) -> OffHoleLines holes hole_centroid p pt) ->
       (forall p thr, In p parts -> so_node_threshold o = Some thr -> (thr < node_count p)%Z -> OffGridLines (bounds p) (split_shape (node_count p) thr) pt) ->
       covered covers l pt = covered covers (polygons g) pt) /\
    (match so_node_threshold o with Some thr => (get_node_count P node_count parts <= thr)%Z | None => True end -> l = parts).
Proof.
  intros covers hole_bounds good o g l Lib Gc Er Ht A E. unfold prepare in E. rewrite Er in E.
  set (fin := fun l0 : list P => match so_node_threshold o with
      | Some thr => if (thr <? get_node_count P node_count l0)%Z then
          match split_by_node_threshold P bounds cut meets node_count member_exc l0 thr with
          | Ok l' => Ok (Some l')
          | Err TypeError => if so_allow_splitting_excs o then Ok None else Err TypeError
          | Err e => Err e end else Ok (Some l0)
      | None => Ok (Some l0) end) in E.
  assert (F : forall parts, (forall p, In p parts -> good p) -> (forall p, In p parts -> holes p = []) ->
    (forall pt, (forall p, In p (polygons g) -> OffHoleLines holes hole_centroid p pt) -> covered covers parts pt = covered covers (polygons g) pt) ->
    fin parts = Ok (Some l) -> exists parts, (forall p, In p parts -> holes p = []) /\
    (forall pt, (forall p, In p (polygons g) -> OffHoleLines holes hole_centroid p pt) ->
       (forall p thr, In p parts -> so_node_threshold o = Some thr -> (thr < node_count p)%Z -> OffGridLines (bounds p) (split_shape (node_count p) thr) pt) ->
       covered covers l pt = covered covers (polygons g) pt) /\
    (match so_node_threshold o with Some thr => (get_node_count P node_count parts <= thr)%Z | None => True end -> l = parts)).
  { intros parts Gp Hp Cp Ef. exists parts. split; auto. unfold fin in Ef. destruct (so_node_threshold o) as [thr|].
    - destruct (Z.ltb_spec thr (get_node_count P node_count parts)) as [L|L].
      + split; [|lia]. intros pt Off Grid. rewrite <- Cp by auto.
        destruct (split_by_node_threshold P bounds cut meets node_count member_exc parts thr) as [l'|[]] eqn:Sp; try discriminate;
          [|destruct (so_allow_splitting_excs o); discriminate]. injection Ef as ->.
        apply (C98_cover_partial P H covers holes hole_centroid hole_bounds bounds cut meets good member_exc node_count parts l thr pt Lib Ht); auto.
      + injection Ef as ->. split; auto.
    - injection Ef as ->. split; auto. }
  destruct (interior_count P H holes (polygons g) =? 0) eqn:Z.
  - apply (F (polygons g)); auto; [intros; now apply A|]. apply Nat.eqb_eq in Z. unfold interior_count in Z. clear - Z.
    induction (polygons g) as [|q t IH]; [easy|]. cbn [map] in Z. rewrite sum_cons in Z. intros p [<-|I]; [destruct (holes q); auto; cbn in Z; lia | apply IH; auto; lia].
  - destruct (so_split_interiors o); [|discriminate].
    destruct (split P H holes hole_centroid bounds cut member_exc (polygons g)) as [r|[]] eqn:Sp; try discriminate; [|destruct (so_allow_splitting_excs o); discriminate].
    apply (F r); auto.
    + intros q I. clear - Gc A Sp I. unfold split in Sp. destruct (interior_count P H holes (polygons g) =? 0); [discriminate|].
      match type of Sp with bind ?m _ = _ => destruct m as [rr|] eqn:M; [|discriminate] end. cbn [bind] in Sp. injection Sp as <-.
      apply map_res_Forall2 in M. apply in_concat in I as [s [Is Iq]]. revert A. induction M as [|p s' g' rr' Fp M IH]; intro A; [easy|].
      destruct Is as [->|Is]; [|apply IH; auto; intros; apply A; now right]. destruct (A p (or_introl eq_refl)) as [Gp _].
      destruct (holes p); [injection Fp as <-; now destruct Iq as [<-|[]]|]. unfold split_part in Fp. apply multi_polygons in Fp. subst s.
      apply in_flat_map in Iq as [x [Ix Iq]]. apply in_flat_map in Ix as [h' [_ Ix]]. apply in_map_iff in Ix as [b [<- _]]. exact (Gc p b q Gp Iq).
    + intros p I. exact (C97_no_holes_partial P H covers holes hole_centroid hole_bounds bounds cut meets good member_exc (polygons g) r p Lib A Sp I).
    + intros pt Off. apply (C97_cover_partial P H covers holes hole_centroid hole_bounds bounds cut meets good member_exc (polygons g) r pt Lib); auto.
      intros p I. destruct (A p I). auto.
Qed.

(** A geometry that cannot be prepared stays, with the number zero for its nodes. *)
Theorem C100_zero_refuted : forall o gs entries i g, index o gs = Ok entries -> nth_error gs i = Some g -> prep o g = Ok None ->
  nth_error entries i = Some (Zero P) /\ length entries = length gs.
Proof.
  intros o gs entries i g E Eg Ep. split; [|now apply (C100_entries_partial o gs entries E)]. unfold element_index in E. apply map_res_Forall2 in E.
  revert i Eg. induction E as [|g' e' gs' es' F E IH]; intros i Eg; [destruct i; discriminate|].
  destruct i as [|i]; cbn [nth_error] in *; [|now apply IH]. injection Eg as ->. rewrite Ep in F. cbn [bind] in F. now injection F as <-.
Qed.

(** With [remove_self_intersects] and [allow_splitting_excs] every polygon with a hole
    is given up, also if it is valid and could be split. *)
Theorem C100_holes_refuted : forall o p, so_remove_self_intersects o = true -> so_allow_splitting_excs o = true -> holes p <> [] ->
  prep o (Single p) = Ok None.
Proof.
  intros o p Er Ea N. unfold prepare. rewrite Er, Ea. cbn [do_remove_self_intersects_multi]. now rewrite C99_holes_refuted.
Qed.

(** Without [allow_splitting_excs] a failure to remove self-intersections goes unnoticed:
    the geometry is used as it was. *)
Theorem C100_ignored_refuted : forall o g,
  do_remove_self_intersects_multi P H V holes member_exc veqb coords of_ring valid valid_multi buffer0 g = Err SelfIntersectsRemovalError ->
  so_allow_splitting_excs o = false ->
  prep o g = prep (mkso false (so_split_interiors o) (so_node_threshold o) (so_allow_splitting_excs o)) g.
Proof. intros o g E Ea. unfold prepare. rewrite E, Ea. cbn. now destruct (so_remove_self_intersects o). Qed.
End Prepared.
Print Assumptions C100_entries_partial.
Print Assumptions C100_unsplit.
Print Assumptions C100_cover_partial.
Print Assumptions C100_zero_refuted.
Print Assumptions C100_holes_refuted.
Print Assumptions C100_ignored_refuted.

(** Three rectangles: one that is fine, one with a hole and one with too many nodes. *)
Example C100_case :
  let index o := element_index rect qbox nat r_holes r_centroid r_box r_cut r_meets r_nodes TypeError Nat.eqb (fun _ => []) (fun _ => Err ValueError)
                   (fun _ => true) (fun _ => true) (fun _ => Nothing) (mkso (fst o) true (Some 40%Z) (snd o)) [Single (mkrect (0, 0, 1, 1)%Q [] []); Single one_hole; Single comb_ell] in
  match index (true, true) with Ok [Parts _ [_]; Zero _; Zero _] => True | _ => False end /\
  match index (false, true) with Ok [Parts _ [_]; Parts _ [_; _; _; _]; Zero _] => True | _ => False end /\
  index (false, false) = Err TypeError /\
  (forall p b q, r_good p -> In q (polygons (r_cut p b)) -> r_good q).
Proof.
  split; [vm_compute; repeat split|]. split; [vm_compute; repeat split|]. split; [vm_compute; repeat split|].
  intros p b q G I h J. apply G. unfold r_cut in I. destruct (overlap_b (r_box p) b && negb (existsb (inside_b b) (r_notches p))); [|destruct (meet_b (r_box p) b); destruct I].
  destruct I as [<-|[]]. cbn [r_holes] in J. now apply filter_In in J as [J _].
Qed.
