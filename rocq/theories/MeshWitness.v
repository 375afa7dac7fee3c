(** Concrete meshes, and what goes wrong with some of them. *)
From Verif Require Import Py CoordSpec MeshModel MeshSpec MeshProofs MeshMore.
Local Close Scope Q_scope.
Local Open Scope Z_scope.

Definition tri1 : polygon := mkpoly [(0, 0); (4, 0); (0, 4); (0, 0)] [].
Definition tri2 : polygon := mkpoly [(4, 0); (4, 4); (0, 4); (4, 0)] [].
Definition tri3 : polygon := mkpoly [(4, 0); (8, 0); (4, 4); (4, 0)] [].
Definition tri2_cw : polygon := mkpoly [(4, 0); (0, 4); (4, 4); (4, 0)] [].
Definition tri4 : polygon := mkpoly [(10, 0); (11, 0); (10, 1); (10, 0)] [].
Definition two_parts : geom := GMultiPolygon [tri1; tri2_cw].
Definition two_parts_ccw : geom := GMultiPolygon [tri1; tri2].
Definition nodes4 : list vertex := [(0, 0); (4, 0); (0, 4); (4, 4)].

Lemma closed3 a b c : b <> a -> c <> a -> ClosedRing [a; b; c; a].
Proof. intros H1 H2. exists a, [b; c]. split; [reflexivity|]. split; [cbn; lia|]. now split. Qed.
Lemma plain3 a b c : b <> a -> c <> a -> PlainPolygon (mkpoly [a; b; c; a] []).
Proof. intros H1 H2. split; [reflexivity|now apply closed3]. Qed.
Lemma closes3 a b c : c <> a -> Closes [a; b; c] [a; b; c; a].
Proof. intro H. split; [cbn; lia|]. split; [cbn; lia|]. exists a, [b; c]. split; [reflexivity|]. right. now split. Qed.

(** A row of three entries. *)
Ltac drawn := repeat (constructor; [split; [vm_compute; discriminate|reflexivity]|]); constructor.
Ltac row3 a b c := exists [a; b; c], [a; b; c; a]; split; [drawn|split; [apply closes3; discriminate|reflexivity]].
Ltac mesh_of s := split; [reflexivity|]; exists s; split; [reflexivity|]; split; [|split; [try discriminate; intros v E; injection E as <-; lia|split; [vm_compute; discriminate|intros m E; try discriminate; injection E as <-; reflexivity]]].

Definition mesh1 : gc := mkgc false nodes4 (Some (Table [[1; 2; 3]; [2; 4; 3]])) None 1 None (Some [true; false]).
Lemma mesh1_ok : Mesh mesh1 [GPolygon tri1; GPolygon tri2].
Proof. mesh_of (Table [[1; 2; 3]; [2; 4; 3]]). constructor; [row3 (0, 0) (4, 0) (0, 4)|]. constructor; [row3 (4, 0) (4, 4) (0, 4)|constructor]. Qed.

Definition esmf1 : gc := mkgc false nodes4 (Some (Counted [1; 2; 3; 2; 4; 3] [3; 3])) None 1 None None.
Lemma esmf1_mesh : Mesh esmf1 [GPolygon tri1; GPolygon tri2].
Proof. mesh_of (Counted [1; 2; 3; 2; 4; 3] [3; 3]). constructor; [row3 (0, 0) (4, 0) (0, 4)|]. constructor; [row3 (4, 0) (4, 4) (0, 4)|constructor]. Qed.
Lemma esmf1_ok : Mesh esmf1 [GPolygon tri1; GPolygon tri2] /\ EsmfVector esmf1 [1; 2; 3; 2; 4; 3] [3; 3] /\ start_index esmf1 = 1.
Proof. split; [exact esmf1_mesh|]. split; [|reflexivity]. split; [reflexivity|]. split; [repeat constructor; lia|reflexivity]. Qed.

Lemma start_multi_error : exists o gs g, Forall PlainPolygons gs /\ o_start o = 1 /\ o_break o < 0 /\ convert_to o gs None = Ok g /\
  snd (iter_geometries g true None false) = Err IndexError.
Proof.
  exists (mkopts true false 1 None (-8)), [two_parts]. eexists. split.
  - constructor; [|constructor]. split; [discriminate|]. constructor; [apply plain3; discriminate|]. constructor; [apply plain3; discriminate|constructor].
  - split; [reflexivity|]. split; [cbn; lia|]. split; [vm_compute; reflexivity|]. vm_compute. reflexivity.
Qed.

Lemma start_multi_wrong : exists o gs g geo l, Forall PlainPolygons gs /\ o_start o = 1 /\ o_break o < 0 /\ convert_to o gs None = Ok g /\
  snd (iter_geometries g true None false) = Ok (Some geo :: l) /\ List.length (parts (hd (GPoint (0, 0)) gs)) = 2%nat /\ List.length (parts geo) = 1%nat.
Proof.
  exists (mkopts true false 1 None (-8)), [two_parts; GPolygon tri3; GPolygon tri4; GPolygon (mkpoly [(20, 0); (21, 0); (20, 1); (20, 0)] [])]. eexists. eexists. eexists. split.
  - constructor; [|repeat (constructor; [apply plain3; discriminate|]); constructor]. split; [discriminate|]. constructor; [apply plain3; discriminate|]. constructor; [apply plain3; discriminate|constructor].
  - split; [reflexivity|]. split; [cbn; lia|]. split; [vm_compute; reflexivity|]. split; [vm_compute; reflexivity|]. now split.
Qed.

Lemma esmf_second : exists g gs, Mesh g gs /\ snd (iter_geometries g true None false) = Ok (map Some gs) /\
  exists l, snd (iter_geometries (fst (iter_geometries g true None false)) true None false) = Ok l /\ l <> map Some gs.
Proof. exists esmf1, [GPolygon tri1; GPolygon tri2]. split; [exact esmf1_mesh|]. split; [reflexivity|]. eexists. split; [vm_compute; reflexivity|discriminate]. Qed.

Lemma hint_ignored g gs hint : Mesh g gs -> Ugrid g -> g_multi g = None \/ start_index g = 0 -> (forall k, ~ Masked (g_mask g) k) ->
  iter_geometries g true (Some hint) false = (g, Ok (map Some gs)).
Proof.
  intros H U M N. rewrite (iter_rows_hint g gs true (Some hint) H U M). do 2 f_equal.
  assert (K : forall k, masked_at g true (Some hint) k = false).
  { intro k. unfold masked_at, has_masked_values. destruct (g_mask g) as [m|] eqn:G; [|reflexivity]. destruct (existsb (fun b => b) m) eqn:X; [|reflexivity]. exfalso.
    apply existsb_exists in X. destruct X as [b [Ib Hb]]. destruct b; [|discriminate]. apply In_nth_error in Ib. destruct Ib as [j Hj]. apply (N j). exists m. now split. }
  unfold expected. generalize 0%nat as k. clear - K. induction gs as [|geo gs IH]; intro k; [reflexivity|]. cbn [List.length seq combine map fst snd]. rewrite K. f_equal. apply IH.
Qed.

Definition mesh0 : gc := mkgc false nodes4 (Some (Table [[0; 1; 2]; [1; 3; 2]])) None 0 None None.
Lemma mesh0_ok : Mesh mesh0 [GPolygon tri1; GPolygon tri2].
Proof. mesh_of (Table [[0; 1; 2]; [1; 3; 2]]). constructor; [row3 (0, 0) (4, 0) (0, 4)|]. constructor; [row3 (4, 0) (4, 4) (0, 4)|constructor]. Qed.

Lemma memory_fails : exists g gs, Mesh g gs /\ Ugrid g /\ snd (iter_geometries g true None true) = Err ValueError.
Proof. exists mesh0, [GPolygon tri1; GPolygon tri2]. split; [exact mesh0_ok|]. split; [eexists; right; reflexivity|reflexivity]. Qed.

Lemma padding_wrong : exists nodes rows l, let g := mkgc false nodes (Some (Table rows)) None 0 None None in
  Depicts nodes 0 None (removelast (hd [] rows)) (GPolygon tri1) /\ last (hd [] rows) 0 = -1 /\
  snd (iter_geometries g true None false) = Ok (Some (GPolygon (mkpoly [(0, 0); (4, 0); (0, 4); (9, 9); (0, 0)] [])) :: l).
Proof.
  exists [(0, 0); (4, 0); (0, 4); (9, 9)], [[0; 1; 2; -1]; [0; 1; 2; 3]]. eexists. split; [row3 (0, 0) (4, 0) (0, 4)|]. split; [reflexivity|]. vm_compute. reflexivity.
Qed.

Lemma esmf_table : exists g gs, Mesh g gs /\ start_index g = 0 /\ snd (iter_geometries g true None false) <> Ok (map Some gs).
Proof.
  exists (mkgc false nodes4 (Some (CountedTable [[0; 1; 2]; [1; 3; 2]] [3; 3])) None 0 None None), [GPolygon tri1; GPolygon tri2]. split.
  - mesh_of (CountedTable [[0; 1; 2]; [1; 3; 2]] [3; 3]). constructor; [row3 (0, 0) (4, 0) (0, 4)|]. constructor; [row3 (4, 0) (4, 4) (0, 4)|constructor].
  - split; [reflexivity|]. vm_compute. discriminate.
Qed.

(** ** Reducing *)

Definition mesh2 : gc := mkgc false nodes4 (Some (Table [[2; 4; 3]])) (Some 1) 1 None None.
Lemma mesh2_ok : Mesh mesh2 [GPolygon tri2].
Proof. mesh_of (Table [[2; 4; 3]]). constructor; [row3 (4, 0) (4, 4) (0, 4)|constructor]. Qed.

Definition mesh3 : gc := mkgc false nodes4 (Some (Table [[1; 2; 3]; [2; 4; 3]])) None 1 None None.
Lemma mesh3_ok : Mesh mesh3 [GPolygon tri1; GPolygon tri2].
Proof. mesh_of (Table [[1; 2; 3]; [2; 4; 3]]). constructor; [row3 (0, 0) (4, 0) (0, 4)|]. constructor; [row3 (4, 0) (4, 4) (0, 4)|constructor]. Qed.

Lemma reduce_attribute : exists g gs g', Mesh g gs /\ Ugrid g /\ g_multi g = None /\ start_index g = 1 /\ reduce_global g = Ok g' /\ start_index g' = 0 /\
  snd (iter_geometries g true None false) = Ok (map Some gs) /\ snd (iter_geometries g' true None false) <> Ok (map Some gs).
Proof.
  exists mesh3, [GPolygon tri1; GPolygon tri2]. eexists. split; [exact mesh3_ok|]. split; [eexists; right; reflexivity|]. split; [reflexivity|]. split; [reflexivity|]. split; [vm_compute; reflexivity|].
  split; [reflexivity|]. split; [reflexivity|]. vm_compute. discriminate.
Qed.

Definition mesh4 : gc := mkgc false nodes4 (Some (Table [[0; 1; 2; -8; 1; 3; 2]])) (Some 0) 0 (Some (-8)) None.
Lemma mesh4_ok : Mesh mesh4 [two_parts_ccw].
Proof.
  mesh_of (Table [[0; 1; 2; -8; 1; 3; 2]]). constructor; [|constructor]. exists [[0; 1; 2]; [1; 3; 2]], [exterior tri1; exterior tri2]. split; [reflexivity|]. split; [discriminate|]. split; [|reflexivity].
  constructor; [exists [(0, 0); (4, 0); (0, 4)]; split; [drawn|apply closes3; discriminate]|]. constructor; [|constructor]. exists [(4, 0); (4, 4); (0, 4)]. split; [drawn|apply closes3; discriminate].
Qed.

Lemma reduce_multi : exists g gs g', Mesh g gs /\ Ugrid g /\ start_index g = 0 /\ reduce_global g = Ok g' /\ g_multi g <> None /\ g_multi g' = None /\
  snd (iter_geometries g true None false) = Ok (map Some gs) /\ snd (iter_geometries g' true None false) <> Ok (map Some gs).
Proof.
  exists (mkgc false (nodes4 ++ nodes4) (Some (Table [[0; 1; 2; -8; 1; 3; 2]])) (Some 0) 0 (Some (-8)) None), [two_parts_ccw]. eexists. split.
  - mesh_of (Table [[0; 1; 2; -8; 1; 3; 2]]). constructor; [|constructor]. exists [[0; 1; 2]; [1; 3; 2]], [exterior tri1; exterior tri2]. split; [reflexivity|]. split; [discriminate|]. split; [|reflexivity].
    constructor; [exists [(0, 0); (4, 0); (0, 4)]; split; [drawn|apply closes3; discriminate]|]. constructor; [|constructor]. exists [(4, 0); (4, 4); (0, 4)]. split; [drawn|apply closes3; discriminate].
  - split; [eexists; right; reflexivity|]. split; [reflexivity|]. split; [vm_compute; reflexivity|]. split; [discriminate|]. split; [reflexivity|]. split; [reflexivity|]. vm_compute. discriminate.
Qed.

Lemma reduce_ragged g rows : g_index g = Some (Ragged rows) -> reduce_global g = Err ValueError.
Proof. intro I. unfold reduce_global. now rewrite I. Qed.

(** ** Subsets *)

Definition is_tri2 (g : geom) : bool := match g with GPolygon (mkpoly (v :: _) _) => fst v =? 4 | _ => false end.

Lemma subset_esmf : exists g gs pred g' sub, Mesh g gs /\ (exists conn counts, EsmfVector g conn counts) /\ start_index g = 0 /\
  spatial_subset g pred (fun _ => true) None true = (g', Ok (Some sub, [false; true])) /\ map pred gs = [false; true] /\
  snd (iter_geometries sub true None false) = Err ValueError.
Proof.
  exists (mkgc false nodes4 (Some (Counted [0; 1; 2; 1; 3; 2] [3; 3])) None 0 None None), [GPolygon tri1; GPolygon tri2], is_tri2. eexists. eexists. split; [|split; [|split; [|split; [vm_compute; reflexivity|]]]].
  - mesh_of (Counted [0; 1; 2; 1; 3; 2] [3; 3]). constructor; [row3 (0, 0) (4, 0) (0, 4)|]. constructor; [row3 (4, 0) (4, 4) (0, 4)|constructor].
  - exists [0; 1; 2; 1; 3; 2], [3; 3]. split; [reflexivity|]. split; [repeat constructor; lia|reflexivity].
  - reflexivity.
  - split; [reflexivity|]. vm_compute. reflexivity.
Qed.

(** ** Writing *)

Definition ragged (start : Z) (nodes : list vertex) (rows : list (list Z)) : gc := mkgc false nodes (Some (Ragged rows)) (Some start) start None None.
Definition rank1 : gc := ragged 0 [(0, 0); (4, 0); (0, 4)] [[0; 1; 2]].
Definition rank2 : gc := ragged 0 [(4, 0); (4, 4); (0, 4); (8, 0)] [[0; 1; 2]; [0; 3; 1]].
Ltac rank_of rows := split; [mesh_of (Ragged rows)|split; [reflexivity|split; [reflexivity|eexists; reflexivity]]].

Lemma rank1_ok : RankMesh 0 None rank1 [GPolygon tri1].
Proof. rank_of [[0; 1; 2]]. constructor; [row3 (0, 0) (4, 0) (0, 4)|constructor]. Qed.
Lemma rank2_ok : RankMesh 0 None rank2 [GPolygon tri2; GPolygon tri3].
Proof. rank_of [[0; 1; 2]; [0; 3; 1]]. constructor; [row3 (4, 0) (4, 4) (0, 4)|]. constructor; [row3 (4, 0) (8, 0) (4, 4)|constructor]. Qed.
Lemma ranks_ok : Forall2 (RankMesh 0 None) [rank1; rank2] [[GPolygon tri1]; [GPolygon tri2; GPolygon tri3]] /\ Forall LastNodeUsed [rank1; rank2] /\
  write_esmf [rank1; rank2] = Ok (mkgc false [(0, 0); (4, 0); (0, 4); (4, 0); (4, 4); (0, 4); (8, 0)] (Some (Counted [0; 1; 2; 3; 4; 5; 3; 6; 4] [3; 3; 3])) None 0 None None).
Proof.
  split; [constructor; [exact rank1_ok|]; constructor; [exact rank2_ok|constructor]|]. split; [|reflexivity].
  constructor; [|constructor; [|constructor]]; (split; [discriminate|]); eexists; (split; [reflexivity|]); cbn; tauto.
Qed.

Lemma write_start : exists ranks gss g, Forall2 (RankMesh 1 None) ranks gss /\ Forall LastNodeUsed ranks /\ write_esmf ranks = Ok g /\
  snd (iter_geometries g true None false) <> Ok (map Some (concat gss)).
Proof.
  exists [ragged 1 [(0, 0); (4, 0); (0, 4)] [[1; 2; 3]]; ragged 1 [(4, 0); (4, 4); (0, 4)] [[1; 2; 3]]], [[GPolygon tri1]; [GPolygon tri2]]. eexists. split; [|split; [|split; [vm_compute; reflexivity|vm_compute; discriminate]]].
  - constructor; [|constructor; [|constructor]]; rank_of [[1; 2; 3]]; (constructor; [|constructor]); [row3 (0, 0) (4, 0) (0, 4)|row3 (4, 0) (4, 4) (0, 4)].
  - constructor; [|constructor; [|constructor]]; (split; [discriminate|]); eexists; (split; [reflexivity|]); cbn; tauto.
Qed.

Lemma write_unused : exists ranks gss g, Forall2 (RankMesh 0 None) ranks gss /\ write_esmf ranks = Ok g /\
  snd (iter_geometries g true None false) <> Ok (map Some (concat gss)).
Proof.
  exists [ragged 0 [(0, 0); (4, 0); (0, 4); (9, 9)] [[0; 1; 2]]; ragged 0 [(4, 0); (4, 4); (0, 4)] [[0; 1; 2]]], [[GPolygon tri1]; [GPolygon tri2]]. eexists. split; [|split; [vm_compute; reflexivity|vm_compute; discriminate]].
  constructor; [|constructor; [|constructor]]; rank_of [[0; 1; 2]]; (constructor; [|constructor]); [row3 (0, 0) (4, 0) (0, 4)|row3 (4, 0) (4, 4) (0, 4)].
Qed.

Lemma write_global : exists nodes1 nodes2 rows1 rows2 gs g,
  let rank nodes rows := mkgc false nodes (Some (Ragged rows)) (Some 0) 0 None None in
  Mesh (rank (nodes1 ++ nodes2)%list (rows1 ++ rows2)%list) gs /\ write_esmf [rank nodes1 rows1; rank nodes2 rows2] = Ok g /\
  snd (iter_geometries g true None false) <> Ok (map Some gs).
Proof.
  exists [(0, 0); (4, 0); (0, 4)], [(4, 4)], [[0; 1; 2]], [[1; 3; 2]], [GPolygon tri1; GPolygon tri2]. eexists. split; [|split; [vm_compute; reflexivity|vm_compute; discriminate]].
  mesh_of (Ragged [[0; 1; 2]; [1; 3; 2]]). constructor; [row3 (0, 0) (4, 0) (0, 4)|]. constructor; [row3 (4, 0) (4, 4) (0, 4)|constructor].
Qed.

Lemma write_table g rows : g_index g = Some (Table rows) -> write_esmf [g] = Err IndexError.
Proof. intro I. unfold write_esmf. cbn [map_res]. unfold ragged_rows. now rewrite I. Qed.

Lemma case_polygons : Forall PlainPolygons [two_parts; GPolygon tri3] /\ Exists Multi [two_parts; GPolygon tri3].
Proof.
  split; [|left; exact I]. constructor; [|constructor; [apply plain3; discriminate|constructor]]. split; [discriminate|]. constructor; [apply plain3; discriminate|]. constructor; [apply plain3; discriminate|constructor].
Qed.
