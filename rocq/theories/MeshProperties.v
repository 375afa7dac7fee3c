(** Properties of unstructured meshes. *)
From Verif Require Import Py CoordSpec MeshModel MeshSpec MeshProofs MeshMore MeshSub MeshEsmf MeshWitness.
Local Close Scope Q_scope.
Local Open Scope Z_scope.

(** ** C78: geometries to node coordinates and back *)

(** Polygons and multi-polygons without holes are converted (rows of any length). *)
Theorem C78_converted : forall o gs mask, Forall PlainPolygons gs -> gs <> [] -> o_max o = None -> exists g, convert_to o gs mask = Ok g.
Proof. exact convert_to_defined. Qed.
Print Assumptions C78_converted.

(** The nodes and the connectivity: packed nodes are different; without packing they
    are the vertices of the parts one after the other; every node is used; the row of
    a geometry names the vertices of its parts, counter-clockwise, with the break
    value between the parts. *)
Theorem C78_nodes : forall o gs mask g, Forall PlainPolygons gs -> gs <> [] -> convert_to o gs mask = Ok g ->
  (o_pack o = true -> NoDup (g_nodes g)) /\
  (o_pack o = false -> exists vss, g_nodes g = concat vss /\
     Forall2 (fun vs p => exists r, CounterClockwise (exterior p) r /\ vs = (if o_repeat o then r else removelast r)) vss (concat (map parts gs))) /\
  exists rows, (g_index g = Some (Ragged rows) \/ g_index g = Some (Table rows)) /\
    (forall k, (k < List.length (g_nodes g))%nat -> In (o_start o + Z.of_nat k) (concat rows)) /\
    Forall2 (fun row geo => exists pieces, row = join (o_break o) pieces /\
      Forall2 (fun piece p => exists r, CounterClockwise (exterior p) r /\ Draws (g_nodes g) (o_start o) piece (if o_repeat o then r else removelast r)) pieces (parts geo)) rows gs.
Proof. exact convert_nodes. Qed.
Print Assumptions C78_nodes.

(** The result is a mesh of the same geometries, with the same mask; all are
    multi-polygons as soon as one was. *)
Theorem C78_mesh : forall o gs mask g, Forall PlainPolygons gs -> gs <> [] -> 0 <= o_start o -> o_break o < 0 ->
  (forall m, mask = Some m -> List.length m = List.length gs) -> convert_to o gs mask = Ok g ->
  exists gs', Mesh g gs' /\ Ugrid g /\ g_mask g = mask /\ Forall2 SameParts gs gs' /\
    (Exists Multi gs /\ Forall Multi gs' \/ Forall (fun x => ~ Multi x) gs /\ Forall (fun x => ~ Multi x) gs').
Proof. exact convert_mesh. Qed.
Print Assumptions C78_mesh.

(** Converting and reading gives the geometries back.  Missing: multi-part geometries
    with a start index other than zero (refuted below). *)
Theorem C78_round_trip_partial : forall o gs mask g, Forall PlainPolygons gs -> gs <> [] -> 0 <= o_start o -> o_break o < 0 ->
  (forall m, mask = Some m -> List.length m = List.length gs) -> o_start o = 0 \/ Forall (fun x => ~ Multi x) gs -> convert_to o gs mask = Ok g ->
  exists gs' l, Forall2 SameParts gs gs' /\ iter_geometries g true None false = (g, Ok l) /\ Shows mask gs' l.
Proof. exact round_trip. Qed.
Print Assumptions C78_round_trip_partial.

Example C78_case_hypotheses : Forall PlainPolygons [two_parts; GPolygon tri3] /\ Exists Multi [two_parts; GPolygon tri3].
Proof. exact case_polygons. Qed.
Example C78_case : match convert_to (mkopts true false 0 None (-8)) [two_parts; GPolygon tri3] (Some [false; true]) with
  | Ok g => g_nodes g = [(0, 0); (4, 0); (0, 4); (4, 4); (8, 0)] /\ g_index g = Some (Ragged [[0; 1; 2; -8; 1; 3; 2]; [1; 4; 3]]) /\
            snd (iter_geometries g true None false) = Ok [Some two_parts_ccw; None]
  | Err _ => False
  end.
Proof. vm_compute. now repeat split. Qed.

(** The full statement is false: with a start index of one, the start index is also
    taken from the break value, and parts are not told apart. *)
Theorem C78_start_index_multi_refuted : exists o gs g, Forall PlainPolygons gs /\ o_start o = 1 /\ o_break o < 0 /\ convert_to o gs None = Ok g /\
  snd (iter_geometries g true None false) = Err IndexError.
Proof. exact start_multi_error. Qed.
Print Assumptions C78_start_index_multi_refuted.

(** With enough nodes there is no error, but another geometry. *)
Theorem C78_start_index_multi_wrong_refuted : exists o gs g geo l, Forall PlainPolygons gs /\ o_start o = 1 /\ o_break o < 0 /\ convert_to o gs None = Ok g /\
  snd (iter_geometries g true None false) = Ok (Some geo :: l) /\ List.length (parts (hd (GPoint (0, 0)) gs)) = 2%nat /\ List.length (parts geo) = 1%nat.
Proof. exact start_multi_wrong. Qed.
Print Assumptions C78_start_index_multi_wrong_refuted.

(** Polygons with holes are refused. *)
Theorem C78_holes : forall o gs mask, Forall (fun g => match g with GPolygon _ | GMultiPolygon _ => True | _ => False end) gs ->
  Exists (fun g => Exists (fun p => holes p <> []) (parts g)) gs -> exists e, convert_to o gs mask = Err e.
Proof. exact convert_holes. Qed.
Print Assumptions C78_holes.
Example C78_holes_case : convert_to (mkopts true false 0 None (-8)) [GPolygon tri3; GPolygon (mkpoly (exterior tri3) [exterior tri1])] None = Err ValueError.
Proof. reflexivity. Qed.

(** Points. *)
Theorem C78_points : forall o vs mask, vs <> [] -> exists g l, convert_to o (map GPoint vs) mask = Ok g /\
  iter_geometries g true None false = (g, Ok l) /\ Shows mask (map GPoint vs) l.
Proof. exact points_round_trip. Qed.
Print Assumptions C78_points.
Example C78_points_case : match convert_to (mkopts true false 1 None (-8)) [GPoint (1, 2); GPoint (3, 4)] (Some [true; false]) with
  | Ok g => snd (iter_geometries g true None false) = Ok [None; Some (GPoint (3, 4))] | Err _ => False end.
Proof. reflexivity. Qed.

(** ** C79: reading the geometries of a mesh *)

(** A mesh in rows: the elements are read, those masked left out, the mesh stays as it
    is. *)
Theorem C79_ugrid : forall g gs use_mask, Mesh g gs -> Ugrid g -> g_multi g = None \/ start_index g = 0 ->
  exists l, iter_geometries g use_mask None false = (g, Ok l) /\ Shows (if use_mask : bool then g_mask g else None) gs l.
Proof. exact iter_rows. Qed.
Print Assumptions C79_ugrid.
Example C79_ugrid_case : Mesh mesh1 [GPolygon tri1; GPolygon tri2] /\ Ugrid mesh1 /\ start_index mesh1 = 1 /\
  snd (iter_geometries mesh1 true None false) = Ok [None; Some (GPolygon tri2)].
Proof. split; [exact mesh1_ok|]. split; [eexists; right; reflexivity|]. now split. Qed.

(** An ESMF mesh is read the same way, the first time.  Missing: that it stays as it
    is when the start index is not zero (refuted below). *)
Theorem C79_esmf_partial : forall g gs conn counts use_mask, Mesh g gs -> EsmfVector g conn counts -> g_multi g = None \/ start_index g = 0 ->
  exists g' l, iter_geometries g use_mask None false = (g', Ok l) /\ Shows (if use_mask : bool then g_mask g else None) gs l /\ (start_index g = 0 -> g' = g).
Proof. exact esmf_read. Qed.
Print Assumptions C79_esmf_partial.

(** Reading takes the start index from the connectivity itself, each time. *)
Theorem C79_esmf_changed_refuted : forall g gs conn counts, Mesh g gs -> EsmfVector g conn counts -> g_multi g = None -> g_mask g = None -> 0 < start_index g ->
  fst (iter_geometries g true None false) = set_index g (Some (Counted (map (fun x => x - start_index g) conn) counts)).
Proof. exact esmf_changed. Qed.
Print Assumptions C79_esmf_changed_refuted.
Example C79_esmf_case : Mesh esmf1 [GPolygon tri1; GPolygon tri2] /\ EsmfVector esmf1 [1; 2; 3; 2; 4; 3] [3; 3] /\ start_index esmf1 = 1.
Proof. exact esmf1_ok. Qed.

(** The second reading gives other geometries. *)
Theorem C79_esmf_second_refuted : exists g gs, Mesh g gs /\ snd (iter_geometries g true None false) = Ok (map Some gs) /\
  exists l, snd (iter_geometries (fst (iter_geometries g true None false)) true None false) = Ok l /\ l <> map Some gs.
Proof. exact esmf_second. Qed.
Print Assumptions C79_esmf_second_refuted.

(** A mask given to the reading is not used when the object itself masks nothing. *)
Theorem C79_hint_mask_refuted : forall g gs hint, Mesh g gs -> Ugrid g -> g_multi g = None \/ start_index g = 0 -> (forall k, ~ Masked (g_mask g) k) ->
  iter_geometries g true (Some hint) false = (g, Ok (map Some gs)).
Proof. exact hint_ignored. Qed.
Print Assumptions C79_hint_mask_refuted.

(** Polygons are not read with memory optimizations. *)
Theorem C79_memory_refuted : exists g gs, Mesh g gs /\ Ugrid g /\ snd (iter_geometries g true None true) = Err ValueError.
Proof. exact memory_fails. Qed.
Print Assumptions C79_memory_refuted.

(** Rows filled up with -1 (elements of different sizes in a table): the last node
    becomes a vertex of the element, without an error. *)
Theorem C79_padding_refuted : exists nodes rows l, let g := mkgc false nodes (Some (Table rows)) None 0 None None in
  Depicts nodes 0 None (removelast (hd [] rows)) (GPolygon tri1) /\ last (hd [] rows) 0 = -1 /\
  snd (iter_geometries g true None false) = Ok (Some (GPolygon (mkpoly [(0, 0); (4, 0); (0, 4); (9, 9); (0, 0)] [])) :: l).
Proof. exact padding_wrong. Qed.
Print Assumptions C79_padding_refuted.

(** An ESMF connectivity in a table (as the ESMF format defines it): the numbers of
    connections are taken for numbers of rows. *)
Theorem C79_esmf_table_refuted : exists g gs, Mesh g gs /\ start_index g = 0 /\ snd (iter_geometries g true None false) <> Ok (map Some gs).
Proof. exact esmf_table. Qed.
Print Assumptions C79_esmf_table_refuted.

(** ** C80: reducing the nodes *)

(** The elements stay the same and every node that is left is used by one of them.
    Missing: multi-part meshes, ragged connectivities, a start index that is only in
    the attribute and not the driver's. *)
Theorem C80_reduced_partial : forall g gs, Mesh g gs -> g_multi g = None -> start_index g = 0 \/ start_index g = 1 ->
  (exists rows, g_index g = Some (Table rows) /\ (g_given g = None -> start_index g = 0)) \/
  (exists conn counts, EsmfVector g conn counts /\ (g_given g = None -> start_index g = 1)) ->
  exists g', reduce_global g = Ok g' /\ Mesh g' gs /\ AllNodesUsed g' /\ incl (g_nodes g') (g_nodes g) /\ start_index g' = start_index g /\ g_mask g' = g_mask g.
Proof. exact reduce_keeps. Qed.
Print Assumptions C80_reduced_partial.
Example C80_case : Mesh mesh2 [GPolygon tri2] /\ g_multi mesh2 = None /\ start_index mesh2 = 1 /\
  reduce_global mesh2 = Ok (mkgc false [(4, 0); (0, 4); (4, 4)] (Some (Table [[1; 3; 2]])) (Some 1) 1 None None).
Proof. split; [exact mesh2_ok|]. now repeat split. Qed.

(** The start index in the attribute of a UGRID connectivity is lost. *)
Theorem C80_attribute_refuted : exists g gs g', Mesh g gs /\ Ugrid g /\ g_multi g = None /\ start_index g = 1 /\ reduce_global g = Ok g' /\ start_index g' = 0 /\
  snd (iter_geometries g true None false) = Ok (map Some gs) /\ snd (iter_geometries g' true None false) <> Ok (map Some gs).
Proof. exact reduce_attribute. Qed.
Print Assumptions C80_attribute_refuted.

(** The break value is renumbered as if it were a node, and forgotten. *)
Theorem C80_multi_refuted : exists g gs g', Mesh g gs /\ Ugrid g /\ start_index g = 0 /\ reduce_global g = Ok g' /\ g_multi g <> None /\ g_multi g' = None /\
  snd (iter_geometries g true None false) = Ok (map Some gs) /\ snd (iter_geometries g' true None false) <> Ok (map Some gs).
Proof. exact reduce_multi. Qed.
Print Assumptions C80_multi_refuted.

(** What [convert_to] makes cannot be reduced. *)
Theorem C80_ragged_refuted : forall g rows, g_index g = Some (Ragged rows) -> reduce_global g = Err ValueError.
Proof. exact reduce_ragged. Qed.
Print Assumptions C80_ragged_refuted.

(** ** C81: spatial subsets of a mesh *)

(** From a mesh in rows, exactly the elements that are not masked and intersect are
    taken, in order; the mesh itself is not changed. *)
Theorem C81_ugrid : forall g gs pred in_box om, Mesh g gs -> Ugrid g -> g_multi g = None \/ start_index g = 0 ->
  exists r sel gs', spatial_subset g pred in_box om true = (g, Ok (r, sel)) /\ List.length sel = List.length gs /\
    (forall k geo b, nth_error gs k = Some geo -> nth_error sel k = Some b -> (b = true <-> ~ Masked (g_mask g) k /\ pred geo = true)) /\
    Chosen (fun k geo => ~ Masked (g_mask g) k /\ pred geo = true) 0 gs gs' /\
    match r with Some g' => gs' <> [] /\ Mesh g' gs' /\ Ugrid g' /\ (forall k, ~ Masked (g_mask g') k) | None => gs' = [] end.
Proof. exact subset_rows. Qed.
Print Assumptions C81_ugrid.
Example C81_case : Mesh mesh1 [GPolygon tri1; GPolygon tri2] /\
  spatial_subset mesh1 (fun _ => true) (fun _ => true) None true =
    (mesh1, Ok (Some (mkgc false (g_nodes mesh1) (Some (Table [[2; 4; 3]])) (g_given mesh1) (g_attr mesh1) None (Some [false])), [false; true])).
Proof. split; [exact mesh1_ok|reflexivity]. Qed.

(** The same for points, if the bounding box contains what intersects. *)
Theorem C81_points : forall g pred in_box, g_point g = true -> g_index g = None -> (forall m, g_mask g = Some m -> List.length m = List.length (g_nodes g)) ->
  (forall v, pred (GPoint v) = true -> in_box v = true) ->
  exists r sel vs', spatial_subset g pred in_box None true = (g, Ok (r, sel)) /\ List.length sel = List.length (g_nodes g) /\
    (forall k v b, nth_error (g_nodes g) k = Some v -> nth_error sel k = Some b -> (b = true <-> ~ Masked (g_mask g) k /\ pred (GPoint v) = true)) /\
    Chosen (fun k v => ~ Masked (g_mask g) k /\ pred (GPoint v) = true) 0 (g_nodes g) vs' /\
    match r with Some g' => vs' <> [] /\ g_point g' = true /\ g_index g' = None /\ g_nodes g' = vs' /\ (forall k, ~ Masked (g_mask g') k) | None => vs' = [] end.
Proof. exact subset_points. Qed.
Print Assumptions C81_points.
Example C81_points_case : spatial_subset (points_gc [(0, 0); (1, 0); (2, 0); (9, 0)] 0 (Some [false; true; false; false]))
    (fun g => match g with GPoint v => fst v <=? 5 | _ => false end) (fun v => fst v <=? 6) None true =
  (points_gc [(0, 0); (1, 0); (2, 0); (9, 0)] 0 (Some [false; true; false; false]),
   Ok (Some (points_gc [(0, 0); (2, 0)] 0 (Some [false; false])), [true; false; true; false])).
Proof. reflexivity. Qed.

(** The mask given for the subset is not used for polygons. *)
Theorem C81_original_mask_refuted : forall g pred in_box om, g_point g = false -> spatial_subset g pred in_box om true = spatial_subset g pred in_box None true.
Proof. exact subset_ignores. Qed.
Print Assumptions C81_original_mask_refuted.

(** Of an ESMF mesh with all connections in one vector, single connections are taken
    instead of elements; what is left cannot be read. *)
Theorem C81_esmf_refuted : exists g gs pred g' sub, Mesh g gs /\ (exists conn counts, EsmfVector g conn counts) /\ start_index g = 0 /\
  spatial_subset g pred (fun _ => true) None true = (g', Ok (Some sub, [false; true])) /\ map pred gs = [false; true] /\
  snd (iter_geometries sub true None false) = Err ValueError.
Proof. exact subset_esmf. Qed.
Print Assumptions C81_esmf_refuted.

(** ** C82: writing a distributed mesh in the ESMF format *)

(** What is read from the file are the elements of the processes, one after the
    other.  Missing: more than one process with a start index of one, or with a last
    node that no element uses (refuted below). *)
Theorem C82_written_partial : forall start multi ranks gss, ranks <> [] -> Forall2 (RankMesh start multi) ranks gss ->
  List.length ranks = 1%nat \/ start = 0 /\ Forall LastNodeUsed ranks ->
  exists g conn counts, write_esmf ranks = Ok g /\ Mesh g (concat gss) /\ EsmfVector g conn counts /\ start_index g = start /\ g_multi g = multi /\ g_nodes g = concat (map g_nodes ranks).
Proof. exact esmf_written. Qed.
Print Assumptions C82_written_partial.
Example C82_case : Forall2 (RankMesh 0 None) [rank1; rank2] [[GPolygon tri1]; [GPolygon tri2; GPolygon tri3]] /\ Forall LastNodeUsed [rank1; rank2] /\
  write_esmf [rank1; rank2] = Ok (mkgc false [(0, 0); (4, 0); (0, 4); (4, 0); (4, 4); (0, 4); (8, 0)] (Some (Counted [0; 1; 2; 3; 4; 5; 3; 6; 4] [3; 3; 3])) None 0 None None).
Proof. exact ranks_ok. Qed.

(** With a start index of one on two processes, the second process's elements are
    shifted by one node. *)
Theorem C82_start_index_refuted : exists ranks gss g, Forall2 (RankMesh 1 None) ranks gss /\ Forall LastNodeUsed ranks /\ write_esmf ranks = Ok g /\
  snd (iter_geometries g true None false) <> Ok (map Some (concat gss)).
Proof. exact write_start. Qed.
Print Assumptions C82_start_index_refuted.

(** So they are when the last node of the first process is not used. *)
Theorem C82_unused_node_refuted : exists ranks gss g, Forall2 (RankMesh 0 None) ranks gss /\ write_esmf ranks = Ok g /\
  snd (iter_geometries g true None false) <> Ok (map Some (concat gss)).
Proof. exact write_unused. Qed.
Print Assumptions C82_unused_node_refuted.

(** Indices that count the nodes of all processes (as after [reduce_global] on several
    processes) are shifted once more. *)
Theorem C82_global_indices_refuted : exists nodes1 nodes2 rows1 rows2 gs g,
  let rank nodes rows := mkgc false nodes (Some (Ragged rows)) (Some 0) 0 None None in
  Mesh (rank (nodes1 ++ nodes2)%list (rows1 ++ rows2)%list) gs /\ write_esmf [rank nodes1 rows1; rank nodes2 rows2] = Ok g /\
  snd (iter_geometries g true None false) <> Ok (map Some gs).
Proof. exact write_global. Qed.
Print Assumptions C82_global_indices_refuted.

(** A connectivity in a table cannot be written. *)
Theorem C82_table_refuted : forall g rows, g_index g = Some (Table rows) -> write_esmf [g] = Err IndexError.
Proof. exact write_table. Qed.
Print Assumptions C82_table_refuted.
