(** C146 to C151: operations whose attributes are assigned after construction. *)
From Verif Require Import Py ValidModel ValidSpec ValidProofs ValidMore.
From Coq Require Import String Lia.
Local Open Scope nat_scope.
Local Notation length := List.length.

Definition tas : dataset := mkdataset false false (Some Wgs84) false ["tas"%string] false true 1%Z.
Definition rhs : dataset := mkdataset false false (Some Wgs84) false ["rhs"%string] false true 1%Z.
Definition polar : dataset := mkdataset false false (Some (RotatedPole 7)) false ["tas"%string] false true 2%Z.
Definition states : list (Z * Z) := [(1, 10); (2, 10); (3, 20)]%Z.

(** A request with defaults: one dataset, a file of three geometries. *)
Definition request : args :=
  mkargs [tas] Intersects false false None None false false (Key Ocgis) false None None (FileGeom states) false false None None
         (DictOptions ["regrid_method"; "value_mask"; "split"]%string true).

Definition with_all (l : list assignment) (a : args) : args := fold_left (fun a s => update s a) l a.

(** C146.  Operations whose attributes were assigned one after the other, some of the
    assignments refused, are those that are constructed with the same values, and the last
    assignment raises what that construction raises. *)
Theorem C146_assigned_as_constructed_partial : forall size a o l s,
  NotRotated (a_data a) -> Sources (a_data a) -> a_options a = NoOptions \/ GoodOptions (a_options a) ->
  construct size a = Ok o -> Forall Direct l -> Direct s ->
  match construct size (update s (with_all l a)) with
  | Ok o' => snd (assign size s (assign_all size l o)) = Ok tt /\ Same (fst (assign size s (assign_all size l o))) o'
  | Err e => snd (assign size s (assign_all size l o)) = Err e
  end.
Proof. exact history. Qed.
Print Assumptions C146_assigned_as_constructed_partial.

Lemma request_fine : NotRotated (a_data request) /\ Sources (a_data request) /\ GoodOptions (a_options request).
Proof.
  split; [intros d k [<-|[]]; discriminate|]. split; [split; [intros d [<-|[]]; reflexivity|exists tas; split; [left; reflexivity|reflexivity]]|].
  eexists. split; [reflexivity|]. auto.
Qed.
Example C146_case : NotRotated (a_data request) /\ Sources (a_data request) /\ GoodOptions (a_options request) /\
  Forall Direct [SetFormat (Key Nc); SetAggregate true; SetSelect (Some [2]%Z)] /\
  match construct 1 request with
  | Ok o =>
      snd (assign 1 (SetFormat (Key Nc)) o) = Err DefinitionValidationError /\
      snd (assign 1 (SetSelect (Some [2]%Z)) (assign_all 1 [SetFormat (Key Nc); SetAggregate true] o)) = Ok tt /\
      geometries (geom_get (o_geom (assign_all 1 [SetFormat (Key Nc); SetAggregate true; SetSelect (Some [2]%Z)] o))) = [[2]]%Z
  | Err _ => False
  end.
Proof.
  split; [apply request_fine|]. split; [apply request_fine|]. split; [apply request_fine|]. split.
  - repeat constructor. exists Nc. reflexivity.
  - vm_compute. repeat split.
Qed.

(** For the other attributes it is false: assigning [agg_selection] does not union the
    selection geometries, not even those assigned later, and netCDF output accepts them. *)
Theorem C146_agg_selection_refuted : exists a o o',
  construct 1 a = Ok o /\ construct 1 (update (SetAggSelection true) a) = Ok o' /\
  geometries (geom_get (o_geom o')) = [[1; 2; 3]]%Z /\
  snd (assign 1 (SetAggSelection true) o) = Ok tt /\
  o_agg_selection (fst (assign 1 (SetAggSelection true) o)) = true /\
  geometries (geom_get (o_geom (fst (assign 1 (SetAggSelection true) o)))) = [[1]; [2]; [3]]%Z /\
  geometries (geom_get (o_geom (assign_all 1 [SetAggSelection true; SetGeom (Records [4; 5]%Z)] o))) = [[4]; [5]]%Z /\
  snd (assign 1 (SetFormat (Key Nc)) (assign_all 1 [SetAggSelection true; SetGeom (Records [4; 5]%Z)] o)) = Ok tt.
Proof. exists request. eexists. eexists. split; [vm_compute; reflexivity|]. split; [vm_compute; reflexivity|]. vm_compute. repeat split. Qed.
Print Assumptions C146_agg_selection_refuted.

(** Nor does a condition on the geometries assigned afterwards have an effect. *)
Theorem C146_where_refuted : exists a o o',
  construct 1 a = Ok o /\ construct 1 (update (SetWhere (Some 20%Z)) a) = Ok o' /\
  geometries (geom_get (o_geom o')) = [[3]]%Z /\
  snd (assign 1 (SetWhere (Some 20%Z)) o) = Ok tt /\
  geometries (geom_get (o_geom (fst (assign 1 (SetWhere (Some 20%Z)) o)))) = [[1]; [2]; [3]]%Z.
Proof. exists request. eexists. eexists. split; [vm_compute; reflexivity|]. split; [vm_compute; reflexivity|]. vm_compute. repeat split. Qed.
Print Assumptions C146_where_refuted.

(** The old names of the formats are understood by the constructor only, and datasets that are
    assigned later are not asked for the destination of regridding. *)
Theorem C146_others_refuted :
  (exists a o, construct 1 a = Ok o /\ (exists o', construct 1 (update (SetFormat OldNumpy) a) = Ok o') /\
     snd (assign 1 (SetFormat OldNumpy) o) = Err DefinitionValidationError) /\
  (exists a o o' v, construct 1 a = Ok o /\ construct 1 (update (SetData v) a) = Ok o' /\ o_regrid o' = Some 5%Z /\
     snd (assign 1 (SetData v) o) = Ok tt /\ o_regrid (fst (assign 1 (SetData v) o)) = None).
Proof.
  split.
  - exists request. eexists. split; [vm_compute; reflexivity|]. split; [eexists; vm_compute; reflexivity|vm_compute; reflexivity].
  - exists request. eexists. eexists. exists [tas; mkdataset false false (Some Wgs84) false ["pr"%string] true false 5%Z].
    split; [vm_compute; reflexivity|]. split; [vm_compute; reflexivity|]. vm_compute. repeat split.
Qed.
Print Assumptions C146_others_refuted.

(** C147.  An assignment that is refused does not change the operations: false, the value
    stays, and every later assignment is refused for it. *)
Theorem C147_refused_unchanged_refuted : exists a o,
  construct 1 a = Ok o /\
  snd (assign 1 (SetFormat (Key Nc)) o) = Err DefinitionValidationError /\
  o_format o = Ocgis /\ o_format (fst (assign 1 (SetFormat (Key Nc)) o)) = Nc /\
  snd (assign 1 (SetSnippet true) o) = Ok tt /\
  snd (assign 1 (SetSnippet true) (fst (assign 1 (SetFormat (Key Nc)) o))) = Err DefinitionValidationError.
Proof. exists request. eexists. split; [vm_compute; reflexivity|]. vm_compute. repeat split. Qed.
Print Assumptions C147_refused_unchanged_refuted.

(** A value refused by its parameter leaves the operations as they are; otherwise the one
    attribute is changed and no other. *)
Theorem C147_refused_by_parameter_partial : forall size s o e,
  store s o = Err e -> assign size s o = (o, Err e).
Proof.
  intros size s o e H. destruct (store_error size s o e H) as [H1 H2]. rewrite (surjective_pairing (assign size s o)), H1, H2. reflexivity.
Qed.
Print Assumptions C147_refused_by_parameter_partial.
Theorem C147_one_attribute_partial : forall size s o p,
  NotRotated (o_data o) -> (forall v, s = SetData v -> NotRotated v) -> store s o = Ok p ->
  OnlyChanged s o (fst (assign size s o)).
Proof. exact only_changed. Qed.
Print Assumptions C147_one_attribute_partial.
(** Assigning the earlier value makes up for any assignment, refused or not. *)
Theorem C147_taken_back_partial : forall size a o s,
  NotRotated (a_data a) -> Sources (a_data a) -> GoodOptions (a_options a) -> (exists f, a_format a = Key f) ->
  construct size a = Ok o -> Direct s ->
  snd (assign size (back s a) (fst (assign size s o))) = Ok tt /\
  Same (fst (assign size (back s a) (fst (assign size s o)))) o.
Proof. exact restored. Qed.
Print Assumptions C147_taken_back_partial.
Example C147_case : match construct 1 request with
  | Ok o => store (SetFormat Unknown) o = Err DefinitionValidationError /\
            snd (assign 1 (SetFormat (Key Nc)) o) = Err DefinitionValidationError /\
            snd (assign 1 (back (SetFormat (Key Nc)) request) (fst (assign 1 (SetFormat (Key Nc)) o))) = Ok tt
  | Err _ => False
  end.
Proof. vm_compute. repeat split. Qed.

(** C148.  A request is accepted exactly if it meets the rules. *)
Theorem C148_rules_partial : forall size o, NotRotated (o_data o) -> (snd (validate size o) = Ok tt <-> Rules size o).
Proof. exact rules_ok. Qed.
Print Assumptions C148_rules_partial.
Theorem C148_constructed_partial : forall size a o, NotRotated (a_data a) -> construct size a = Ok o -> Rules size o.
Proof.
  intros size a o N H. destruct (construct_crs size a o N H) as [_ D]. apply rules_ok; [rewrite D; exact N|].
  unfold construct in H. destruct (create a) as [p|e] eqn:C; [|discriminate]. cbn in H.
  assert (Np : NotRotated (o_data (update_dependents p))).
  { cbn. unfold create in C. destruct (format_created _); [|discriminate]. destruct (parse_destination _ _); [|discriminate]. cbn [bind] in C.
    destruct (match a_options a with NoOptions => parse_options default_options | v => parse_options v end); [|discriminate]. injection C as <-. exact N. }
  pose proof (validate_keeps size _ Np) as K. destruct (validate size (update_dependents p)) as [q [[]|e]] eqn:V; [|discriminate]. injection H as <-.
  cbn in K. subst q. rewrite V. reflexivity.
Qed.
Print Assumptions C148_constructed_partial.
(** If no two calculations use the same function and none is an expression, every
    multivariate calculation finds its variables. *)
Theorem C148_names_partial : forall size o l c required, Rules size o -> o_calc o = Some l ->
  (forall c', In c' l -> is_expression c' = false) -> NoDup (map c_func l) -> In c l -> c_kind c = Multi required ->
  HasNames o required (c_kwds c).
Proof. exact names_checked. Qed.
Print Assumptions C148_names_partial.

Definition heat (t r : string) : calc := mkcalc "heat_index"%string (Multi ["tas"; "rhs"]%string) [("tas", t); ("rhs", r)]%string.
Definition both : args := update (SetData [tas; rhs]) (update (SetGeom NoGeom) request).
Example C148_case : exists o, construct 1 (update (SetFormat (Key Nc)) (update (SetCalc (Some [heat "tas" "rhs"])) both)) = Ok o.
Proof. eexists. vm_compute. reflexivity. Qed.

(** A multivariate calculation whose variables do not exist is accepted as the second of its
    function. *)
Theorem C148_second_refuted : exists a o c,
  construct 1 a = Ok o /\ o_calc o = Some [heat "tas" "rhs"; c] /\ c = heat "nothing" "nowhere" /\
  ~ HasNames o ["tas"; "rhs"]%string (c_kwds c) /\
  construct 1 (update (SetCalc (Some [c])) a) = Err DefinitionValidationError.
Proof.
  exists (update (SetCalc (Some [heat "tas" "rhs"; heat "nothing" "nowhere"])) both). eexists. exists (heat "nothing" "nowhere").
  split; [vm_compute; reflexivity|]. split; [reflexivity|]. split; [reflexivity|]. split; [|vm_compute; reflexivity].
  intros [_ H]. destruct (H "tas"%string (or_introl eq_refl)) as [n [d [E [D N]]]]. vm_compute in E. injection E as <-.
  destruct D as [<-|[<-|[]]]; destruct N as [N|[]]; discriminate.
Qed.
Print Assumptions C148_second_refuted.
(** A set function without grouping is accepted before an expression. *)
Theorem C148_mixed_refuted : exists a o c,
  construct 1 a = Ok o /\ (exists e, o_calc o = Some [c; e]) /\ c_kind c = Grouped /\ o_grouping o = None /\
  construct 1 (update (SetCalc (Some [c])) a) = Err DefinitionValidationError.
Proof.
  exists (update (SetCalc (Some [mkcalc "mean"%string Grouped []; mkcalc "x=tas+1"%string Expression []])) request). eexists.
  exists (mkcalc "mean"%string Grouped []). split; [vm_compute; reflexivity|]. split; [eexists; reflexivity|]. vm_compute. repeat split.
Qed.
Print Assumptions C148_mixed_refuted.
(** A multivariate function of two datasets cannot be written to GeoJSON although it can be
    written to netCDF. *)
Theorem C148_geojson_refuted : exists a c required,
  a_calc a = Some [c] /\ c_kind c = Multi required /\
  construct 1 (update (SetFormat (Key GeoJson)) a) = Err DefinitionValidationError /\
  exists o, construct 1 (update (SetFormat (Key Nc)) a) = Ok o.
Proof.
  exists (update (SetCalc (Some [heat "tas" "rhs"])) both), (heat "tas" "rhs"), ["tas"; "rhs"]%string.
  split; [reflexivity|]. split; [reflexivity|]. split; [vm_compute; reflexivity|]. eexists. vm_compute. reflexivity.
Qed.
Print Assumptions C148_geojson_refuted.
(** Not every refusal is a validation error. *)
Theorem C148_error_refuted :
  construct 1 (update (SetFormat (Key Nc)) (update (SetCalc (Some [mkcalc "log"%string Plain []])) both)) = Err TypeError /\
  construct 1 (update (SetCalc (Some [mkcalc "duration"%string Duration []])) request) = Err TypeError /\
  construct 1 (update (SetSlice true) request) = Err AssertionError /\
  construct 1 (update (SetCalc (Some [mkcalc "f"%string (Multi ["tas"; "rhs"; "ps"]%string) [("tas", "tas"); ("rhs", "rhs")]%string])) both) = Err KeyError.
Proof. vm_compute. repeat split. Qed.
Print Assumptions C148_error_refuted.

(** C149.  Regridding options that are assigned as dictionaries are always checked: after any
    history of such assignments the options are good and complete, and bad ones are refused. *)
Theorem C149_options_kept_partial : forall size a o l, construct size a = Ok o -> Forall DictAssigned l ->
  CompleteOptions (slot_value (o_options (assign_all size l o))).
Proof. exact options_kept. Qed.
Print Assumptions C149_options_kept_partial.
Theorem C149_bad_options_refused_partial : forall size a o l keys ok, construct size a = Ok o -> Forall DictAssigned l ->
  ok = false \/ (exists k, In k keys /\ ~ In k ["regrid_method"; "value_mask"; "split"]%string) ->
  assign size (SetOptions (DictOptions keys ok)) (assign_all size l o) = (assign_all size l o, Err DefinitionValidationError).
Proof. exact options_refused. Qed.
Print Assumptions C149_bad_options_refused_partial.
Example C149_case : match construct 1 request with
  | Ok o => slot_value (o_options (assign_all 1 [SetOptions (DictOptions ["split"%string] true); SetOptions (DictOptions ["bad"%string] true)] o))
            = DictOptions ["split"; "regrid_method"; "value_mask"]%string true
  | Err _ => False
  end.
Proof. vm_compute. reflexivity. Qed.
(** After an assignment of [None] or of a text nothing is checked any more. *)
Theorem C149_options_refuted : exists a o bad,
  construct 1 a = Ok o /\
  snd (assign 1 (SetOptions bad) o) = Err DefinitionValidationError /\
  snd (assign 1 (SetOptions NoOptions) o) = Ok tt /\
  snd (assign 1 (SetOptions bad) (fst (assign 1 (SetOptions NoOptions) o))) = Ok tt /\
  slot_value (o_options (assign_all 1 [SetOptions NoOptions; SetOptions bad] o)) = bad /\
  ~ CompleteOptions bad /\
  snd (assign 1 (SetOptions (TextOptions "anything")) o) = Ok tt.
Proof.
  exists request. eexists. exists (DictOptions ["bad"%string] false). split; [vm_compute; reflexivity|].
  repeat (split; [vm_compute; reflexivity|]). split; [|vm_compute; reflexivity]. intros [keys [E _]]. discriminate.
Qed.
Print Assumptions C149_options_refuted.

(** C150.  The output coordinate system is the one last asked for, whatever else is assigned
    and refused, if no dataset is on a rotated pole. *)
Theorem C150_output_crs_partial : forall size a o l, NotRotated (a_data a) -> NeverRotated l -> construct size a = Ok o ->
  o_crs (assign_all size l o) = last_crs l (a_crs a).
Proof.
  intros size a o l N V H. destruct (construct_crs size a o N H) as [E D]. rewrite <- E. apply crs_history; [rewrite D; exact N|exact V].
Qed.
Print Assumptions C150_output_crs_partial.
(** Data on a rotated pole that is clipped or aggregated gets the spherical system, and
    nothing but this one or its own is accepted. *)
Theorem C150_rotated_partial : forall size s o p d k, assign size s o = (p, Ok tt) -> In d (o_data p) -> ds_crs d = Some (RotatedPole k) ->
  (o_crs p = None \/ o_crs p = Some Sphere) /\ (o_aggregate p = true \/ o_op p = Clip -> o_crs p = Some Sphere).
Proof. exact assign_rotated. Qed.
Print Assumptions C150_rotated_partial.
Example C150_case : match construct 1 (update (SetData [polar]) request) with
  | Ok o => snd (assign 1 (SetAggregate true) o) = Ok tt /\ o_crs (fst (assign 1 (SetAggregate true) o)) = Some Sphere /\
            snd (assign 1 (SetCrs (Some Wgs84)) o) = Err DefinitionValidationError
  | Err _ => False
  end.
Proof. vm_compute. repeat split. Qed.
(** The replacement outlives its reason: aggregation switched on and off again leaves the
    spherical system, which was never asked for; even a refused assignment brings it about. *)
Theorem C150_output_crs_refuted :
  (exists a o, construct 1 a = Ok o /\ o_crs o = None /\
     snd (assign 1 (SetAggregate false) (fst (assign 1 (SetAggregate true) o))) = Ok tt /\
     o_crs (assign_all 1 [SetAggregate true; SetAggregate false] o) = Some Sphere) /\
  (exists a o, construct 1 a = Ok o /\ o_crs o = None /\ snd (assign 1 (SetOp Clip) o) = Ok tt /\
     snd (assign 1 (SetSlice true) (fst (assign 1 (SetOp Clip) o))) = Err AssertionError /\
     o_crs (assign_all 1 [SetOp Clip; SetSlice true; SetOp Intersects; SetSlice false] o) = Some Sphere).
Proof.
  split; exists (update (SetData [polar]) request); eexists; (split; [vm_compute; reflexivity|]); vm_compute; repeat split.
Qed.
Print Assumptions C150_output_crs_refuted.

(** C151.  The selection geometries are those asked for: with the identifiers and the
    condition given, one by one, or in one if their union is asked for. *)
Theorem C151_geometries_partial : forall size a o, construct size a = Ok o -> PlainSelection a ->
  AsAsked a (geometries (geom_get (o_geom o))).
Proof. exact geometries_asked. Qed.
Print Assumptions C151_geometries_partial.
Example C151_case : match construct 1 (update (SetSelect (Some [1; 3]%Z)) (update (SetAggSelection true) request)) with
  | Ok o => geometries (geom_get (o_geom o)) = [[1; 3]]%Z
  | Err _ => False
  end.
Proof. vm_compute. reflexivity. Qed.
(** False for geometries in memory, which are not selected by their identifiers; for fields,
    which are not unioned; and for iterators, whose own identifiers are dropped. *)
Theorem C151_geometries_refuted :
  (exists a o, construct 1 a = Ok o /\ a_geom a = Records [1; 2]%Z /\ a_select a = Some [2]%Z /\ geometries (geom_get (o_geom o)) = [[1]; [2]]%Z /\
     ~ AsAsked a (geometries (geom_get (o_geom o)))) /\
  (exists a o, construct 1 a = Ok o /\ a_geom a = FieldGeom [1; 2]%Z /\ a_agg_selection a = true /\ geometries (geom_get (o_geom o)) = [[1]; [2]]%Z /\
     ~ AsAsked a (geometries (geom_get (o_geom o)))) /\
  (exists a o, construct 1 a = Ok o /\ a_geom a = Iterator states false None (Some [2]%Z) /\ a_select a = None /\ geometries (geom_get (o_geom o)) = [[1]; [2]; [3]]%Z /\
     ~ AsAsked a (geometries (geom_get (o_geom o)))).
Proof.
  split; [|split].
  - exists (update (SetSelect (Some [2]%Z)) (update (SetGeom (Records [1; 2]%Z)) request)). eexists.
    split; [vm_compute; reflexivity|]. split; [reflexivity|]. split; [reflexivity|]. split; [vm_compute; reflexivity|].
    intros [H _]. destruct (H [1]%Z (or_introl eq_refl)) as [i [E [_ A']]]. injection E as <-. destruct (A' _ eq_refl) as [X|[]]. discriminate.
  - exists (update (SetAggSelection true) (update (SetGeom (FieldGeom [1; 2]%Z)) request)). eexists.
    split; [vm_compute; reflexivity|]. split; [reflexivity|]. split; [reflexivity|]. split; [vm_compute; reflexivity|].
    intros H. destruct H as [g [E _]]; [discriminate|]. discriminate.
  - exists (update (SetGeom (Iterator states false None (Some [2]%Z))) request). eexists.
    split; [vm_compute; reflexivity|]. split; [reflexivity|]. split; [reflexivity|]. split; [vm_compute; reflexivity|].
    intros [H _]. destruct (H [1]%Z (or_introl eq_refl)) as [i [E [w [_ [_ [A' _]]]]]]. injection E as <-. destruct (A' _ eq_refl) as [X|[]]. discriminate.
Qed.
Print Assumptions C151_geometries_refuted.

(** C152.  The changes that tiled computation makes to copies of the operations are accepted
    for every request to netCDF without aggregation. *)
Theorem C152_tiles_accepted_partial : forall size a o, construct size a = Ok o -> NotRotated (a_data a) ->
  o_format o = Nc -> o_aggregate o = false -> o_file_only o = false ->
  AllAccepted size (template_changes o) o /\ AllAccepted size (offset_changes o) o /\ AllAccepted size tile_changes o.
Proof.
  intros size a o H N F A' O'. pose proof (C148_constructed_partial size a o N H) as R. pose proof (construct_dependents size a o H) as D.
  destruct (construct_crs size a o N H) as [_ E]. rewrite <- E in N.
  split; [apply template_accepted; assumption|]. split; [apply offset_accepted; assumption|apply tile_accepted; assumption].
Qed.
Print Assumptions C152_tiles_accepted_partial.
(** Each tile is asked for with the slice and without the geometry, everything else as given. *)
Theorem C152_tile_request : forall size o p, NotRotated (o_data o) -> p = assign_all size tile_changes o ->
  o_slice p = true /\ geom_get (o_geom p) = GNone /\ o_format p = Ocgis /\
  o_data p = o_data o /\ o_op p = o_op o /\ o_aggregate p = o_aggregate o /\ o_calc p = o_calc o /\ o_grouping p = o_grouping o /\
  o_raw p = o_raw o /\ o_snippet p = o_snippet o /\ o_crs p = o_crs o /\ o_regrid p = o_regrid o /\ o_options p = o_options o.
Proof.
  intros size o p N ->. unfold tile_changes, assign_all. cbn [fold_left].
  assert (S' : forall s q r, store s q = Ok r -> o_data r = o_data o -> fst (assign size s q) = update_dependents r).
  { intros s q r E D. unfold assign. rewrite E. apply validate_keeps. cbn. rewrite D. exact N. }
  destruct o as [data op aggregate sample calc grouping raw snippet fmt sel where_ select geom slc fonly crs regrid options]. cbn in S'.
  erewrite (S' (SetGeom NoGeom)) by reflexivity. erewrite (S' (SetSlice true)) by reflexivity. erewrite (S' (SetFormat (Key Ocgis))) by reflexivity.
  cbn. repeat split.
Qed.
Print Assumptions C152_tile_request.
Definition tiled : args := update (SetFormat (Key Nc)) (update (SetCalc (Some [mkcalc "log"%string Plain []])) (update (SetSelect (Some [2]%Z)) request)).
Example C152_case : match construct 1 tiled with
  | Ok o => o_format o = Nc /\ o_aggregate o = false /\ o_file_only o = false /\ length (template_changes o) = 1 /\ length (offset_changes o) = 4
  | Err _ => False
  end.
Proof. vm_compute. repeat split. Qed.
(** With aggregation the first tile is refused, when the empty file has been written. *)
Theorem C152_tiles_refuted : exists a o, construct 1 a = Ok o /\ o_format o = Nc /\ o_aggregate o = true /\
  AllAccepted 1 (template_changes o) o /\ AllAccepted 1 (offset_changes o) o /\
  snd (assign 1 (SetGeom NoGeom) o) = Err DefinitionValidationError.
Proof. exists (update (SetAggregate true) tiled). eexists. split; [vm_compute; reflexivity|]. vm_compute. repeat split. Qed.
Print Assumptions C152_tiles_refuted.
