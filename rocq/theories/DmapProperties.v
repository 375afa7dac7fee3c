(** Properties of dimension maps (C34, C35). *)
From Verif Require Import Py DmapModel DmapSpec DmapProofs DmapTripProofs DmapWitness.
Local Open Scope string_scope.
Local Open Scope Z_scope.

(** C34: a map built by successful calls, groups nested to any depth, equals what
    [from_dict] makes of its dictionary.  Missing: maps with topologies, grid
    abstractions or spatial mask attributes, and maps asked for what was never set. *)
Theorem C34_round_trip_partial : forall d, Built d -> exists dd d', as_dict d = Ok dd /\ from_dict dd = Ok d' /\ DmEq d d'.
Proof. exact round_trip. Qed.
Print Assumptions C34_round_trip_partial.
Example C34_case : Built case_map /\ exists dd, as_dict case_map = Ok dd /\ from_dict dd <> Ok (DMap []).
Proof. split; [exact case_built|]. eexists; split; [vm_compute; reflexivity|vm_compute; discriminate]. Qed.

(** Asking for an entry or a group that is not there changes the map, and it no
    longer survives. *)
Theorem C34_after_reading_refuted :
  FailsTrip (run [] [OGetVariable "time"]) /\ FailsTrip (run [] [OGetGroup "g"]).
Proof. exact (conj read_absent read_group). Qed.
Print Assumptions C34_after_reading_refuted.
(** Nor does it after a refused [set_variable]. *)
Theorem C34_after_failed_set_refuted : FailsTrip (run [] [OSetVariable "x" lon_var None None None None false None]).
Proof. exact failed_set. Qed.
Print Assumptions C34_after_failed_set_refuted.
(** Nor do topologies, grid abstractions, attributes of a spatial mask and bounds
    of a coordinate system. *)
Theorem C34_special_entries_refuted :
  FailsTrip (run [] [OGetTopology "polygon" true])
  /\ FailsTrip (run [] [OGetTopology "polygon" true; OGetTopology "line" false])
  /\ FailsTrip (run [] [OSetGridAbstraction "point"])
  /\ FailsTrip (run [] [OSetSpatialMask (DName "m") (Some [("flag", "1")]) None])
  /\ FailsTrip (run [] [OSetCrs (Some "c"); OSetBounds "crs" (Some "b")]).
Proof. exact (conj topology_set (conj topology_read (conj abstraction_set (conj mask_attrs crs_bounds)))). Qed.
Print Assumptions C34_special_entries_refuted.

(** C35: after any history and a successful [set_variable], and any further
    operations that do not set this entry, the getters return what was set. *)
Theorem C35_set_get : forall pre post key v dimension bounds att pos dimensionless section st' name,
  Forall WfOp pre -> WfOp (OSetVariable key v dimension bounds att pos dimensionless section) ->
  set_variable (run [] pre) key v dimension bounds att pos dimensionless section = (st', None) ->
  dvar_name v = Some name ->
  Forall (fun o => ~ Sets key o) post ->
  get_variable (run st' post) key = (run st' post, Ok (Some name))
  /\ get_bounds (run st' post) key = (run st' post, Ok (wanted_bounds v bounds))
  /\ (exists d, get_dimension (run st' post) key = (run st' post, Ok d) /\ WantedDimension v dimension pos dimensionless d)
  /\ (exists a, get_attrs (run st' post) key = (run st' post, Ok a)
        /\ forall k, dget String.eqb a k
             = first_of [attrs_before (run [] pre) key; dvar_attrs v;
                         match att with Some a => a | None => template_attrs key end] k).
Proof. exact set_then_get. Qed.
Print Assumptions C35_set_get.
Example C35_set_get_case :
  let pre := [OSetVariable "time" (DName "old") None (Some "b") (Some [("calendar", "noleap")]) None false None] in
  let '(st', r) := set_variable (run [] pre) "time" time_var None None None None false None in
  r = None /\ Forall WfOp pre /\ WfOp (OSetVariable "time" time_var None None None None false None)
  /\ snd (get_bounds st' "time") = Ok (Some "time_bnds") /\ snd (get_dimension st' "time") = Ok ["t"]
  /\ snd (get_attrs st' "time") = Ok [("axis", "tt"); ("units", "days since 2000-1-1"); ("calendar", "noleap")].
Proof.
  vm_compute. repeat split; repeat (constructor; try (intros H; repeat destruct H as [H|H]; try discriminate; destruct H)).
Qed.

(** No other entry changes. *)
Theorem C35_frame : forall st key v dimension bounds att pos dimensionless section k,
  k <> key ->
  dget String.eqb (fst (set_variable st key v dimension bounds att pos dimensionless section)) k = dget String.eqb st k.
Proof. exact set_frame. Qed.
Print Assumptions C35_frame.
Example C35_frame_case :
  let st := run [] [OSetVariable "time" time_var None None None None false None] in
  dget String.eqb (fst (set_variable st "x" (DName "lon") None None None None false None)) "time" = dget String.eqb st "time"
  /\ dget String.eqb (fst (set_variable st "x" (DName "lon") None None None None false None)) "x" <> dget String.eqb st "x".
Proof. vm_compute. split; [reflexivity|discriminate]. Qed.

(** Bounds set later are returned; the rest of the entry stays. *)
Theorem C35_set_bounds : forall pre post key b st',
  Forall WfOp pre -> In key coordinate_keys ->
  set_bounds (run [] pre) key b = (st', None) -> Forall (fun o => ~ Sets key o) post ->
  snd (get_bounds (run st' post) key) = Ok b
  /\ snd (get_variable (run st' post) key) = snd (get_variable (run [] pre) key)
  /\ snd (get_dimension (run st' post) key) = snd (get_dimension (run [] pre) key)
  /\ snd (get_attrs (run st' post) key) = snd (get_attrs (run [] pre) key)
  /\ exists n, snd (get_variable (run st' post) key) = Ok (Some n).
Proof. exact bounds_then_get. Qed.
Print Assumptions C35_set_bounds.
Example C35_set_bounds_case :
  snd (set_bounds (run [] [OSetVariable "time" time_var None None None None false None; OGetAttrs "x"]) "time" (Some "tb")) = None
  /\ snd (set_bounds (run [] [OGetAttrs "x"]) "x" (Some "tb")) <> None.
Proof. vm_compute. split; [reflexivity|discriminate]. Qed.

(** Setting [None] removes the entry, and it stays away however often it is asked
    for. *)
Theorem C35_remove : forall pre post key dimension bounds att pos dimensionless section st',
  Forall WfOp pre ->
  set_variable (run [] pre) key DNone dimension bounds att pos dimensionless section = (st', None) ->
  Forall (fun o => ~ Sets key o) post ->
  dget String.eqb st' key = None
  /\ snd (get_variable (run st' post) key) = Ok None /\ snd (get_bounds (run st' post) key) = Ok None
  /\ snd (get_dimension (run st' post) key) = Ok [] /\ snd (get_attrs (run st' post) key) = Ok [].
Proof. exact removed_stays. Qed.
Print Assumptions C35_remove.
Example C35_remove_case :
  let st := run [] [OSetVariable "time" time_var None None None None false None] in
  dget String.eqb st "time" <> None /\ snd (set_variable st "time" DNone None None None None false None) = None.
Proof. vm_compute. split; [discriminate|reflexivity]. Qed.

(** Disallowed keys raise, and the map stays as it was. *)
Theorem C35_disallowed : forall st key,
  ~ In key entry_keys ->
  (forall v dimension bounds att pos dimensionless section,
      step st (OSetVariable key v dimension bounds att pos dimensionless section) = (st, Some DimensionMapError))
  /\ (forall b, step st (OSetBounds key b) = (st, Some DimensionMapError))
  /\ (forall o, In o [OGetVariable key; OGetBounds key; OGetDimension key; OGetAttrs key] -> step st o = (st, Some DimensionMapError)).
Proof. exact disallowed. Qed.
Print Assumptions C35_disallowed.
(** So do keys with a method of their own, and a section without a position or a
    dimension; several dimensions without a position are refused. *)
Theorem C35_refused : forall st key v dimension bounds att pos dimensionless section,
  (In key special_keys -> set_variable st key v dimension bounds att pos dimensionless section = (st, Some DimensionMapError))
  /\ (forall s, set_variable st key v None bounds att None dimensionless (Some s) = (st, Some DimensionMapError))
  /\ (forall n b dims a, In key coordinate_keys -> 1 < zlen dims ->
        snd (set_variable st key (DVar n b dims a) None bounds att None false None) <> None).
Proof.
  exact (fun st key v dimension bounds att pos dimensionless section =>
    conj (special_refused st key v dimension bounds att pos dimensionless section)
      (conj (section_refused st key v bounds att dimensionless)
         (fun n b dims a Hk Hd => pos_needed st key n b dims a bounds att None Hk Hd eq_refl))).
Qed.
Print Assumptions C35_refused.
Example C35_disallowed_case : ~ In "foo" entry_keys /\ In "crs" special_keys /\ 1 < zlen ["row"; "col"].
Proof. split; [cbn; intuition discriminate|split; [cbn; tauto|vm_compute; reflexivity]]. Qed.
