(** Concrete dimension maps: cases and refutations. *)
From Verif Require Import Py Lib DmapModel DmapSpec DmapProofs DmapTripProofs.
Local Open Scope string_scope.
Local Open Scope Z_scope.

Definition time_var : dvar := DVar "tas_time" (Some "time_bnds") ["t"] [("units", "days since 2000-1-1"); ("axis", "tt")].
Definition lon_var : dvar := DVar "lon" None ["row"; "col"] [("axis", "X")].

(** A map with a time, a longitude, a coordinate system, a driver, a mask and two
    levels of groups. *)
Definition inner_ops : list op := [OSetVariable "level" (DName "lev") (Some ["z"]) None None None false None; OSetCrs (Some "wgs84")].
Definition outer_ops (inner : dmap) : list op :=
  [OSetDriver "netcdf-ugrid"; OSetGroup "nested" inner; OSetVariable "x" lon_var None None None (Some 1) false (Some [None; Some 0]);
   OSetSpatialMask (DName "mask") None None].
Definition case_map : dmap :=
  DMap (run [] [OSetVariable "time" time_var None None None None false None; OSetBounds "time" (Some "tb");
                OSetGroup "child" (DMap (run [] (outer_ops (DMap (run [] inner_ops))))); OGetVariable "time"; OSetCrs (Some "crs");
                OSetVariable "y" (DName "lat") None None None None false None; OSetVariable "y" DNone None None None None false None]).

Lemma fst_snd {A B} (x : A * option B) : snd x = None -> x = (fst x, None).
Proof. destruct x; cbn; now intros ->. Qed.

Ltac built_step c := cbn [run fold_left step]; eapply c; [| .. | apply fst_snd; vm_compute; reflexivity].
Lemma inner_built : Built (DMap (run [] inner_ops)).
Proof. unfold inner_ops. built_step BCrs. built_step BVariable. apply BNew. Qed.
Lemma outer_built : Built (DMap (run [] (outer_ops (DMap (run [] inner_ops))))).
Proof.
  generalize inner_built; generalize (DMap (run [] inner_ops)); intros inner Hi.
  unfold outer_ops. built_step BMask; [|reflexivity]. built_step BVariable. built_step BGroup; [|exact Hi].
  built_step BDriver. apply BNew.
Qed.
Lemma case_built : Built case_map.
Proof.
  unfold case_map. generalize outer_built; generalize (DMap (run [] (outer_ops (DMap (run [] inner_ops))))); intros outer Ho.
  built_step BVariable. built_step BVariable. built_step BCrs.
  cbn [run fold_left].
  match goal with |- Built (DMap (fst (outcome (get_variable ?st "time")))) =>
    eapply (BRead st _ (OGetVariable "time") "time"); [|now left|cbn; tauto|vm_compute; reflexivity|apply fst_snd; vm_compute; reflexivity] end.
  built_step BGroup; [|exact Ho].
  built_step BBounds; [|cbn; tauto]. built_step BVariable. apply BNew.
Qed.

(** The failure of a round trip. *)
Definition FailsTrip (st : storage) : Prop :=
  (exists e, as_dict (DMap st) = Err e)
  \/ (exists dd e, as_dict (DMap st) = Ok dd /\ from_dict dd = Err e)
  \/ (exists dd d', as_dict (DMap st) = Ok dd /\ from_dict dd = Ok d' /\ ~ DmEq (DMap st) d').

Lemma read_absent : FailsTrip (run [] [OGetVariable "time"]).
Proof.
  right; right. eexists; eexists. split; [vm_compute; reflexivity|split; [vm_compute; reflexivity|]].
  intros H; inversion H as [? ? Hk]; subst. specialize (Hk "time"). vm_compute in Hk. inversion Hk.
Qed.
Lemma read_group : FailsTrip (run [] [OGetGroup "g"]).
Proof.
  right; right. eexists; eexists. split; [vm_compute; reflexivity|split; [vm_compute; reflexivity|]].
  intros H; inversion H as [? ? Hk]; subst. specialize (Hk "groups"). vm_compute in Hk. inversion Hk.
Qed.
Lemma failed_set : FailsTrip (run [] [OSetVariable "x" lon_var None None None None false None]).
Proof. right; left. eexists; eexists. split; vm_compute; reflexivity. Qed.
Lemma topology_set : FailsTrip (run [] [OGetTopology "polygon" true]).
Proof. right; left. eexists; eexists. split; vm_compute; reflexivity. Qed.
Lemma topology_read : FailsTrip (run [] [OGetTopology "polygon" true; OGetTopology "line" false]).
Proof. left. eexists. vm_compute; reflexivity. Qed.
Lemma abstraction_set : FailsTrip (run [] [OSetGridAbstraction "point"]).
Proof. right; left. eexists; eexists. split; vm_compute; reflexivity. Qed.
Lemma mask_attrs : FailsTrip (run [] [OSetSpatialMask (DName "m") (Some [("flag", "1")]) None]).
Proof.
  right; right. eexists; eexists. split; [vm_compute; reflexivity|split; [vm_compute; reflexivity|]].
  intros H; inversion H as [? ? Hk]; subst. specialize (Hk "spatial_mask"). vm_compute in Hk.
  inversion Hk as [|e e' He| | |]; subst. destruct He as [_ [_ [_ [Ha _]]]]. cbn in Ha. specialize (Ha "flag"). vm_compute in Ha. discriminate.
Qed.
Lemma crs_bounds : FailsTrip (run [] [OSetCrs (Some "c"); OSetBounds "crs" (Some "b")]).
Proof.
  right; right. eexists; eexists. split; [vm_compute; reflexivity|split; [vm_compute; reflexivity|]].
  intros H; inversion H as [? ? Hk]; subst. specialize (Hk "crs"). vm_compute in Hk.
  inversion Hk as [|e e' He| | |]; subst. destruct He as [_ [Hb _]]. discriminate Hb.
Qed.
