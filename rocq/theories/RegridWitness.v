(** Concrete fields for C83 and C84. *)
From Verif Require Import Py Lib Spec PartitionModel NdModel NdSpec NdProofs MaskProofs RegridModel RegridSpec RegridProofs RegridMore.
Local Open Scope string_scope.
Local Open Scope Z_scope.

(** A library that copies cells that are not masked in either grid. *)
Definition shown_in (e : egrid) (c : list Z) : bool :=
  match c with
  | [x; y] => (0 <=? x) && (x <? eg_nx e) && (0 <=? y) && (y <? eg_ny e) && match eg_mask e with Some k => nd_at k c | None => true end
  | _ => false
  end.
Definition copying : esmf_lib := fun s d _ =>
  map (fun c => mkweight c c 1) (filter (fun c => shown_in s c && shown_in d c) (indices [eg_nx s; eg_ny s])).

Lemma shown_in_spec e c : shown_in e c = true -> IndexOf [eg_nx e; eg_ny e] c /\ match eg_mask e with Some k => nd_at k c = true | None => True end.
Proof.
  destruct c as [|x [|y [|z c]]]; try discriminate. cbn [shown_in]. intros H. repeat (apply andb_true_iff in H; destruct H as [H ?]). split.
  - constructor; [lia|]. constructor; [lia|constructor].
  - destruct (eg_mask e); [assumption|exact I].
Qed.
Lemma copying_respectful : Respectful copying.
Proof.
  intros s d m w Hw. unfold copying in Hw. apply in_map_iff in Hw. destruct Hw as [c [<- Hc]]. apply filter_In in Hc. destruct Hc as [_ Hc]. apply andb_true_iff in Hc. destruct Hc as [A B].
  cbn [w_src w_dst]. apply shown_in_spec in A, B. tauto.
Qed.

(** Arrays and variables from lists. *)
Definition of_list {A} (d : A) (shape : list Z) (l : list A) : nd A := mknd shape (fun idx => nth (Z.to_nat (ravel shape idx)) l d).
Definition data (name : string) (dims : list (string * Z)) (l : list Z) (mask : option (list bool)) (fill : Z) : rvar :=
  mkrvar name (mknvar dims (of_list 0 (map snd dims) l) (option_map (of_list false (map snd dims)) mask)) fill.

Definition g22 := mkrgrid ("y", 2) ("x", 2) None false.
Definition d22 := mkrgrid ("lat", 2) ("lon", 2) None false.
Definition d23 := mkrgrid ("lat", 2) ("lon", 3) None false.
Definition on (g : rgrid) (vars : list rvar) : rfield := mkrfield (Some g) true vars.
Definition tyx := [("time", 2); ("y", 2); ("x", 2)].
Definition tas := data "tas" tyx [1; 2; 3; 4; 5; 6; 7; 8] None (-9).
Definition pr := data "pr" [("x", 2); ("time", 2); ("y", 2)] [10; 20; 30; 40; 50; 60; 70; 80] None (-9).

Ltac names := repeat (apply NoDup_cons; [cbn [In map fst]; intuition discriminate|]); apply NoDup_nil.

Lemma good_data name dims l mask fill : NoDup (map fst dims) -> Forall (fun d : string * Z => 0 <= snd d) dims -> GoodVar (rv_var (data name dims l mask fill)).
Proof.
  intros N P. unfold GoodVar, nv_names, nv_shape. cbn [data rv_var nv_dims nv_value nv_mask of_list nd_shape]. split; [exact N|]. split; [apply Forall_map; exact P|]. split; [reflexivity|]. destruct mask; [reflexivity|exact I].
Qed.

Lemma tas_on l mask t dg : GoodGrid dg -> NoDup (map fst (("time", 2) :: rg_dims dg)) ->
  Forall (fun v => GoodVar (rv_var v) /\ forall d, In d (nv_dims (rv_var v)) <-> In d tyx) t ->
  OnGrid g22 dg [("time", 2)] (data "tas" tyx l mask (-9) :: t).
Proof.
  intros Gd Nd Ht. split; [|split; [exact Gd|]].
  - split; [cbn; lia|]. split; [cbn; lia|]. split; [discriminate|exact I].
  - split; [cbn; names|]. split; [exact Nd|]. split; [constructor; [cbn; lia|constructor]|]. split; [exists (data "tas" tyx l mask (-9)), t; split; reflexivity|].
    constructor; [|exact Ht]. split; [|reflexivity]. apply good_data; [cbn; names|]. repeat (constructor; [cbn; lia|]). constructor.
Qed.
Lemma good22 : GoodGrid d22.
Proof. split; [cbn; lia|]. split; [cbn; lia|]. split; [discriminate|exact I]. Qed.
Lemma good23 : GoodGrid d23.
Proof. split; [cbn; lia|]. split; [cbn; lia|]. split; [discriminate|exact I]. Qed.
Lemma compat sg dg vars m : m <> Flag Conserve -> Compatible (on sg vars) (on dg []) sg dg m.
Proof. intros H. do 4 (split; [reflexivity|]). intros E. contradiction. Qed.

Lemma both_on : OnGrid g22 d23 [("time", 2)] [tas; pr].
Proof.
  apply tas_on; [exact good23|cbn; names|]. constructor; [|constructor]. split; [apply good_data; [cbn; names|]; repeat (constructor; [cbn; lia|]); constructor|].
  intros d. cbn. tauto.
Qed.

(** The function of a position in time, latitude and longitude. *)
Definition at3 (names : string * string * string) (i j k : Z) (n : string) : Z :=
  let '(a, b, c) := names in if String.eqb n a then i else if String.eqb n b then j else if String.eqb n c then k else 0.

(** Masks of time 0 and time 1. *)
Definition late (l : list Z) : rvar := data "tas" tyx l (Some [false; false; false; false; true; false; false; false]) (-9).
Definition early (l : list Z) : rvar := data "tas" tyx l (Some [true; false; false; false; false; false; false; false]) (-9).

Lemma within_list3 f : Within tyx f -> exists t y x, (t = 0 \/ t = 1) /\ (y = 0 \/ y = 1) /\ (x = 0 \/ x = 1) /\ f "time" = t /\ f "y" = y /\ f "x" = x.
Proof.
  intros H. inversion H as [|? ? H1 H']; subst. inversion H' as [|? ? H2 H'']; subst. inversion H'' as [|? ? H3 _]; subst. cbn [fst snd] in *.
  exists (f "time"), (f "y"), (f "x"). repeat split; lia.
Qed.
Lemma same_shown l l' mask : (forall t y x, (t = 0 \/ t = 1) -> (y = 0 \/ y = 1) -> (x = 0 \/ x = 1) ->
    nth (Z.to_nat (ravel [2; 2; 2] [t; y; x])) mask false = false -> nth (Z.to_nat (ravel [2; 2; 2] [t; y; x])) l' 0 = nth (Z.to_nat (ravel [2; 2; 2] [t; y; x])) l 0) ->
  SameShownField (on g22 [data "tas" tyx l (Some mask) (-9)]) (on g22 [data "tas" tyx l' (Some mask) (-9)]).
Proof.
  intros H. split; [reflexivity|]. split; [reflexivity|]. constructor; [|constructor]. do 5 (split; [reflexivity|]). intros f Hf Hh. destruct (within_list3 f Hf) as [t [y [x [Ht [Hy [Hx [E1 [E2 E3]]]]]]]].
  unfold element, hidden_at, masked, nv_names in *. cbn [rv_var data nv_value nv_mask nv_dims option_map of_list nd_at tyx map fst snd] in *. rewrite E1, E2, E3 in *. apply H; assumption.
Qed.

Lemma split_differs_refuted : exists ws src dst sg dg extra, Compatible src dst sg dg Auto /\ OnGrid sg dg extra (rf_vars src) /\
  (forall w, In w ws -> IsCell sg (w_src w)) /\
  listing (regrid_field copying src dst Auto None true None (Some ws) false) = Some [[Some 1; Some 2; None; Some 3; Some 4; None; Some 5; Some 6; None; Some 7; Some 8; None]] /\
  listing (regrid_field copying src dst Auto None false None (Some ws) false) = Some [[Some 1; Some 2; Some (-9); Some 3; Some 4; Some (-9); Some 5; Some 6; Some (-9); Some 7; Some 8; Some (-9)]].
Proof.
  exists (map (fun c => mkweight c c 1) [[0; 0]; [0; 1]; [1; 0]; [1; 1]]), (on g22 [tas]), (on d23 []), g22, d23, [("time", 2)].
  split; [apply compat; discriminate|]. split; [apply tas_on; [exact good23|cbn; names|constructor]|]. split.
  - intros w Hw. cbn [map In] in Hw. repeat (destruct Hw as [<-|Hw]; [repeat (constructor; [cbn; lia|]); constructor|]). destruct Hw.
  - split; vm_compute; reflexivity.
Qed.

Lemma no_split_refuted : exists ws src dst sg dg, Compatible src dst sg dg Auto /\ OnGrid sg dg [] (rf_vars src) /\
  (forall w, In w ws -> IsCell sg (w_src w)) /\ ~ Reached ws [2; 0] /\
  listing (regrid_field copying src dst Auto None true None (Some ws) false) = Some [[Some 1; Some 2; Some (-9); Some 3; Some 4; Some (-9)]].
Proof.
  exists (map (fun c => mkweight c c 1) [[0; 0]; [0; 1]; [1; 0]; [1; 1]]), (on g22 [data "tas" [("y", 2); ("x", 2)] [1; 2; 3; 4] None (-9)]), (on d23 []), g22, d23.
  split; [apply compat; discriminate|]. split; [|split; [|split]].
  - split; [split; [cbn; lia|]; split; [cbn; lia|]; split; [discriminate|exact I]|]. split; [exact good23|]. split; [cbn; names|]. split; [cbn; names|]. split; [constructor|].
    split; [eexists _, _; split; reflexivity|]. constructor; [|constructor]. split; [|reflexivity]. apply good_data; [cbn; names|]. repeat (constructor; [cbn; lia|]). constructor.
  - intros w Hw. cbn [map In] in Hw. repeat (destruct Hw as [<-|Hw]; [repeat (constructor; [cbn; lia|]); constructor|]). destruct Hw.
  - intros [w [Hw E]]. cbn [map In] in Hw. repeat (destruct Hw as [<-|Hw]; [discriminate E|]). destruct Hw.
  - vm_compute. reflexivity.
Qed.

Lemma fill_value_refuted : exists ws src dst sg dg extra, Compatible src dst sg dg Auto /\ OnGrid sg dg extra (rf_vars src) /\
  (forall w, In w ws -> IsCell sg (w_src w)) /\ Reached ws [0; 0] /\
  listing (regrid_field copying src dst Auto None true (Some 0) (Some ws) false) = Some [[None; Some 2; Some 3; Some 4; Some 5; Some 6; Some 7; Some 8]].
Proof.
  exists (map (fun c => mkweight c c 1) [[0; 0]; [0; 1]; [1; 0]; [1; 1]]), (on g22 [data "tas" tyx [0; 2; 3; 4; 5; 6; 7; 8] None (-9)]), (on d22 []), g22, d22, [("time", 2)].
  split; [apply compat; discriminate|]. split; [apply tas_on; [exact good22|cbn; names|constructor]|]. split; [|split].
  - intros w Hw. cbn [map In] in Hw. repeat (destruct Hw as [<-|Hw]; [repeat (constructor; [cbn; lia|]); constructor|]). destruct Hw.
  - eexists. split; [left; reflexivity|reflexivity].
  - vm_compute. reflexivity.
Qed.

Lemma raises_refuted : exists ws src dst sg dg extra, Compatible src dst sg dg Auto /\ OnGrid sg dg extra (rf_vars src) /\
  (forall w, In w ws -> IsCell sg (w_src w)) /\
  regrid_field copying src dst Auto None true (Some 0) (Some ws) false = Err RegriddingError /\
  listing (regrid_field copying src dst Auto None false (Some 0) (Some ws) false) = Some [[Some 0; Some 0; Some 0; Some 0; Some 5; Some 6; Some 7; Some 8]].
Proof.
  exists (map (fun c => mkweight c c 1) [[0; 0]; [0; 1]; [1; 0]; [1; 1]]), (on g22 [data "tas" tyx [0; 0; 0; 0; 5; 6; 7; 8] None (-9)]), (on d22 []), g22, d22, [("time", 2)].
  split; [apply compat; discriminate|]. split; [apply tas_on; [exact good22|cbn; names|constructor]|]. split; [|split].
  - intros w Hw. cbn [map In] in Hw. repeat (destruct Hw as [<-|Hw]; [repeat (constructor; [cbn; lia|]); constructor|]). destruct Hw.
  - vm_compute. reflexivity.
  - vm_compute. reflexivity.
Qed.

(** Dimensions in the order x, y. *)
Definition xy := data "tas" [("x", 2); ("y", 2)] [1; 2; 3; 4] None (-9).
Lemma order_refuted : exists src dst sg dg, Compatible src dst sg dg Auto /\ rf_vars src = [xy] /\ GoodVar (rv_var xy) /\
  (forall d, In d (nv_dims (rv_var xy)) <-> In d (rg_dims sg)) /\
  let out := regrid_field copying src dst Auto None false None None false in
  listing out = Some [[Some 1; Some 2; Some 3; Some 4]] /\
  match out with Ok (Some [v]) => nv_dims (rv_var v) = [("lat", 2); ("lon", 2)] | _ => False end.
Proof.
  exists (on g22 [xy]), (on d22 []), g22, d22. split; [apply compat; discriminate|]. split; [reflexivity|]. split; [|split].
  - apply good_data; [cbn; names|]. repeat (constructor; [cbn; lia|]). constructor.
  - intros d. cbn. tauto.
  - cbv zeta. split; [vm_compute; reflexivity|]. vm_compute. reflexivity.
Qed.

(** Masked values. *)
Lemma later_slice_refuted : exists src src' dst sg dg extra, Respectful copying /\ Compatible src dst sg dg Auto /\ OnGrid sg dg extra (rf_vars src) /\ SameShownField src src' /\
  listing (regrid_field copying src dst Auto None true None None false) = Some [[Some 1; Some 2; Some 3; Some 4; Some 5; Some 6; Some 7; Some 8]] /\
  listing (regrid_field copying src' dst Auto None true None None false) = Some [[Some 1; Some 2; Some 3; Some 4; Some 99; Some 6; Some 7; Some 8]].
Proof.
  exists (on g22 [late [1; 2; 3; 4; 5; 6; 7; 8]]), (on g22 [late [1; 2; 3; 4; 99; 6; 7; 8]]), (on d22 []), g22, d22, [("time", 2)].
  split; [exact copying_respectful|]. split; [apply compat; discriminate|]. split; [apply tas_on; [exact good22|cbn; names|constructor]|]. split.
  - apply same_shown. intros t y x [->| ->] [->| ->] [->| ->]; vm_compute; intros H; first [reflexivity|discriminate H].
  - split; vm_compute; reflexivity.
Qed.

Lemma first_slice_only_refuted : exists src src' dst sg dg extra, Respectful copying /\ Compatible src dst sg dg Auto /\ OnGrid sg dg extra (rf_vars src) /\
  rf_vars src = [early [1; 2; 3; 4; 5; 6; 7; 8]] /\ rf_vars src' = [early [1; 2; 3; 4; 55; 6; 7; 8]] /\
  listing (regrid_field copying src dst Auto None true None None false) = Some [[None; Some 2; Some 3; Some 4; None; Some 6; Some 7; Some 8]] /\
  listing (regrid_field copying src' dst Auto None true None None false) = Some [[None; Some 2; Some 3; Some 4; None; Some 6; Some 7; Some 8]].
Proof.
  exists (on g22 [early [1; 2; 3; 4; 5; 6; 7; 8]]), (on g22 [early [1; 2; 3; 4; 55; 6; 7; 8]]), (on d22 []), g22, d22, [("time", 2)].
  split; [exact copying_respectful|]. split; [apply compat; discriminate|]. split; [apply tas_on; [exact good22|cbn; names|constructor]|]. split; [reflexivity|]. split; [reflexivity|].
  split; vm_compute; reflexivity.
Qed.

Lemma value_mask_refuted : exists src src' dst sg dg extra vm, Respectful copying /\ Compatible src dst sg dg Auto /\ OnGrid sg dg extra (rf_vars src) /\ SameShownField src src' /\
  MaskedAlike sg (rf_vars src) /\ MaskFits (Some vm) sg /\ MaskFits (Some vm) dg /\
  listing (regrid_field copying src dst Auto (Some vm) true None None false) <> listing (regrid_field copying src' dst Auto (Some vm) true None None false).
Proof.
  set (mask := [true; false; false; false; true; false; false; false]).
  exists (on g22 [data "tas" tyx [1; 2; 3; 4; 5; 6; 7; 8] (Some mask) (-9)]), (on g22 [data "tas" tyx [99; 2; 3; 4; 5; 6; 7; 8] (Some mask) (-9)]), (on d22 []), g22, d22, [("time", 2)], (zeros [2; 2]).
  split; [exact copying_respectful|]. split; [apply compat; discriminate|]. split; [apply tas_on; [exact good22|cbn; names|constructor]|]. split; [|split; [|split; [reflexivity|split; [reflexivity|]]]].
  - apply same_shown. intros t y x [->| ->] [->| ->] [->| ->]; vm_compute; intros H; first [reflexivity|discriminate H].
  - intros a t v f Ev Hv Hf Hh. injection Ev as <- <-. destruct Hv as [<-|[]]. destruct (within_list3 f Hf) as [t [y [x [Ht [Hy [Hx [E1 [E2 E3]]]]]]]].
    unfold first_slice, cell_of, hidden_at, masked, nv_names in *. cbn [rv_var data nv_value nv_mask nv_dims option_map of_list nd_at tyx map fst snd g22 rg_x rg_y] in *. rewrite E1, E2, E3 in *.
    destruct Ht as [->| ->], Hy as [->| ->], Hx as [->| ->]; vm_compute in Hh |- *; congruence.
  - vm_compute. discriminate.
Qed.

Lemma value_mask_shape_refuted : exists src dst sg dg extra vm, Compatible src dst sg dg Auto /\ OnGrid sg dg extra (rf_vars src) /\ MaskFits (Some vm) sg /\
  regrid_field copying src dst Auto (Some vm) true None None false = Err ValueError.
Proof.
  exists (on g22 [tas]), (on d23 []), g22, d23, [("time", 2)], (zeros [2; 2]). split; [apply compat; discriminate|]. split; [apply tas_on; [exact good23|cbn; names|constructor]|]. split; [reflexivity|].
  vm_compute. reflexivity.
Qed.

(** No data variables. *)
Lemma no_data_refuted lib src dst sg dg m vm split fill_value weights_in out : Compatible src dst sg dg m -> rf_vars src = [] ->
  regrid_field lib src dst m vm split fill_value weights_in out = Err NameError.
Proof.
  intros [C1 [C2 [C3 [C4 C5]]]] E. unfold regrid_field, check_fields. rewrite C1, C2, C3, C4. cbn [andb].
  destruct m as [|[]]; cbn [bind]; try (rewrite E; reflexivity). destruct (C5 eq_refl) as [-> ->]. cbn [andb bind]. rewrite E. reflexivity.
Qed.
