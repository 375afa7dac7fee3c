(** * Spherical and Cartesian coordinates: C118 *)
From Coq Require Import Reals Lra.
From Verif Require Import Py SphereModel SphereSpec SphereProofs.
Local Open Scope R_scope.
Local Open Scope list_scope.

(** The point of space of every longitude, latitude and distance is the one reached by
    turning about the axes. *)
Theorem C118_place degrees l : (degrees = true -> forall p, In p l -> p_x p <= 180) ->
  transform_coordinates degrees true false l = Ok (map (place degrees) l).
Proof.
  intros W. unfold transform_coordinates. cbn [negb].
  assert (E : (degrees && too_far_east l)%bool = false).
  { destruct degrees; [|reflexivity]. destruct (too_far_east l) eqn:T; [|reflexivity]. apply too_far_east_iff in T.
    destruct T as (p & I & H). pose proof (W eq_refl p I). lra. }
  rewrite E. f_equal. apply map_ext. intros p. apply to_cartesian_place.
Qed.
Print Assumptions C118_place.

Example C118_place_case : transform_coordinates true true false [mkpoint 180 0 2] = Ok [mkpoint (-2) 0 0].
Proof.
  rewrite C118_place; [|intros _ p [<-|[]]; cbn [p_x]; lra]. cbn [map]. do 2 f_equal. unfold place, turn_about_z, turn_about_y, radians, half_turn.
  cbn [p_x p_y p_z]. replace (180 / 180 * PI) with PI by field. replace (0 / 180 * PI) with 0 by field.
  rewrite cos_PI, sin_PI, cos_0, sin_0. f_equal; ring.
Qed.

(** Distances from the centre are kept. *)
Theorem C118_distance degrees l m i p q : transform_coordinates degrees true false l = Ok m -> nth_error l i = Some p -> nth_error m i = Some q ->
  p_x q ^ 2 + p_y q ^ 2 + p_z q ^ 2 = p_z p ^ 2.
Proof.
  unfold transform_coordinates. cbn [negb]. destruct (degrees && too_far_east l)%bool; [easy|]. intros [= <-] A B.
  rewrite nth_error_map, A in B. cbn [option_map] in B. injection B as <-. rewrite to_cartesian_place. apply norm_place.
Qed.
Print Assumptions C118_distance.

(** There and back. *)
Theorem C118_there_and_back_partial degrees l : (forall p, In p l -> usual degrees p) ->
  exists m, transform_coordinates degrees true false l = Ok m /\ transform_coordinates degrees true true m = Ok l.
Proof.
  intros U. exists (map (to_cartesian degrees) l). split.
  - rewrite C118_place.
    + f_equal. apply map_ext. intros p. symmetry. apply to_cartesian_place.
    + intros -> p I. destruct (U p I) as (_ & _ & _ & H). exact H.
  - unfold transform_coordinates. cbn [negb]. f_equal. rewrite map_map. rewrite <- (map_id l) at 2.
    apply map_ext_in. intros p I. apply there_and_back. now apply U.
Qed.
Print Assumptions C118_there_and_back_partial.

Example C118_usual_case : usual true (mkpoint (-105) 40 6370997) /\ usual true (mkpoint 180 (-89) 1) /\ usual false (mkpoint 1 1 1).
Proof.
  unfold usual, quarter, half_turn. cbn [p_x p_y p_z]. pose proof PI2_3_2 as P. pose proof PI_RGT_0.
  repeat split; lra.
Qed.

(** Back and there: Cartesian coordinates other than the origin are always got back, and the
    longitudes made are never refused. *)
Theorem C118_back_and_there degrees l : ~ In origin l ->
  exists m, transform_coordinates degrees true true l = Ok m /\ transform_coordinates degrees true false m = Ok l.
Proof.
  intros N. exists (map (from_cartesian degrees) l). split; [reflexivity|]. rewrite C118_place.
  - f_equal. rewrite map_map. rewrite <- (map_id l) at 2. apply map_ext_in. intros p I. rewrite <- to_cartesian_place.
    apply back_and_there. now intros ->.
  - intros -> p I. apply in_map_iff in I. destruct I as (q & <- & _). apply from_cartesian_west.
Qed.
Print Assumptions C118_back_and_there.

Example C118_back_case : ~ In origin [mkpoint 0 0 (-1); mkpoint 1 2 3].
Proof. unfold origin. intros [E|[E|[]]]; injection E; lra. Qed.

(** The results are in one turn, above the centre. *)
Theorem C118_range degrees l m q : transform_coordinates degrees true true l = Ok m -> In q m ->
  0 <= p_z q /\ - half_turn degrees < p_x q <= half_turn degrees /\ - quarter degrees <= p_y q <= quarter degrees.
Proof.
  intros [= <-] I. apply in_map_iff in I. destruct I as (p & <- & _).
  pose proof PI_RGT_0 as P. assert (K : 0 < 180 / PI) by (apply Rdiv_lt_0_compat; lra).
  destruct (arctan2_bounds (p_y p) (p_x p)) as [A B]. destruct (asin_bound (p_z p / sqrt (p_x p ^ 2 + p_y p ^ 2 + p_z p ^ 2))) as [C D].
  assert (E : PI * (180 / PI) = 180) by (field; lra).
  unfold from_cartesian, RAD_TO_DEG, quarter, half_turn. destruct degrees; cbn [p_x p_y p_z]; (split; [apply sqrt_pos|]).
  - repeat split; nra.
  - lra.
Qed.
Print Assumptions C118_range.

(** One longitude beyond 180 degrees east, and all points are refused. *)
Theorem C118_east l p : In p l -> 180 < p_x p -> transform_coordinates true true false l = Err ValueError.
Proof.
  intros I H. unfold transform_coordinates. cbn [negb andb].
  assert (E : too_far_east l = true) by (apply too_far_east_iff; now exists p). now rewrite E.
Qed.
Print Assumptions C118_east.

Theorem C118_other degrees inverse l : transform_coordinates degrees false inverse l = Err CRSNotEquivalenError.
Proof. reflexivity. Qed.
Print Assumptions C118_other.

(** Longitudes a turn to the west are not refused, and come back as others. *)
Theorem C118_west_refuted x y z : usual true (mkpoint x y z) ->
  exists m, transform_coordinates true true false [mkpoint (x - 360) y z] = Ok m /\
    transform_coordinates true true true m = Ok [mkpoint x y z].
Proof.
  intros U. exists [to_cartesian true (mkpoint (x - 360) y z)]. split.
  - rewrite C118_place.
    + cbn [map]. now rewrite to_cartesian_place.
    + intros _ p [<-|[]]. destruct U as (_ & _ & U). unfold half_turn in U. cbn [p_x] in *. lra.
  - unfold transform_coordinates. cbn [negb map]. do 2 f_equal.
    rewrite <- (there_and_back true (mkpoint x y z) U). f_equal. unfold to_cartesian. cbn [p_x p_y p_z].
    replace (x * DEG_TO_RAD) with ((x - 360) * DEG_TO_RAD + 2 * PI) by (unfold DEG_TO_RAD; field).
    now rewrite cos_plus, sin_plus, cos_2PI, sin_2PI, !Rmult_0_r, !Rmult_1_r, Rminus_0_r, Rplus_0_r.
Qed.
Print Assumptions C118_west_refuted.

(** In radians nothing is refused: longitudes between a half and a whole turn come back
    as others. *)
Theorem C118_radians_refuted x y z : usual false (mkpoint x y z) ->
  exists m, transform_coordinates false true false [mkpoint (x + 2 * PI) y z] = Ok m /\
    transform_coordinates false true true m = Ok [mkpoint x y z].
Proof.
  intros U. exists [to_cartesian false (mkpoint (x + 2 * PI) y z)]. split; [reflexivity|].
  unfold transform_coordinates. cbn [negb map]. do 2 f_equal.
  rewrite <- (there_and_back false (mkpoint x y z) U). f_equal. unfold to_cartesian. cbn [p_x p_y p_z].
  now rewrite cos_plus, sin_plus, cos_2PI, sin_2PI, !Rmult_0_r, !Rmult_1_r, Rminus_0_r, Rplus_0_r.
Qed.
Print Assumptions C118_radians_refuted.

(** Negative levels, such as depths, come back positive, on the other side. *)
Theorem C118_depth_refuted x y z : usual true (mkpoint x y z) -> x <= 0 ->
  exists m, transform_coordinates true true false [mkpoint x y (- z)] = Ok m /\
    transform_coordinates true true true m = Ok [mkpoint (x + 180) (- y) z].
Proof.
  intros (Z0 & Y0 & X0) X. cbn [p_x p_y p_z] in *. exists [to_cartesian true (mkpoint x y (- z))]. split.
  - rewrite C118_place; [cbn [map]; now rewrite to_cartesian_place|]. intros _ p [<-|[]]. cbn [p_x]. lra.
  - unfold transform_coordinates. cbn [negb map]. do 2 f_equal.
    assert (U : usual true (mkpoint (x + 180) (- y) z)) by (unfold usual, half_turn in *; cbn [p_x p_y p_z]; lra).
    rewrite <- (there_and_back true (mkpoint (x + 180) (- y) z) U). f_equal. unfold to_cartesian. cbn [p_x p_y p_z].
    replace ((x + 180) * DEG_TO_RAD) with (x * DEG_TO_RAD + PI) by (unfold DEG_TO_RAD; field).
    replace (- y * DEG_TO_RAD) with (- (y * DEG_TO_RAD)) by ring.
    rewrite neg_cos, neg_sin, cos_neg, sin_neg. f_equal; ring.
Qed.
Print Assumptions C118_depth_refuted.

Example C118_depth_case : usual true (mkpoint (-10) 20 30) /\ -10 <= 0.
Proof. unfold usual, quarter, half_turn. cbn [p_x p_y p_z]. lra. Qed.

(** The exterior of a polygon without heights is put on the sphere of radius one, whatever
    the radius of the coordinate system. *)
Theorem C118_unit_partial degrees l m q : (forall x y z, In (x, y, z) l -> z = None) ->
  transform_coordinates degrees true false (exterior_points l) = Ok m -> In q m ->
  p_x q ^ 2 + p_y q ^ 2 + p_z q ^ 2 = 1.
Proof.
  intros N E I. apply In_nth_error in I. destruct I as [i Hi].
  destruct (nth_error (exterior_points l) i) as [p|] eqn:Hp.
  - rewrite (C118_distance _ _ _ i p q E Hp Hi). apply nth_error_In in Hp. apply in_map_iff in Hp.
    destruct Hp as ([[x y] z] & <- & Il). rewrite (N x y z Il). cbn [p_z]. ring.
  - exfalso. unfold transform_coordinates in E. cbn [negb] in E. destruct (degrees && too_far_east (exterior_points l))%bool; [easy|].
    injection E as <-. rewrite nth_error_map, Hp in Hi. easy.
Qed.
Print Assumptions C118_unit_partial.

Example C118_unit_case : exists m, transform_coordinates true true false (exterior_points [(0, 0, None); (90, 0, None)]) = Ok m /\ length m = 2%nat.
Proof.
  eexists. split; [|]; [apply C118_place|reflexivity]. intros _ p [<-|[<-|[]]]; cbn [p_x]; lra.
Qed.
