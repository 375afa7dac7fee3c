(** Spherical coordinates: what a longitude, a latitude and a distance mean. *)
From Coq Require Import Reals.
From Verif Require Import Py SphereModel.
Local Open Scope R_scope.

(** A turn and a quarter of a turn in the angular units. *)
Definition half_turn (degrees : bool) : R := if degrees then 180 else PI.
Definition quarter (degrees : bool) : R := half_turn degrees / 2.

(** The point of space at longitude and latitude zero, turned about the second axis by the
    latitude and then about the third axis by the longitude (rotation matrices). *)
Definition radians (degrees : bool) (a : R) : R := a / half_turn degrees * PI.
Definition turn_about_y (a : R) (p : point) : point :=
  mkpoint (cos a * p_x p - sin a * p_z p) (p_y p) (sin a * p_x p + cos a * p_z p).
Definition turn_about_z (a : R) (p : point) : point :=
  mkpoint (cos a * p_x p - sin a * p_y p) (sin a * p_x p + cos a * p_y p) (p_z p).
Definition place (degrees : bool) (p : point) : point :=
  turn_about_z (radians degrees (p_x p)) (turn_about_y (radians degrees (p_y p)) (mkpoint (p_z p) 0 0)).

(** Coordinates as they are usually given: above the centre, away from the poles, and with
    longitudes in one turn. *)
Definition usual (degrees : bool) (p : point) : Prop :=
  0 < p_z p /\ - quarter degrees < p_y p < quarter degrees /\ - half_turn degrees < p_x p <= half_turn degrees.

Definition origin : point := mkpoint 0 0 0.
