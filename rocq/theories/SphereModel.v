(** The formulas between spherical and Cartesian coordinates, variable/crs.py:671-752.

    Numbers are real numbers instead of floating point numbers: no rounding, no nan.  An
    array of points is a list of points; the three arrays have the same shape. *)
From Coq Require Import Reals.
From Verif Require Import Py.
Local Open Scope R_scope.
Local Open Scope list_scope.

Record point := mkpoint { p_x : R; p_y : R; p_z : R }.

(** [np.arctan2]; both arguments 0 give 0. *)
Definition arctan2 (y x : R) : R :=
  if Rlt_dec 0 x then atan (y / x)
  else if Rlt_dec x 0 then (if Rle_dec 0 y then atan (y / x) + PI else atan (y / x) - PI)
  else if Rlt_dec 0 y then PI / 2
  else if Rlt_dec y 0 then - (PI / 2)
  else 0.

(** [ConversionFactor], constants.py:496-498. *)
Definition DEG_TO_RAD : R := PI / 180.
Definition RAD_TO_DEG : R := 180 / PI.

(** One point of [transform_coordinates] with [inverse=True], variable/crs.py:693-700; numpy
    gives nan for the latitude of the origin, here the quotient is whatever Rocq says. *)
Definition from_cartesian (degrees : bool) (p : point) : point :=
  let z_out := sqrt (p_x p ^ 2 + p_y p ^ 2 + p_z p ^ 2) in
  let x_out := arctan2 (p_y p) (p_x p) in
  let y_out := asin (p_z p / z_out) in
  if degrees then mkpoint (x_out * RAD_TO_DEG) (y_out * RAD_TO_DEG) z_out else mkpoint x_out y_out z_out.

(** One point with [inverse=False], variable/crs.py:707-714. *)
Definition to_cartesian (degrees : bool) (p : point) : point :=
  let x := if degrees then p_x p * DEG_TO_RAD else p_x p in
  let y := if degrees then p_y p * DEG_TO_RAD else p_y p in
  mkpoint (p_z p * cos y * cos x) (p_z p * cos y * sin x) (p_z p * sin y).

(** [select = x > 180.; select.any()], variable/crs.py:704-706. *)
Definition too_far_east (l : list point) : bool :=
  existsb (fun p => if Rlt_dec 180 (p_x p) then true else false) l.

(** [transform_coordinates], variable/crs.py:671-716; [cartesian] says that the other system is
    Cartesian. *)
Definition transform_coordinates (degrees cartesian inverse : bool) (l : list point) : res (list point) :=
  if negb cartesian then Err CRSNotEquivalenError
  else if inverse then Ok (map (from_cartesian degrees) l)
  else if (degrees && too_far_east l)%bool then Err ValueError
  else Ok (map (to_cartesian degrees) l).

(** The exterior of a polygon in [transform_geometry], variable/crs.py:728-752: a third
    coordinate is made when there is none. *)
Definition exterior_points (l : list (R * R * option R)) : list point :=
  map (fun '(x, y, z) => mkpoint x y (match z with Some h => h | None => 1 end)) l.
