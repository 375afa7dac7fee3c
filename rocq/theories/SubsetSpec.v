(** What subsetting by selection geometries should do, in terms of the cells of a
    field and of what a reader of a result sees. *)
From Verif Require Import Py SubsetModel.

(** [p] is the longitude in the range -180 to 180 of the place with longitude [x];
    in a flat coordinate system coordinates are left alone. *)
Definition PlaceOf (c : crs) (x p : Z) : Prop :=
  match c with
  | Sph | Geo => -180 < p <= 180 /\ exists k, x = p + 360 * k
  | Rot | Flat => p = x
  end.

(** The centre of the cell lies in the selection geometry. *)
Definition Inside (f : field) (inside : Z -> Z -> bool) (j i : nat) : Prop :=
  (j < f_ny f)%nat /\ (i < f_nx f)%nat /\
  exists p, PlaceOf (f_crs f) (f_lon f j i) p /\ inside p (f_lat f j i) = true.

(** The data of the cell are masked in the field. *)
Definition Masked (f : field) (t j i : nat) : Prop := exists d, f_mask f = Some d /\ d t j i = true.

(** Longitudes run from -180 to 360; with WGS84 they keep to one of the two ranges. *)
Definition InRange (f : field) : Prop :=
  match f_crs f with
  | Sph => forall j i, (j < f_ny f)%nat -> (i < f_nx f)%nat -> -180 < f_lon f j i <= 360
  | Geo => (forall j i, (j < f_ny f)%nat -> (i < f_nx f)%nat -> -180 < f_lon f j i <= 180) \/
           (forall j i, (j < f_ny f)%nat -> (i < f_nx f)%nat -> 0 <= f_lon f j i <= 360)
  | Rot | Flat => True
  end.

(** [r], read with the arrays of [m], holds the smallest window of the field around
    the cells inside the geometry, and masks the other cells of the window.  A
    longitude [x] of the field is in the result a longitude [L x]. *)
Definition SubsetWith (L : Z -> Z -> Prop) (f : field) (inside : Z -> Z -> bool) (m : field) (r : result) : Prop :=
  r_crs r = f_crs f /\
  (r_j1 r <= f_ny f)%nat /\ (r_i1 r <= f_nx f)%nat /\
  (forall j i, Inside f inside j i -> (r_j0 r <= j < r_j1 r)%nat /\ (r_i0 r <= i < r_i1 r)%nat) /\
  (exists i, Inside f inside (r_j0 r) i) /\ (exists i, Inside f inside (r_j1 r - 1) i) /\
  (exists j, Inside f inside j (r_i0 r)) /\ (exists j, Inside f inside j (r_i1 r - 1)) /\
  forall j i, (j < height r)%nat -> (i < width r)%nat ->
    (r_smask r j i = true <-> ~ Inside f inside (r_j0 r + j) (r_i0 r + i)) /\
    L (f_lon f (r_j0 r + j) (r_i0 r + i)) (read_lon m r j i) /\
    read_lat m r j i = f_lat f (r_j0 r + j) (r_i0 r + i) /\
    forall t, read_mask m r t j i = true <->
      Masked f t (r_j0 r + j) (r_i0 r + i) \/ ~ Inside f inside (r_j0 r + j) (r_i0 r + i).

Definition SubsetOf : field -> (Z -> Z -> bool) -> field -> result -> Prop := SubsetWith (fun x y => y = x).

(** Two fields hold the same. *)
Definition SameField (f g : field) : Prop :=
  f_crs f = f_crs g /\ f_ny f = f_ny g /\ f_nx f = f_nx g /\
  (forall j i, f_lon f j i = f_lon g j i) /\ (forall j i, f_lat f j i = f_lat g j i) /\
  (forall t j i, Masked f t j i <-> Masked g t j i).

(** Two results, read with the arrays of [m] and [m'], look the same. *)
Definition SameResult (m : field) (r : result) (m' : field) (r' : result) : Prop :=
  r_crs r = r_crs r' /\ r_j0 r = r_j0 r' /\ r_j1 r = r_j1 r' /\ r_i0 r = r_i0 r' /\ r_i1 r = r_i1 r' /\
  forall j i, (j < height r)%nat -> (i < width r)%nat ->
    r_smask r j i = r_smask r' j i /\
    read_lon m r j i = read_lon m' r' j i /\ read_lat m r j i = read_lat m' r' j i /\
    forall t, read_mask m r t j i = read_mask m' r' t j i.

Definition SameOutcome (m : field) (r : option result) (m' : field) (r' : option result) : Prop :=
  match r, r' with
  | Some a, Some b => SameResult m a m' b
  | None, None => True
  | _, _ => False
  end.

(** The longitudes of the field are already in the range asked for. *)
Definition InGoal (wrap : bool) (f : field) : Prop :=
  forall j i, (j < f_ny f)%nat -> (i < f_nx f)%nat -> if wrap then f_lon f j i <= 180 else 0 <= f_lon f j i.

(** A request whose geometries do not get in each other's way. *)
Definition Apart (e : request) (f : field) : Prop :=
  e_allow_empty e = false /\ (f_loaded f = false \/ f_mask f = None) /\
  match e_output e with
  | Some c => f_crs f = Rot -> c = Sph \/ c = Geo
  | None => f_crs f <> Rot /\
      match e_wrapping e with
      | None => True
      | Some w => f_crs f = Flat \/ (w = true /\ f_crs f = Sph /\ InRange f) \/ InGoal w f
      end
  end.
