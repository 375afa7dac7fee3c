(** Specification of C93-C96. *)
From Coq Require Import QArith.
From Verif Require Import Py GeomModel.
Local Close Scope Q_scope.
Local Open Scope nat_scope.

(** The element at a position: [[i]] in one dimension, [[j; i]] in two. *)
Definition at_ {A} (a : arr A) (idx : list nat) : option A :=
  match a, idx with
  | A1 l, [i] => nth_error l i
  | A2 _ rows, [j; i] => match nth_error rows j with Some row => nth_error row i | None => None end
  | _, _ => None
  end.
Definition shape {A} (a : arr A) : list nat := match a with A1 l => [length l] | A2 n rows => [length rows; n] end.
(** All rows have the stated length. *)
Definition Regular {A} (a : arr A) : Prop := match a with A1 _ => True | A2 n rows => Forall (fun r => length r = n) rows end.

(** A geometry variable whose mask, if any, has the shape of its values. *)
Definition GoodVar {G} (v : gvar G) : Prop :=
  Regular (gv_value v) /\ match gv_mask v with Some m => Regular m /\ shape m = shape (gv_value v) | None => True end.
Definition Unmasked {G} (v : gvar G) (idx : list nat) : Prop :=
  match gv_mask v with Some m => at_ m idx = Some false | None => True end.
(** The geometry at the position is not masked and intersects the selection geometry; if it
    only touches it, it counts if that was asked for. *)
Definition Chosen {G} (intersects touches : G -> G -> bool) (keep_touches : bool) (v : gvar G) (geom : G) (idx : list nat) : Prop :=
  Unmasked v idx /\ exists g, at_ (gv_value v) idx = Some g /\ intersects geom g = true /\
                              (keep_touches = true \/ touches geom g = false).

(** The geometries whose bounds meet those of the given geometry are found by the index, a
    geometry intersects if one of its parts does, and it touches if it intersects and all
    parts that do touch. *)
Record IndexLibrary {G} (intersects touches : G -> G -> bool) (parts : G -> list G) (rtree : list G -> G -> list nat) : Prop := {
  rtree_finds : forall l p i g, nth_error l i = Some g -> intersects p g = true -> In i (rtree l p);
  rtree_known : forall l p i, In i (rtree l p) -> i < length l;
  parts_intersect : forall g h, intersects g h = true <-> exists p, In p (parts g) /\ intersects p h = true;
  parts_touch : forall g h, intersects g h = true ->
    (touches g h = true <-> forall p, In p (parts g) -> intersects p h = true -> touches p h = true)
}.

(** The position lies in the box of slices. *)
Definition InSlices (s : list (nat * nat)) (idx : list nat) : Prop := Forall2 (fun p i => fst p <= i < snd p) s idx.
(** Every chosen position lies in the box, and on each of its sides there is one. *)
Definition Tight (chosen : list nat -> Prop) (s : list (nat * nat)) : Prop :=
  (forall idx, chosen idx -> InSlices s idx) /\
  forall k p, nth_error s k = Some p ->
    (exists idx, chosen idx /\ nth_error idx k = Some (fst p)) /\ exists idx, chosen idx /\ nth_error idx k = Some (snd p - 1).

(** A position of the whole variable is held unmasked by one of the processes. *)
Definition Held (ranks : list (list nat * option (arr bool))) (idx : list nat) : Prop :=
  exists off m loc, In (off, Some m) ranks /\ at_ m loc = Some false /\
                    idx = map (fun p => fst p + snd p) (combine off loc).
(** Blocks of one or two dimensions, with an offset for each. *)
Definition Blocks (ndim : nat) (ranks : list (list nat * option (arr bool))) : Prop :=
  forall off m, In (off, Some m) ranks -> Regular m /\ length (shape m) = ndim /\ length off = ndim.

Definition moved_idx (s : list (nat * nat)) (idx : list nat) : list nat := map (fun p => fst (fst p) + snd p) (combine s idx).
