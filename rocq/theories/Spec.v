(** Vocabulary shared by the specifications: plain mathematical notions, no
    model definitions. *)
From Verif Require Import Py.
From Coq Require Sorted.

(** Exactly one position of the list holds an element satisfying [P]. *)
Definition ExactlyOne {A} (P : A -> Prop) (l : list A) : Prop :=
  exists k x, nth_error l k = Some x /\ P x /\
    forall k' x', nth_error l k' = Some x' -> P x' -> k' = k.

(** [i] lies in the half-open interval [[fst b, snd b)]. *)
Definition InIval (i : Z) (b : Z * Z) : Prop := fst b <= i < snd b.

(** A list of intervals is a consecutive tiling of [[lo, hi)]: the first
    starts at [lo], each next one starts where the previous one ends, the last
    one ends at [hi]; no interval is inverted. *)
Fixpoint Tiles (lo hi : Z) (l : list (Z * Z)) : Prop :=
  match l with
  | [] => lo = hi
  | (a, b) :: t => a = lo /\ a <= b /\ Tiles b hi t
  end.

(** An index tuple is inside an array of the given shape. *)
Definition IndexOf (shape idx : list Z) : Prop := Forall2 (fun n i => 0 <= i < n) shape idx.

(** Product of a list of integers. *)
Fixpoint zprod (l : list Z) : Z := match l with [] => 1 | x :: t => x * zprod t end.

(** [r] consists of the elements of [l] at the positions satisfying [P], each
    once, in order. *)
Definition Picks {A} (P : nat -> Prop) (l r : list A) : Prop :=
  exists ks, Sorted.StronglySorted lt ks /\
    (forall k, In k ks <-> (k < List.length l)%nat /\ P k) /\
    map Some r = map (nth_error l) ks.
