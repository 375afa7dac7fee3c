(** Concrete collections for C65. *)
From Verif Require Import Py Lib Spec PartitionModel DimensionModel DimensionSpec NdModel SliceModel SliceSpec.
From Coq Require Import Lia.
Local Open Scope string_scope.
Local Open Scope Z_scope.

Definition wdim (n : string) (len : Z) : dim := mkdim n (Some len) None None false false None None.
(** Temperature over time and place, the names of the places, and a number. *)
Definition wtas : svar Z :=
  mksvar ["time"; "place"] (Some (mknd [3; 4] (fun i => match i with [t; p] => 10 * t + p | _ => -1 end)))
         (Some (mknd [3; 4] (fun i => match i with [t; p] => p =? 0 | _ => false end))).
Definition wname : svar Z := mksvar ["place"] (Some (mknd [4] (fun i => match i with [p] => 100 + p | _ => -1 end))) None.
Definition wnum : svar Z := mksvar [] (Some (mknd [] (fun _ => 7))) None.
Definition wcoll : scoll Z :=
  mkscoll [("time", wdim "time" 3); ("place", wdim "place" 4)] [("tas", wtas); ("name", wname); ("num", wnum)].

(** The shapes of the dimensions and the elements of the arrays. *)
Definition read_nd {B} (a : nd B) : list Z * list B := (nd_shape a, map (nd_at a) (list_product (map (zrange 0) (nd_shape a)))).
Definition read_var {B} (v : svar B) : list string * option (list Z * list B) * option (list Z * list bool) :=
  (sv_dims v, option_map read_nd (sv_value v), option_map read_nd (sv_mask v)).
Definition read {B} (c : scoll B) := (map (fun p => (fst p, dim_len (snd p))) (sc_dims c), map (fun p => (fst p, read_var (snd p))) (sc_vars c)).

Lemma wcoll_congruent : Congruent wcoll.
Proof.
  split; [repeat (apply NoDup_cons; [cbn; intuition discriminate|]); apply NoDup_nil|]. split.
  { intros n d [E|[E|[]]]; injection E as <- <-; (split; [reflexivity|]).
    - exists [0; 1; 2]. split; [reflexivity|exact I].
    - exists [0; 1; 2; 3]. split; [reflexivity|exact I]. }
  split; [repeat (apply NoDup_cons; [cbn; intuition discriminate|]); apply NoDup_nil|].
  intros k v [E|[E|[E|[]]]]; injection E as <- <-.
  - split; [repeat (apply NoDup_cons; [cbn; intuition discriminate|]); apply NoDup_nil|]. exists [3; 4]. split.
    + apply Forall2_cons; [exists (wdim "time" 3); split; [left; reflexivity|reflexivity]|].
      apply Forall2_cons; [exists (wdim "place" 4); split; [right; left; reflexivity|reflexivity]|apply Forall2_nil].
    + split; intros a E; injection E as <-; reflexivity.
  - split; [repeat (apply NoDup_cons; [cbn; intuition discriminate|]); apply NoDup_nil|]. exists [4]. split.
    + apply Forall2_cons; [exists (wdim "place" 4); split; [right; left; reflexivity|reflexivity]|apply Forall2_nil].
    + split; intros a E; [injection E as <-; reflexivity|discriminate].
  - split; [apply NoDup_nil|]. exists []. split; [apply Forall2_nil|]. split; intros a E; [injection E as <-; reflexivity|discriminate].
Qed.

(** The second place onwards by index array with a gap, the last two times. *)
Definition wslice : list (string * item) :=
  [("place", Given (RInts [1; 3])); ("time", Listed (RSlice (mkslice (Some (-2)) (Some (-1)))))].
Lemma wslice_ok : Sliceable wcoll wslice.
Proof.
  split; [discriminate|]. split; [repeat (apply NoDup_cons; [cbn; intuition discriminate|]); apply NoDup_nil|]. split.
  - intros n i [E|[E|[]]]; injection E as <- <-.
    + exists (wdim "place" 4). split; [right; left; reflexivity|]. split; [reflexivity|].
      split; [discriminate|]. split; [cbn; lia|]. apply Forall_cons; [cbn; lia|]. apply Forall_cons; [cbn; lia|]. apply Forall_nil.
    + exists (wdim "time" 3). split; [left; reflexivity|]. split; [reflexivity|]. cbn. lia.
  - intros k v _. split.
    + intros n n' i i' _ _ [E|[E|[]]] [E'|[E'|[]]] B B'; injection E as <- <-; injection E' as <- <-; try reflexivity; contradiction.
    + intros n i _ [E|[E|[]]]; injection E as <- <-; exact I.
Qed.

(** One slice for each dimension of the temperature. *)
Definition witems : list item := [Given (RInt 1); Given (RBools [true; false; false; true])].
Lemma witems_ok : Sliceable wcoll (combine (sv_dims wtas) (map as_given witems)).
Proof.
  split; [discriminate|]. split; [repeat (apply NoDup_cons; [cbn; intuition discriminate|]); apply NoDup_nil|]. split.
  - intros n i [E|[E|[]]]; injection E as <- <-.
    + exists (wdim "time" 3). split; [left; reflexivity|]. split; [reflexivity|]. cbn. lia.
    + exists (wdim "place" 4). split; [right; left; reflexivity|]. split; [reflexivity|]. reflexivity.
  - intros k v _. split.
    + intros n n' i i' _ _ [E|[E|[]]] [E'|[E'|[]]] B B'; injection E as <- <-; injection E' as <- <-; try reflexivity; contradiction.
    + intros n i _ [E|[E|[]]]; injection E as <- <-; exact I.
Qed.
