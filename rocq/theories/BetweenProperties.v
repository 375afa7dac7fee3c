(** C21: range selection. *)
From Verif Require Import Py Spec BetweenModel BetweenSpec BetweenProofs.
Local Open Scope Z_scope.

(** C21.  The elements that meet the range, in order; EmptySubsetError iff there
    are none.  Partial: with bounds, an empty open range (closed and lower = upper)
    is excluded, and contiguous bounds must all be given in the order of the first. *)
Theorem C21_get_between_partial : forall A (items : list A) values bounds lower upper closed use_bounds,
  (lower <= upper)%Q -> List.length values = List.length items ->
  match bounds with
  | Some b => List.length b = List.length items /\ b <> [] /\
      (use_bounds = true -> closed = true -> (lower < upper)%Q) /\
      (use_bounds = true -> closed = false -> Contiguous b -> SameOrder b)
  | None => True
  end ->
  let Meets := MeetsRange values bounds lower upper closed use_bounds in
  (exists r, get_between items values bounds lower upper false closed use_bounds = Ok (r, None) /\ r <> [] /\ Picks Meets items r) \/
  (get_between items values bounds lower upper false closed use_bounds = Err EmptySubsetError /\ forall k, ~ Meets k).
Proof. exact @get_between_spec. Qed.
Print Assumptions C21_get_between_partial.

(** If the positions are asked for and returned, they are the positions of the
    elements returned. *)
Theorem C21_return_indices_partial : forall A (items : list A) values bounds lower upper closed use_bounds,
  (lower <= upper)%Q -> List.length values = List.length items ->
  match bounds with
  | Some b => List.length b = List.length items /\ b <> [] /\
      (use_bounds = true -> closed = true -> (lower < upper)%Q) /\
      (use_bounds = true -> closed = false -> Contiguous b -> SameOrder b)
  | None => True
  end ->
  let Meets := MeetsRange values bounds lower upper closed use_bounds in
  forall r i, get_between items values bounds lower upper true closed use_bounds = Ok (r, i) ->
  Picks Meets items r /\ exists ks, i = Some ks /\ Picks Meets (zrange 0 (zlen items)) ks.
Proof. exact @get_between_indices. Qed.
Print Assumptions C21_return_indices_partial.

Theorem C21_wrong_order_raises : forall A (items : list A) values bounds lower upper ri closed use_bounds,
  (upper < lower)%Q -> get_between items values bounds lower upper ri closed use_bounds = Err AssertionError.
Proof. exact @get_between_wrong_order. Qed.
Print Assumptions C21_wrong_order_raises.

Definition case_values : list Q := [5#2; 3#2; 1#2; 7#2]%Q.
Definition case_bounds : list (Q * Q) := [(3, 2); (2, 1); (1, 0); (4, 3)]%Q.

Example C21_case :
  SameOrder case_bounds /\ Contiguous case_bounds /\
  get_between [10; 11; 12; 13] case_values (Some case_bounds) 1 (3#2) false false true = Ok ([11], None) /\
  get_between [10; 11; 12; 13] case_values (Some case_bounds) 2 3 false false true = Ok ([10; 13], None) /\
  get_between [10; 11; 12; 13] case_values (Some case_bounds) 2 3 true false true = Ok ([10; 13], Some [0; 3]) /\
  get_between [10; 11; 12; 13] case_values (Some case_bounds) 1 3 false true true = Ok ([10; 11], None) /\
  get_between [10; 11; 12; 13] case_values (Some case_bounds) 1 2 false true false = Ok ([11], None) /\
  get_between [10; 11; 12; 13] case_values (Some case_bounds) 9 10 false true true = Err EmptySubsetError.
Proof.
  split.
  { right. split; [repeat constructor; cbn; discriminate|]. eexists _, _. split; reflexivity. }
  split; [cbn; unfold Share; right; right; left; reflexivity|].
  repeat split; vm_compute; reflexivity.
Qed.

(** C21 refuted in three ways.  The positions cannot be returned when the selection
    is one run. *)
Theorem C21_return_indices_refuted : exists values lower upper,
  (lower <= upper)%Q /\
  get_between [10; 11; 12] values None lower upper true false true = Err AttributeError /\
  get_between [10; 11; 12] values None lower upper false false true = Ok ([10; 11], None).
Proof. exists [1; 2; 3]%Q, 1%Q, 2%Q. split; [discriminate|]. split; vm_compute; reflexivity. Qed.
Print Assumptions C21_return_indices_refuted.

(** The open range (1, 1) is empty, still a cell around it is selected. *)
Theorem C21_empty_open_range_refuted : exists values bounds,
  get_between [10; 11] values (Some bounds) 1 1 false true true = Ok ([10], None) /\
  forall x, ~ InRange true 1 1 x.
Proof.
  exists [1; 3]%Q, [(0, 2); (2, 4)]%Q. split; [vm_compute; reflexivity|].
  intros x [H1 H2]. apply (Qlt_irrefl 1). eapply Qlt_trans; eassumption.
Qed.
Print Assumptions C21_empty_open_range_refuted.

(** Contiguous bounds in mixed order: cells own their lower end only, so the second
    cell, from 2 to 3, does not own 3; it is selected for the range [3, 3]. *)
Theorem C21_mixed_order_refuted : exists values bounds,
  get_between [10; 11] values (Some bounds) 3 3 false false true = Ok ([11], None) /\
  (forall r x, nth_error bounds 1 = Some r -> InRange false 3 3 x -> ~ InCellLower r x).
Proof.
  exists [1; 5#2]%Q, [(0, 2); (3, 2)]%Q. split; [vm_compute; reflexivity|].
  intros r x E [H1 H2] H. cbn in E. injection E as <-. unfold InCellLower in H; cbn [fst snd] in H.
  destruct H as [[H3 H4]|[[H3 H4]|[H3 H4]]].
  - apply (Qlt_irrefl 3). eapply Qle_lt_trans; [exact H3|]. eapply Qlt_trans; [exact H4|reflexivity].
  - apply (Qlt_irrefl 3). eapply Qle_lt_trans; [exact H1|exact H4].
  - rewrite <- H4 in H3. discriminate.
Qed.
Print Assumptions C21_mixed_order_refuted.
