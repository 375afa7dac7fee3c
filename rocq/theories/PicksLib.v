(** Lemmas about [Picks]. *)
From Verif Require Import Py Lib Spec.
From Coq Require Import Sorted.

Lemma sorted_seq n : forall k, StronglySorted lt (seq k n).
Proof.
  induction n as [|n IH]; intros k; cbn [seq]; constructor; [apply IH|]. apply Forall_forall. intros x Hx. apply in_seq in Hx. lia.
Qed.

Lemma sorted_filter (f : nat -> bool) : forall l, StronglySorted lt l -> StronglySorted lt (filter f l).
Proof.
  induction l as [|x t IH]; intros H; cbn [filter]; [constructor|]. inversion H as [|? ? Ht HF]; subst.
  destruct (f x); [|apply IH; exact Ht]. constructor; [apply IH; exact Ht|]. apply Forall_forall. intros y Hy. apply filter_In in Hy.
  rewrite Forall_forall in HF. apply HF. tauto.
Qed.

Lemma filter_map_comm {A B} (g : A -> B) (f : B -> bool) : forall l, filter f (map g l) = map g (filter (fun x => f (g x)) l).
Proof. induction l as [|x t IH]; cbn [map filter]; [reflexivity|]. rewrite IH. destruct (f (g x)); reflexivity. Qed.

Lemma bool_select_positions {A} : forall m (l : list A), List.length m = List.length l ->
  map Some (bool_select m l) = map (nth_error l) (filter (fun k => nth k m false) (seq 0 (List.length l))).
Proof.
  induction m as [|b m IH]; intros [|x l] H; try discriminate; [reflexivity|]. injection H as H.
  cbn [bool_select List.length seq filter nth]. rewrite <- seq_shift, filter_map_comm. cbn [nth].
  specialize (IH l H). destruct b; cbn [map nth_error]; rewrite map_map; cbn [nth_error]; rewrite IH; reflexivity.
Qed.

Lemma picks_bool_select {A} m (l : list A) : List.length m = List.length l ->
  Picks (fun k => nth_error m k = Some true) l (bool_select m l).
Proof.
  intros H. exists (filter (fun k => nth k m false) (seq 0 (List.length l))). split; [apply sorted_filter, sorted_seq|]. split.
  - intros k. rewrite filter_In, in_seq. split.
    + intros [Hk E]. split; [lia|]. rewrite (nth_error_nth' m false) by lia. rewrite E. reflexivity.
    + intros [Hk E]. split; [lia|]. rewrite (nth_error_nth m k false E). reflexivity.
  - apply bool_select_positions. exact H.
Qed.

Lemma picks_ext {A} (P Q : nat -> Prop) (l r : list A) : Picks P l r -> (forall k, (k < List.length l)%nat -> (P k <-> Q k)) -> Picks Q l r.
Proof.
  intros [ks [H1 [H2 H3]]] HPQ. exists ks. split; [exact H1|]. split; [|exact H3]. intros k. rewrite H2. split; intros [Hk H]; (split; [exact Hk|apply (HPQ k Hk); exact H]).
Qed.

Lemma bool_select_filter {A} (f : A -> bool) : forall l, bool_select (map f l) l = filter f l.
Proof. induction l as [|x t IH]; cbn [map bool_select filter]; [reflexivity|]. rewrite IH. reflexivity. Qed.

Lemma picks_filter {A} (f : A -> bool) (l : list A) : Picks (fun k => exists x, nth_error l k = Some x /\ f x = true) l (filter f l).
Proof.
  rewrite <- bool_select_filter. eapply picks_ext; [apply picks_bool_select; apply map_length|]. intros k Hk. cbn beta. rewrite nth_error_map.
  destruct (nth_error l k) as [x|]; cbn [option_map].
  - split; [intros H; injection H as H; exists x; tauto|intros [y [E H]]; injection E as <-; rewrite H; reflexivity].
  - split; [discriminate|intros [y [E _]]; discriminate].
Qed.

Lemma picks_nil {A} (P : nat -> Prop) (l : list A) : Picks P l [] <-> forall k, (k < List.length l)%nat -> ~ P k.
Proof.
  split.
  - intros [ks [_ [H2 H3]]] k Hk HP. destruct ks; [|discriminate]. apply (proj2 (H2 k)). tauto.
  - intros H. exists []. split; [constructor|]. split; [|reflexivity]. intros k. split; [intros []|intros [Hk HP]; apply (H k Hk HP)].
Qed.

(** What is picked is determined. *)
Lemma sorted_unique : forall a b, StronglySorted lt a -> StronglySorted lt b -> (forall k, In k a <-> In k b) -> a = b.
Proof.
  induction a as [|x t IH]; intros [|y u] Ha Hb H.
  - reflexivity.
  - exfalso. apply (proj2 (H y)). left; reflexivity.
  - exfalso. apply (proj1 (H x)). left; reflexivity.
  - inversion Ha as [|? ? Ht HFx]; subst. inversion Hb as [|? ? Hu HFy]; subst. rewrite Forall_forall in HFx, HFy.
    assert (x = y) as ->.
    { destruct (proj1 (H x) (or_introl eq_refl)) as [E|E]; [symmetry; exact E|]. destruct (proj2 (H y) (or_introl eq_refl)) as [E'|E']; [exact E'|].
      specialize (HFx y E'). specialize (HFy x E). lia. }
    f_equal. apply IH; [exact Ht|exact Hu|]. intros k. split; intros Hk.
    + destruct (proj1 (H k) (or_intror Hk)) as [<-|E]; [specialize (HFx y Hk); lia|exact E].
    + destruct (proj2 (H k) (or_intror Hk)) as [<-|E]; [specialize (HFy y Hk); lia|exact E].
Qed.

Lemma map_some_inj {A} : forall a b : list A, map Some a = map Some b -> a = b.
Proof. induction a as [|x t IH]; intros [|y u] H; try discriminate; [reflexivity|]. injection H as -> H. f_equal. apply IH; exact H. Qed.

Lemma picks_unique {A} P (l r r' : list A) : Picks P l r -> Picks P l r' -> r = r'.
Proof.
  intros [ks [H1 [H2 H3]]] [ks' [H1' [H2' H3']]]. apply map_some_inj. rewrite H3, H3'. f_equal.
  apply sorted_unique; try assumption. intros k. rewrite H2, H2'. tauto.
Qed.
