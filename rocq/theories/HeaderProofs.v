From Verif Require Import Py Lib HeaderModel HeaderSpec.
From Coq Require Import String Lia.
Local Open Scope string_scope.
Local Notation length := List.length.

Lemma existsb_in : forall n l, existsb (String.eqb n) l = true <-> In n l.
Proof.
  intros n l. rewrite existsb_exists. split.
  - intros [x [H E]]. apply String.eqb_eq in E. subst. exact H.
  - intros H. exists n. split; [exact H|apply String.eqb_refl].
Qed.

Lemma find_all : forall names l, (forall n, In (FName n) l -> In n names) -> find_followers names l = Ok l.
Proof.
  intros names l. induction l as [|[n|n] t IH]; intros H; [reflexivity| |]; cbn [find_followers].
  - rewrite (proj2 (existsb_in n names)) by (apply H; left; reflexivity). rewrite IH by (intros m Hm; apply H; right; exact Hm). reflexivity.
  - rewrite IH by (intros m Hm; apply H; right; exact Hm). reflexivity.
Qed.

Lemma coordinate_names : forall f, map follower_name (coordinate_followers f) = coordinates f.
Proof.
  intros f. unfold coordinate_followers, coordinates. destruct (hf_geom f) as [[? ?]|], (hf_realization f), (hf_time f) as [[? ?]|], (hf_level f) as [[? ?]|]; reflexivity.
Qed.

Lemma coordinate_iters : forall f n, ~ In (FName n) (coordinate_followers f).
Proof.
  intros f n. unfold coordinate_followers. rewrite !in_app_iff.
  destruct (hf_geom f) as [[? ?]|], (hf_realization f), (hf_time f) as [[? ?]|], (hf_level f) as [[? ?]|]; cbn; intuition discriminate.
Qed.

(** ** The header map *)

Lemma assign_from_other : forall (l d : list (string * string)) k, ~ In k (map fst l) ->
  dget String.eqb (fold_left (fun d kv => dset String.eqb d (fst kv) (snd kv)) l d) k = dget String.eqb d k.
Proof.
  induction l as [|[k' v] t IH]; intros d k H; [reflexivity|]. cbn [fold_left map fst snd In] in *. rewrite IH by tauto.
  apply (dget_dset_other _ String.eqb_spec). intros ->. apply H. left. reflexivity.
Qed.

Lemma assign_from_in : forall (l d : list (string * string)) k v, NoDup (map fst l) -> In (k, v) l ->
  dget String.eqb (fold_left (fun d kv => dset String.eqb d (fst kv) (snd kv)) l d) k = Some v.
Proof.
  induction l as [|[k' v'] t IH]; intros d k v Hd H; [contradiction|]. cbn [fold_left map fst snd] in *. inversion Hd; subst. destruct H as [[= -> ->]|H].
  - rewrite assign_from_other by assumption. apply (dget_dset_same _ String.eqb_spec).
  - apply IH; assumption.
Qed.

Lemma assign_iff : forall l k v, NoDup (map fst l) -> (dget String.eqb (assign l) k = Some v <-> In (k, v) l).
Proof.
  intros l k v Hd. unfold assign. split.
  - intros H. destruct (in_dec string_dec k (map fst l)) as [I1|N].
    + apply in_map_iff in I1. destruct I1 as [[k' v'] [E I1]]. cbn [fst] in E. subst k'.
      rewrite (assign_from_in l [] k v' Hd I1) in H. injection H as <-. exact I1.
    + rewrite assign_from_other in H by exact N. discriminate.
  - apply assign_from_in. exact Hd.
Qed.

Lemma assignments_standard : forall f r old new,
  In (old, new) (header_assignments f r) <-> (In old r /\ new = old) \/ Standard f old new.
Proof.
  intros f r old new. unfold header_assignments, Standard, bounds_headers. rewrite !in_app_iff.
  assert (In (old, new) (map (fun k => (k, k)) r) <-> In old r /\ new = old) as ->.
  { rewrite in_map_iff. split; [intros [x [[= -> ->] H]]; auto|intros [H ->]; exists old; auto]. }
  destruct f as [names tagged g rz t lv]. cbn [hf_geom hf_realization hf_time hf_level].
  apply or_iff_compat_l. split.
  - intros [H|[H|[H|H]]].
    + left. destruct g as [[n [u|]]|]; cbn in H; try contradiction. destruct H as [[= <- <-]|[]]. exists u, n. auto.
    + right; left. destruct rz as [n|]; cbn in H; [|contradiction]. destruct H as [[= <- <-]|[]]. auto.
    + right; right. destruct t as [[n b]|]; [|contradiction]. cbn [In] in H. rewrite in_app_iff in H. destruct H as [[= <- <-]|[H|H]].
      * left. exists b. auto.
      * right; left. destruct b; cbn in H; [|contradiction]. exists n. split; [reflexivity|]. destruct H as [[= <- <-]|[[= <- <-]|[]]]; auto.
      * right; right; left. exists (n, b). split; [reflexivity|]. cbn in H. cbn. destruct H as [[= <- <-]|[[= <- <-]|[[= <- <-]|[]]]]; auto.
    + do 5 right. destruct lv as [[n b]|]; [|contradiction]. cbn [In] in H. destruct H as [[= <- <-]|H].
      * left. exists b. auto.
      * right. destruct b; cbn in H; [|contradiction]. exists n. split; [reflexivity|]. destruct H as [[= <- <-]|[[= <- <-]|[]]]; auto.
  - intros [H|[H|[H|[H|[H|[H|H]]]]]].
    + destruct H as [u [n [-> [-> ->]]]]. left. left. reflexivity.
    + destruct H as [-> ->]. right; left. left. reflexivity.
    + destruct H as [b [-> ->]]. right; right; left. left. reflexivity.
    + destruct H as [n [-> H]]. right; right; left. right. apply in_app_iff. left. destruct H as [[-> ->]|[-> ->]]; cbn; auto.
    + destruct H as [[n b] [-> [H ->]]]. right; right; left. right. apply in_app_iff. right. cbn in *. destruct H as [<-|[<-|[<-|[]]]]; auto.
    + destruct H as [b [-> ->]]. do 3 right. left. reflexivity.
    + destruct H as [n [-> H]]. do 3 right. right. destruct H as [[-> ->]|[-> ->]]; cbn; auto.
Qed.
