From Verif Require Import Py Lib QueryModel QuerySpec QueryProofs.
From Coq Require Import String Ascii Lia.
Local Open Scope string_scope.
Local Notation length := List.length.
Local Open Scope nat_scope.

(** ** C165: identifiers of datasets *)

(** A dataset keeps the identifier it has; the others get their place in the request, from 1. *)
Theorem C165_uid_partial : forall l, length (dataset_uids 1 l) = length l /\
  forall i e, nth_error l i = Some e -> nth_error (dataset_uids 1 l) i = Some (match e with Some u => u | None => (1 + Z.of_nat i)%Z end).
Proof. intros l. split; [apply uids_length|]. intros i e H. apply uids_nth. exact H. Qed.
Print Assumptions C165_uid_partial.

(** They are all different when none is given, and when all are given and different. *)
Theorem C165_distinct_partial : forall l,
  Forall (fun e => e = None) l \/ (Forall (fun e => e <> None) l /\ NoDup l) -> NoDup (dataset_uids 1 l).
Proof.
  intros l H. apply NoDup_nth_error. intros i j Hi E. rewrite uids_length in Hi.
  destruct (nth_error l i) as [a|] eqn:Ea; [|apply nth_error_None in Ea; lia].
  rewrite (uids_nth _ _ _ _ Ea) in E.
  destruct (nth_error l j) as [b|] eqn:Eb; [|apply nth_error_None in Eb; rewrite <- (uids_length l 1) in Eb; apply nth_error_None in Eb; congruence].
  rewrite (uids_nth _ _ _ _ Eb) in E. apply (f_equal (fun o => match o with Some z => z | None => 0%Z end)) in E. cbv beta iota in E. destruct H as [H|[H N]].
  - rewrite Forall_forall in H. rewrite (H a (nth_error_In _ _ Ea)), (H b (nth_error_In _ _ Eb)) in E. lia.
  - rewrite Forall_forall in H. pose proof (H a (nth_error_In _ _ Ea)). pose proof (H b (nth_error_In _ _ Eb)).
    destruct a as [a|]; [|congruence]. destruct b as [b|]; [|congruence]. apply (proj1 (NoDup_nth_error l) N); [exact Hi|]. congruence.
Qed.
Print Assumptions C165_distinct_partial.

(** A dataset without identifier gets that of another one, if that has its place for an identifier. *)
Theorem C165_distinct_refuted : forall l i j, nth_error l i = Some None -> nth_error l j = Some (Some (1 + Z.of_nat i)%Z) -> ~ NoDup (dataset_uids 1 l).
Proof.
  intros l i j Hi Hj N. assert (i = j) as E; [|subst j; congruence]. apply (proj1 (NoDup_nth_error _) N).
  - rewrite uids_length. apply nth_error_Some. congruence.
  - rewrite (uids_nth _ _ _ _ Hi), (uids_nth _ _ _ _ Hj). reflexivity.
Qed.
Print Assumptions C165_distinct_refuted.
Example C165_uid_case : dataset_uids 1 [Some 2; None; None]%Z = [2; 2; 3]%Z /\ dataset_uids 1 [None; None] = [1; 2]%Z.
Proof. split; reflexivity. Qed.

(** ** C166: datasets of a query string *)

(** A query with, for each key, a value for every dataset or none at all gives one dataset for each
    URI with the values in its place. *)
Theorem C166_query_partial : forall uris variable field_name rename, uris <> [] -> Forall NoBar uris ->
  ForEach (length uris) variable -> ForEach (length uris) field_name -> ForEach (length uris) rename ->
  exists rds, from_query (Some (join_bar uris)) (option_map join_bar variable) (option_map join_bar field_name) (option_map join_bar rename) = Ok rds /\
    length rds = length uris /\
    forall i u, nth_error uris i = Some u -> exists a, nth_error rds i = Some a /\ ra_uri a = u /\
      Argument variable i (ra_variable a) /\ Argument field_name i (ra_field_name a) /\ Argument rename i (ra_rename a).
Proof.
  intros uris v f r N H Hv Hf Hr. unfold from_query. cbn [option_map]. rewrite split_join by assumption.
  assert (forall l, ForEach (length uris) l -> option_map split_bar (option_map join_bar l) = l) as E.
  { intros [l|] HF; [destruct HF as [L F]|reflexivity]. cbn [option_map]. rewrite split_join; [reflexivity| |exact F]. intros ->. destruct uris; [congruence|discriminate]. }
  rewrite !E by assumption. exact (query_rows_ok v f r (length uris) uris 0 Hv Hf Hr eq_refl).
Qed.
Print Assumptions C166_query_partial.
Example C166_query_case :
  from_query (Some "/a.nc|/b.nc") (Some "tas|pr") None (Some "t|p") =
    Ok [mkrdargs "/a.nc" (Some "tas") None (Some "t"); mkrdargs "/b.nc" (Some "pr") None (Some "p")].
Proof. reflexivity. Qed.

(** Without a URI the query is refused. *)
Theorem C166_uri : forall variable field_name rename, from_query None variable field_name rename = Err KeyError.
Proof. reflexivity. Qed.
Print Assumptions C166_uri.

(** One variable is not used for all URIs: fewer variables than URIs make the query fail. *)
Theorem C166_fewer_refuted : forall uri variable field_name rename rds,
  length (split_bar variable) < length (split_bar uri) -> from_query (Some uri) (Some variable) field_name rename <> Ok rds.
Proof. intros uri variable field_name rename rds H. unfold from_query. cbn [option_map]. apply query_rows_short; lia. Qed.
Print Assumptions C166_fewer_refuted.
Example C166_fewer_case : from_query (Some "/a.nc|/b.nc") (Some "tas") None None = Err IndexError.
Proof. reflexivity. Qed.

(** More variables than URIs are dropped without an error. *)
Theorem C166_more_refuted : forall uri first rest, NoBar uri -> NoBar first ->
  from_query (Some uri) (Some (first ++ "|" ++ rest)) None None = Ok [mkrdargs uri (Some first) None None].
Proof. intros uri first rest Hu Hf. unfold from_query. cbn [option_map]. rewrite (split_word uri) by exact Hu. rewrite split_cons by exact Hf. reflexivity. Qed.
Print Assumptions C166_more_refuted.
Example C166_more_case : from_query (Some "/a.nc") (Some "tas|pr") None None = Ok [mkrdargs "/a.nc" (Some "tas") None None].
Proof. reflexivity. Qed.
