From Verif Require Import Py Lib QueryModel QuerySpec.
From Coq Require Import String Ascii Lia.
Local Open Scope string_scope.
Local Notation length := List.length.
Local Open Scope nat_scope.

Lemma uids_nth : forall l uid i e, nth_error l i = Some e ->
  nth_error (dataset_uids uid l) i = Some (match e with Some u => u | None => (uid + Z.of_nat i)%Z end).
Proof.
  induction l as [|x t IH]; intros uid [|i] e H; try discriminate; cbn [dataset_uids nth_error] in *.
  - injection H as ->. destruct e; f_equal; lia.
  - rewrite (IH _ _ _ H). destruct e; f_equal; lia.
Qed.
Lemma uids_length : forall l uid, length (dataset_uids uid l) = length l.
Proof. induction l as [|x t IH]; intros uid; cbn [dataset_uids length]; [reflexivity|rewrite IH; reflexivity]. Qed.

Lemma split_word : forall s, NoBar s -> split_bar s = [s].
Proof.
  induction s as [|c t IH]; intros H; [reflexivity|]. destruct H as [Hc Ht]. cbn [split_bar]. destruct (Ascii.eqb_spec c "|"%char); [contradiction|].
  rewrite (IH Ht). reflexivity.
Qed.
Lemma split_cons : forall s t, NoBar s -> split_bar (s ++ "|" ++ t) = s :: split_bar t.
Proof.
  induction s as [|c s IH]; intros t H; [reflexivity|]. destruct H as [Hc Ht]. cbn [append split_bar]. destruct (Ascii.eqb_spec c "|"%char); [contradiction|].
  cbn [append] in IH. rewrite (IH t Ht). reflexivity.
Qed.
Lemma split_join : forall l, l <> [] -> Forall NoBar l -> split_bar (join_bar l) = l.
Proof.
  induction l as [|x t IH]; intros N H; [congruence|]. inversion H as [|? ? Hx Ht]; subst. destruct t as [|y t]; [apply split_word; exact Hx|].
  change (join_bar (x :: y :: t)) with (x ++ "|" ++ join_bar (y :: t)). rewrite split_cons by exact Hx. rewrite IH; [reflexivity|discriminate|exact Ht].
Qed.
Lemma split_some : forall s, exists x t, split_bar s = x :: t.
Proof.
  induction s as [|c t [x [r E]]]; [eexists; eexists; reflexivity|]. cbn [split_bar]. destruct (Ascii.eqb c "|"%char); [eexists; eexists; reflexivity|]. rewrite E. eexists. eexists. reflexivity.
Qed.

Lemma at_index_ok : forall n l i, ForEach n l -> i < n -> exists x, at_index l i = Ok x /\ Argument l i x.
Proof.
  intros n [l|] i H Hi; [|exists None; split; reflexivity]. destruct H as [L _]. cbn [at_index Argument].
  destruct (nth_error l i) as [y|] eqn:E; [|apply nth_error_None in E; lia]. exists (Some y). split; [reflexivity|]. exists y. auto.
Qed.

Lemma query_rows_ok : forall v f r n uris idx, ForEach n v -> ForEach n f -> ForEach n r -> idx + length uris = n ->
  exists rds, query_rows v f r idx uris = Ok rds /\ length rds = length uris /\
    forall i u, nth_error uris i = Some u -> exists a, nth_error rds i = Some a /\ ra_uri a = u /\
      Argument v (idx + i) (ra_variable a) /\ Argument f (idx + i) (ra_field_name a) /\ Argument r (idx + i) (ra_rename a).
Proof.
  intros v f r n. induction uris as [|u t IH]; intros idx Hv Hf Hr L.
  - exists []. split; [reflexivity|]. split; [reflexivity|]. intros [|i] u; discriminate.
  - cbn [length] in L. destruct (IH (S idx) Hv Hf Hr ltac:(lia)) as [rds [E [El F]]].
    destruct (at_index_ok n v idx Hv ltac:(lia)) as [xv [Ev Av]]. destruct (at_index_ok n f idx Hf ltac:(lia)) as [xf [Ef Af]]. destruct (at_index_ok n r idx Hr ltac:(lia)) as [xr [Er Ar]].
    exists (mkrdargs u xv xf xr :: rds). cbn [query_rows]. rewrite Ev, Ef, Er. cbn [bind]. rewrite E. cbn [bind length]. split; [reflexivity|]. split; [rewrite El; reflexivity|].
    intros [|i] w Hw; cbn [nth_error] in *.
    + injection Hw as <-. eexists. split; [reflexivity|]. cbn. rewrite Nat.add_0_r. auto.
    + destruct (F i w Hw) as [a Ha]. exists a. replace (idx + S i) with (S idx + i) by lia. exact Ha.
Qed.

Lemma query_rows_short : forall l f r uris idx, idx <= length l -> length l < idx + length uris -> query_rows (Some l) f r idx uris <> Ok [] /\
  forall rds, query_rows (Some l) f r idx uris <> Ok rds.
Proof.
  intros l f r uris idx Hi Hl. assert (forall rds, query_rows (Some l) f r idx uris <> Ok rds) as G; [|split; [apply G|exact G]].
  revert idx Hi Hl. induction uris as [|u t IH]; intros idx Hi Hl rds; cbn [length] in Hl; [lia|]. cbn [query_rows at_index].
  destruct (nth_error l idx) as [x|] eqn:E; [|discriminate]. cbn [bind].
  assert (idx < length l) by (apply nth_error_Some; congruence).
  destruct (at_index f idx); [|discriminate]. cbn [bind]. destruct (at_index r idx); [|discriminate]. cbn [bind].
  destruct (query_rows (Some l) f r (S idx) t) as [rest|] eqn:E2; [|discriminate]. exfalso. eapply (IH (S idx)); [lia|lia|exact E2].
Qed.
