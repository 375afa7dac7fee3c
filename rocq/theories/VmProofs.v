(** Proofs for C11 and C54. *)
From Verif Require Import Py Lib VmModel VmSpec.

Section DictLemmas.
  Context {K V : Type} (eqk : K -> K -> bool).
  Hypothesis eqk_spec : forall a b, eqk a b = true <-> a = b.

  Lemma eqk_refl a : eqk a a = true. Proof. apply eqk_spec; reflexivity. Qed.

  Lemma dget_dset_same (d : list (K * V)) k v : dget eqk (dset eqk d k v) k = Some v.
  Proof.
    induction d as [|[k' v'] t IH]; cbn [dset dget]; [rewrite eqk_refl; reflexivity|].
    destruct (eqk k k') eqn:E; cbn [dget]; rewrite E; [reflexivity|exact IH].
  Qed.
  Lemma dget_dset_other (d : list (K * V)) k k2 v : k2 <> k -> dget eqk (dset eqk d k v) k2 = dget eqk d k2.
  Proof.
    intros Hne. induction d as [|[k' v'] t IH]; cbn [dset dget].
    - destruct (eqk k2 k) eqn:E; [apply eqk_spec in E; congruence|reflexivity].
    - destruct (eqk k k') eqn:E; cbn [dget].
      + apply eqk_spec in E; subst. destruct (eqk k2 k') eqn:E2; [apply eqk_spec in E2; congruence|reflexivity].
      + destruct (eqk k2 k'); [reflexivity|exact IH].
  Qed.
  Lemma dremove_dset_fresh (d : list (K * V)) k v : dget eqk d k = None -> dremove eqk (dset eqk d k v) k = d.
  Proof.
    induction d as [|[k' v'] t IH]; cbn [dset dget dremove]; intros H; [rewrite eqk_refl; reflexivity|].
    destruct (eqk k k') eqn:E; [discriminate|]. cbn [dremove]. rewrite E, IH by exact H. reflexivity.
  Qed.
  Lemma dget_dremove_other (d : list (K * V)) k k2 : k2 <> k -> dget eqk (dremove eqk d k) k2 = dget eqk d k2.
  Proof.
    intros Hne. induction d as [|[k' v'] t IH]; cbn [dremove dget]; [reflexivity|].
    destruct (eqk k k') eqn:E; cbn [dget].
    - apply eqk_spec in E; subst. destruct (eqk k2 k') eqn:E2; [apply eqk_spec in E2; congruence|reflexivity].
    - destruct (eqk k2 k'); [reflexivity|exact IH].
  Qed.
End DictLemmas.

Definition Same (env : list (string * comm)) (subs : list (string * comm)) : Prop :=
  forall n, env_find env n = dget String.eqb subs n.

Lemma env_find_cons n c env k : env_find ((n, c) :: env) k = if String.eqb k n then Some c else env_find env k.
Proof. unfold env_find. cbn [find fst]. destruct (String.eqb k n); reflexivity. Qed.

Lemma same_dset env subs name c : Same env subs -> Same ((name, c) :: env) (dset String.eqb subs name c).
Proof.
  intros H n. rewrite env_find_cons. destruct (String.eqb n name) eqn:E.
  - apply String.eqb_eq in E; subst. rewrite (dget_dset_same _ String.eqb_eq). reflexivity.
  - rewrite (dget_dset_other _ String.eqb_eq); [apply H|]. intros ->. rewrite String.eqb_refl in E. discriminate.
Qed.

Definition open_names (env : list (string * comm)) : list string := map fst env.

Lemma env_find_none env n : ~ In n (open_names env) -> env_find env n = None.
Proof.
  induction env as [|[k c] t IH]; intros H; [reflexivity|]. rewrite env_find_cons. cbn [open_names map fst In] in H.
  destruct (String.eqb n k) eqn:E; [apply String.eqb_eq in E; subst; tauto|]. apply IH. tauto.
Qed.

Lemma set_comm_id s : set_comm s (vm_current s) = s. Proof. destruct s; reflexivity. Qed.

Theorem run_meaning : forall p s env,
  vm_dummy s = false -> Same env (vm_subs s) -> EmptyScopesFresh (open_names env) p ->
  run p s = (let '(o, t) := meaning (vm_me s) (vm_default s) p env (vm_comm s) in (o, s, t)).
Proof.
  induction p as [|e|p IHp q IHq|p IHp q IHq| |p IHp|name ranks body IH|name body IH]; intros s env Hd HS HE.
  - reflexivity.
  - reflexivity.
  - destruct HE as [HEp HEq]. cbn [run meaning]. rewrite (IHp s env Hd HS HEp).
    destruct (meaning (vm_me s) (vm_default s) p env (vm_comm s)) as [[e|] t1]; [reflexivity|].
    rewrite (IHq s env Hd HS HEq). destruct (meaning (vm_me s) (vm_default s) q env (vm_comm s)) as [o t2]. reflexivity.
  - destruct HE as [HEp HEq]. cbn [run meaning]. rewrite (IHp s env Hd HS HEp).
    destruct (meaning (vm_me s) (vm_default s) p env (vm_comm s)) as [[e|] t1]; [|reflexivity].
    rewrite (IHq s env Hd HS HEq). destruct (meaning (vm_me s) (vm_default s) q env (vm_comm s)) as [o t2]. reflexivity.
  - cbn [run meaning]. destruct (vm_comm s); reflexivity.
  - cbn [run meaning]. destruct (vm_comm s) as [[|g]|e] eqn:Ec; cbn [is_live]; try reflexivity.
    rewrite (IHp s env Hd HS HE), Ec. reflexivity.
  - destruct HE as [Hfresh HE]. cbn [run meaning]. unfold create_subcomm. rewrite Hd.
    (* the common end: body run with a fresh name *)
    assert (Hend : forall sub, dget String.eqb (vm_subs s) name = None ->
      (let '(o, s2, t) := run body (set_comm (with_subs s (dset String.eqb (vm_subs s) name sub)) (Some name)) in
       match free_subcomm s2 name with
       | Err e => (Some e, s2, t)
       | Ok s3 => (o, set_comm s3 (vm_current s), t)
       end) = (let '(o, t) := meaning (vm_me s) (vm_default s) body ((name, sub) :: env) (Ok sub) in (o, s, t))).
    { intros sub Hn. set (s1 := set_comm (with_subs s (dset String.eqb (vm_subs s) name sub)) (Some name)).
      assert (Hc : vm_comm s1 = Ok sub).
      { unfold vm_comm, s1, set_comm, get_subcomm; cbn [vm_current vm_subs with_subs]. rewrite (dget_dset_same _ String.eqb_eq). reflexivity. }
      rewrite (IH s1 ((name, sub) :: env)); [|exact Hd|apply same_dset; exact HS|exact HE].
      change (vm_me s1) with (vm_me s). change (vm_default s1) with (vm_default s). rewrite Hc.
      destruct (meaning (vm_me s) (vm_default s) body ((name, sub) :: env) (Ok sub)) as [o t].
      unfold free_subcomm, s1. cbn [vm_dummy set_comm with_subs vm_subs]. rewrite Hd. unfold dmem.
      rewrite (dget_dset_same _ String.eqb_eq), (dremove_dset_fresh _ String.eqb_eq) by exact Hn.
      destruct s; cbn in *; reflexivity. }
    destruct ranks as [|r0 rs].
    + change (zlen (@nil Z) =? 0) with true. cbn [bind]. apply Hend.
      rewrite <- HS. apply env_find_none. apply Hfresh. reflexivity.
    + replace (zlen (r0 :: rs) =? 0) with false by (rewrite zlen_cons; pose proof (zlen_nonneg rs); lia).
      destruct (vm_comm s) as [c|e]; cbn [bind]; [|reflexivity].
      destruct (mpi_create (vm_me s) c (r0 :: rs)) as [sub|e]; cbn [bind]; [|reflexivity].
      unfold dmem. rewrite <- HS. destruct (env_find env name) as [x|] eqn:En; cbn [bind]; [reflexivity|].
      apply Hend. rewrite <- HS. exact En.
  - cbn [run meaning]. assert (Hc : vm_comm (set_comm s name) = match name with
       | None => Ok (vm_default s)
       | Some n => match env_find env n with Some c => Ok c | None => Err SubcommNotFound end end).
    { unfold vm_comm, set_comm, get_subcomm; cbn [vm_current vm_subs vm_default]. destruct name as [n|]; [rewrite <- HS|]; reflexivity. }
    rewrite (IH (set_comm s name) env Hd HS HE). rewrite Hc.
    change (vm_me (set_comm s name)) with (vm_me s). change (vm_default (set_comm s name)) with (vm_default s).
    destruct (meaning (vm_me s) (vm_default s) body env _) as [o t]. destruct s; reflexivity.
Qed.

(** Which ranks are live inside a scope. *)
Lemma create_live g ranks : Forall (fun r => 0 <= r < zlen g) ranks ->
  exists sub, map_res (py_index g) ranks = Ok sub /\
  forall me, mpi_create me (CRanks g) ranks = Ok (if existsb (Z.eqb me) sub then CRanks sub else CNull).
Proof.
  intros H. assert (Hs : exists sub, map_res (py_index g) ranks = Ok sub).
  { induction H as [|r rs Hr HF IH]; [exists []; reflexivity|]. destruct IH as [sub E]. cbn [map_res].
    unfold py_index at 1. replace (r <? 0) with false by lia. replace ((r <? 0) || (zlen g <=? r)) with false by lia.
    destruct (nth_error g (Z.to_nat r)) as [x|] eqn:En.
    - cbn [bind]. rewrite E. cbn [bind]. eexists; reflexivity.
    - apply nth_error_None in En. unfold zlen in *. lia. }
  destruct Hs as [sub E]. exists sub. split; [exact E|]. intros me. unfold mpi_create.
  replace (map_res (fun r => if (0 <=? r) && (r <? zlen g) then py_index g r else Err MPIError) ranks) with (map_res (py_index g) ranks).
  - rewrite E. reflexivity.
  - clear E. induction H as [|r rs Hr HF IH]; [reflexivity|]. cbn [map_res]. replace ((0 <=? r) && (r <? zlen g)) with true by lia.
    rewrite IH. reflexivity.
Qed.

(** Serial runs: the current name is always put back, and every name stands for
    the one communicator there is. *)
Theorem run_dummy : forall p s o s' t,
  vm_dummy s = true -> (forall n c, In (n, c) (vm_subs s) -> c = vm_default s) ->
  run p s = (o, s', t) ->
  vm_current s' = vm_current s /\ vm_default s' = vm_default s /\ vm_dummy s' = true /\
  (forall n c, In (n, c) (vm_subs s') -> c = vm_default s) /\
  (forall c, In c t -> c = vm_default s).
Proof.
  assert (Hget : forall (subs : list (string * comm)) n c, dget String.eqb subs n = Some c -> exists m, In (m, c) subs).
  { induction subs as [|[k v] u IH]; intros n c H; cbn [dget] in H; [discriminate|]. destruct (String.eqb n k).
    - injection H as <-. exists k; left; reflexivity.
    - destruct (IH n c H) as [m Hm]. exists m; right; exact Hm. }
  assert (Hdset : forall (subs : list (string * comm)) n v m c, In (m, c) (dset String.eqb subs n v) -> c = v \/ In (m, c) subs).
  { induction subs as [|[k v0] u IH]; intros n v m c H; cbn [dset] in H.
    - destruct H as [H|[]]. injection H as <- <-. left; reflexivity.
    - destruct (String.eqb n k); destruct H as [H|H].
      + injection H as <- <-. left; reflexivity.
      + right; right; exact H.
      + right; left; exact H.
      + destruct (IH _ _ _ _ H) as [->|H']; [left; reflexivity|right; right; exact H']. }
  assert (Hcomm : forall s c, (forall n c, In (n, c) (vm_subs s) -> c = vm_default s) -> vm_comm s = Ok c -> c = vm_default s).
  { intros s c H E. unfold vm_comm, get_subcomm in E. destruct (vm_current s) as [n|]; [|injection E as <-; reflexivity].
    destruct (dget String.eqb (vm_subs s) n) as [x|] eqn:Eg; [|discriminate]. injection E as <-.
    destruct (Hget _ _ _ Eg) as [m Hm]. eapply H; exact Hm. }
  induction p as [|e|p IHp q IHq|p IHp q IHq| |p IHp|name ranks body IH|name body IH]; intros s o s' t Hd HS Hr; cbn [run] in Hr.
  - injection Hr as <- <- <-. repeat split; try assumption. intros c [].
  - injection Hr as <- <- <-. repeat split; try assumption. intros c [].
  - destruct (run p s) as [[o1 s1] t1] eqn:E1. destruct (IHp _ _ _ _ Hd HS E1) as [A1 [A2 [A3 [A4 A5]]]].
    destruct o1 as [e|]; [injection Hr as <- <- <-; tauto|].
    destruct (run q s1) as [[o2 s2] t2] eqn:E2. injection Hr as <- <- <-.
    assert (HS1 : forall n c, In (n, c) (vm_subs s1) -> c = vm_default s1) by (intros n c Hn; rewrite A2; eapply A4; exact Hn).
    destruct (IHq _ _ _ _ A3 HS1 E2) as [B1 [B2 [B3 [B4 B5]]]].
    rewrite A2 in *. repeat split; try congruence; try assumption. intros c Hc. apply in_app_or in Hc. destruct Hc; [apply A5|apply B5]; assumption.
  - destruct (run p s) as [[o1 s1] t1] eqn:E1. destruct (IHp _ _ _ _ Hd HS E1) as [A1 [A2 [A3 [A4 A5]]]].
    destruct o1 as [e|]; [|injection Hr as <- <- <-; tauto].
    destruct (run q s1) as [[o2 s2] t2] eqn:E2. injection Hr as <- <- <-.
    assert (HS1 : forall n c, In (n, c) (vm_subs s1) -> c = vm_default s1) by (intros n c Hn; rewrite A2; eapply A4; exact Hn).
    destruct (IHq _ _ _ _ A3 HS1 E2) as [B1 [B2 [B3 [B4 B5]]]].
    rewrite A2 in *. repeat split; try congruence; try assumption. intros c Hc. apply in_app_or in Hc. destruct Hc; [apply A5|apply B5]; assumption.
  - destruct (vm_comm s) as [c|e] eqn:Ec; injection Hr as <- <- <-; repeat split; try assumption; intros x Hx; [|destruct Hx].
    destruct Hx as [<-|[]]. eapply Hcomm; eassumption.
  - destruct (vm_comm s) as [c|e] eqn:Ec; [|injection Hr as <- <- <-; repeat split; try assumption; intros x []].
    destruct (is_live c); [eapply IHp; eassumption|]. injection Hr as <- <- <-. repeat split; try assumption. intros x [].
  - unfold create_subcomm in Hr. rewrite Hd in Hr. cbn [bind] in Hr.
    set (s1 := set_comm (with_subs s (dset String.eqb (vm_subs s) name (vm_default s))) (Some name)) in *.
    destruct (run body s1) as [[o1 s2] t1] eqn:E1.
    assert (HS1 : forall n c, In (n, c) (vm_subs s1) -> c = vm_default s1).
    { intros n c Hn. unfold s1 in Hn; cbn in Hn. apply Hdset in Hn. destruct Hn as [->|Hn]; [reflexivity|]. exact (HS _ _ Hn). }
    destruct (IH s1 _ _ _ Hd HS1 E1) as [A1 [A2 [A3 [A4 A5]]]].
    unfold free_subcomm in Hr. rewrite A3 in Hr. injection Hr as <- <- <-.
    cbn [set_comm vm_current vm_default vm_dummy vm_subs]. repeat split; try assumption.
  - destruct (run body (set_comm s name)) as [[o1 s2] t1] eqn:E1. injection Hr as <- <- <-.
    destruct (IH (set_comm s name) _ _ _ Hd HS E1) as [A1 [A2 [A3 [A4 A5]]]].
    cbn [set_comm vm_current vm_default vm_dummy vm_subs] in *. repeat split; assumption.
Qed.

(** C54 *)
Lemma key_eqb_spec a b : key_eqb a b = true <-> a = b.
Proof. destruct a, b; unfold key_eqb; cbn [fst snd]. split; [intros H; f_equal; lia|intros H; injection H as -> ->; lia]. Qed.

Lemma key_eqb_refl a : key_eqb a a = true. Proof. apply key_eqb_spec; reflexivity. Qed.

Definition Keys {A} (m : mailbox A) : Prop := NoDup (map fst m).

Lemma keys_dset {A} (m : mailbox A) k v : Keys m -> Keys (dset key_eqb m k v).
Proof.
  unfold Keys. induction m as [|[k' v'] t IH]; intros H; cbn [dset map fst]; [constructor; [intros []|constructor]|].
  inversion H; subst. destruct (key_eqb k k') eqn:E; cbn [map fst]; [constructor; assumption|]. constructor; [|apply IH; assumption].
  intros Hin. assert (Hc : forall u, In k' (map fst (dset key_eqb u k v)) -> k' = k \/ In k' (map fst u)).
  { induction u as [|[a b] u IHu]; cbn [dset map fst In]; [intros [<-|[]]; left; reflexivity|].
    destruct (key_eqb k a); cbn [map fst In]; [tauto|]. intros [->|Hu]; [tauto|]. destruct (IHu Hu); tauto. }
  apply Hc in Hin. destruct Hin as [->|Hin]; [rewrite key_eqb_refl in E; discriminate|tauto].
Qed.

Lemma dget_dremove_same {A} (m : mailbox A) k : Keys m -> dget key_eqb (dremove key_eqb m k) k = None.
Proof.
  unfold Keys. induction m as [|[k' v'] t IH]; intros H; cbn [dremove]; [reflexivity|]. inversion H; subst. destruct (key_eqb k k') eqn:E.
  - apply key_eqb_spec in E; subst.
    assert (Hn : forall u : mailbox A, ~ In k' (map fst u) -> dget key_eqb u k' = None).
    { induction u as [|[a b] u IHu]; cbn [dget map fst In]; intros Hu; [reflexivity|].
      destruct (key_eqb k' a) eqn:Ea; [apply key_eqb_spec in Ea; subst; tauto|apply IHu; tauto]. }
    apply Hn; assumption.
  - cbn [dget]. rewrite E. apply IH; assumption.
Qed.

Lemma keys_dremove {A} (m : mailbox A) k : Keys m -> Keys (dremove key_eqb m k).
Proof.
  unfold Keys. induction m as [|[k' v'] t IH]; intros H; cbn [dremove]; [constructor|]. inversion H; subst.
  destruct (key_eqb k k'); [assumption|]. cbn [map fst]. constructor; [|apply IH; assumption].
  intros Hin. assert (Hc : forall u : mailbox A, In k' (map fst (dremove key_eqb u k)) -> In k' (map fst u)).
  { induction u as [|[a b] u IHu]; cbn [dremove map fst In]; [tauto|]. destruct (key_eqb k a); cbn [map fst In]; tauto. }
  apply Hc in Hin. tauto.
Qed.

Definition OneOutstandingFrom {A} (m : mailbox A) (ops : list (msgop A)) : Prop :=
  forall pre post k, ops = pre ++ post ->
    (recv_count k pre <= List.length (boxed m k) + List.length (sent_on k pre) <= S (recv_count k pre))%nat.

Lemma run_msgs_from {A} : forall (ops : list (msgop A)) m, Keys m -> OneOutstandingFrom m ops ->
  exists out m', run_msgs ops m = Ok (out, m') /\ Keys m' /\
    forall k, received_on k out ++ boxed m' k = boxed m k ++ sent_on k ops /\ List.length (received_on k out) = recv_count k ops.
Proof.
  induction ops as [|[d t p|s t] ops IH]; intros m HK HO.
  - exists [], m. split; [reflexivity|]. split; [exact HK|]. intros k. split; [cbn; rewrite app_nil_r; reflexivity|reflexivity].
  - cbn [run_msgs]. unfold isend.
    assert (Hempty : boxed m (d, t) = []).
    { pose proof (HO [MSend d t p] ops (d, t) eq_refl) as H. cbn [recv_count sent_on] in H. rewrite key_eqb_refl in H. cbn [List.length] in H.
      destruct (boxed m (d, t)); [reflexivity|cbn in H; lia]. }
    assert (Hb : forall k, boxed (dset key_eqb m (d, t) p) k = boxed m k ++ (if key_eqb k (d, t) then [p] else [])).
    { intros k. destruct (key_eqb k (d, t)) eqn:E.
      - apply key_eqb_spec in E; subst. rewrite Hempty. unfold boxed. rewrite (dget_dset_same _ key_eqb_spec). reflexivity.
      - rewrite app_nil_r. unfold boxed. rewrite (dget_dset_other _ key_eqb_spec); [reflexivity|]. intros ->. rewrite key_eqb_refl in E. discriminate. }
    destruct (IH (dset key_eqb m (d, t) p) (keys_dset _ _ _ HK)) as [out [m' [E [HK' H]]]].
    { intros pre post k Epre. pose proof (HO (MSend d t p :: pre) post k ltac:(cbn; rewrite Epre; reflexivity)) as H.
      rewrite Hb, app_length. cbn [recv_count sent_on] in H. destruct (key_eqb k (d, t)); cbn [List.length] in *; lia. }
    exists out, m'. split; [exact E|]. split; [exact HK'|]. intros k. destruct (H k) as [H1 H2]. split; [|exact H2].
    rewrite H1, Hb, <- app_assoc. cbn [sent_on]. destruct (key_eqb k (d, t)); reflexivity.
  - cbn [run_msgs]. unfold irecv_wait, irecv_test, dmem.
    pose proof (HO [MRecv s t] ops (s, t) eq_refl) as H. cbn [recv_count sent_on] in H. rewrite key_eqb_refl in H. cbn [List.length] in H.
    destruct (dget key_eqb m (s, t)) as [v|] eqn:Ev; [|unfold boxed in H; rewrite Ev in H; cbn in H; lia].
    cbn [bind fst snd].
    assert (Hb : forall k, boxed m k = (if key_eqb k (s, t) then [v] else []) ++ boxed (dremove key_eqb m (s, t)) k).
    { intros k. destruct (key_eqb k (s, t)) eqn:E.
      - apply key_eqb_spec in E; subst. unfold boxed. rewrite Ev, dget_dremove_same by exact HK. reflexivity.
      - unfold boxed. rewrite (dget_dremove_other _ key_eqb_spec); [reflexivity|]. intros ->. rewrite key_eqb_refl in E. discriminate. }
    destruct (IH (dremove key_eqb m (s, t)) (keys_dremove _ _ HK)) as [out [m' [E [HK' HH]]]].
    { intros pre post k Epre. pose proof (HO (MRecv s t :: pre) post k ltac:(cbn; rewrite Epre; reflexivity)) as H'.
      rewrite Hb, app_length in H'. cbn [recv_count sent_on] in H'. destruct (key_eqb k (s, t)); cbn [List.length] in *; lia. }
    rewrite E. cbn [bind fst snd]. exists (((s, t), v) :: out), m'. split; [reflexivity|]. split; [exact HK'|].
    intros k. destruct (HH k) as [H1 H2]. cbn [received_on recv_count sent_on]. rewrite (Hb k).
    destruct (key_eqb k (s, t)); cbn [app List.length]; rewrite ?H1, ?H2; split; reflexivity.
Qed.

Theorem run_msgs_spec {A} (ops : list (msgop A)) : OneOutstanding ops ->
  exists out m', run_msgs ops [] = Ok (out, m') /\
    forall k, exists rest, sent_on k ops = received_on k out ++ rest /\ List.length (received_on k out) = recv_count k ops /\
      (List.length rest <= 1)%nat /\ rest = boxed m' k.
Proof.
  intros H. destruct (run_msgs_from ops [] (NoDup_nil _)) as [out [m' [E [_ HH]]]].
  - intros pre post k Ep. cbn. apply (H pre post k Ep).
  - exists out, m'. split; [exact E|]. intros k. destruct (HH k) as [H1 H2]. exists (boxed m' k). split; [symmetry; exact H1|].
    split; [exact H2|]. split; [|reflexivity]. unfold boxed. destruct (dget key_eqb m' k); cbn; lia.
Qed.

Theorem scope_live s name ranks g : vm_dummy s = false -> vm_comm s = Ok (CRanks g) ->
  dget String.eqb (vm_subs s) name = None -> ranks <> [] -> Forall (fun r => 0 <= r < zlen g) ranks ->
  exists sub, map_res (py_index g) ranks = Ok sub /\
    run (PScoped name ranks PObserve) s = (None, s, [if existsb (Z.eqb (vm_me s)) sub then CRanks sub else CNull]).
Proof.
  intros Hd Hc Hn Hr HF. destruct (create_live g ranks HF) as [sub [E Hcr]]. exists sub. split; [exact E|].
  assert (Hself : forall n, env_find (vm_subs s) n = dget String.eqb (vm_subs s) n).
  { intros n. generalize (vm_subs s) as u. induction u as [|[k v] u IH]; [reflexivity|]. rewrite env_find_cons. cbn [dget]. rewrite IH. reflexivity. }
  rewrite (run_meaning (PScoped name ranks PObserve) s (vm_subs s) Hd Hself).
  - cbn [meaning]. destruct ranks as [|r rs]; [congruence|]. rewrite Hc, (Hcr (vm_me s)). rewrite Hself, Hn. reflexivity.
  - cbn [EmptyScopesFresh]. split; [intros H0; congruence|exact I].
Qed.

Theorem run_restores p s : vm_dummy s = false -> EmptyScopesFresh (map fst (vm_subs s)) p ->
  run p s = (fst (meaning (vm_me s) (vm_default s) p (vm_subs s) (vm_comm s)), s,
             snd (meaning (vm_me s) (vm_default s) p (vm_subs s) (vm_comm s))).
Proof.
  intros Hd HE. rewrite (run_meaning p s (vm_subs s) Hd); [| |exact HE].
  - destruct (meaning _ _ _ _ _); reflexivity.
  - intros n. generalize (vm_subs s) as u. induction u as [|[k v] u IH]; [reflexivity|]. rewrite env_find_cons. cbn [dget]. rewrite IH. reflexivity.
Qed.
