(** Proofs about re-indexing coordinates: when the exchange can always complete. *)
From Verif Require Import Py Lib Spec PartitionModel DimensionModel DistModel ReindexModel ReindexSpec ReindexProofs.
Open Scope Z_scope.

Definition served (p : phase) : bool := match p with Serve _ | Stopped => true | _ => false end.
Definition serving (p : phase) : bool := match p with Serve _ | RootServe _ _ | RootCheck _ _ => true | _ => false end.
Definition fin_of (p : phase) : list nat := match p with RootServe _ f | RootCheck _ f => f | _ => [] end.

Lemma steps_trans lossy c a b d : steps lossy c a b -> steps lossy c b d -> steps lossy c a d.
Proof. induction 1 as [|x y z H1 _ IH]; [exact (fun H => H)|]. intros H. apply steps_cons with y; [exact H1|exact (IH H)]. Qed.
Lemma steps_one lossy c s r s' : (r < size c)%nat -> In s' (moves lossy c s r) -> steps lossy c s s'.
Proof. intros H1 H2. apply steps_cons with s'; [apply step_rank with r; assumption|apply steps_refl]. Qed.

Section Protocol.
  Variables (lossy : bool) (c : setup) (owner : Z -> nat) (newv : Z -> Z).
  Variable G : GoodSetup c owner newv.

  Definition Inv2 (s : state) : Prop :=
    (forall x, s_finished s x = true -> (0 < x < size c)%nat /\ served (s_phase s x) = true) /\
    (forall x, In x (fin_of (s_phase s 0%nat)) -> (0 < x < size c)%nat /\ served (s_phase s x) = true) /\
    (forall x, (0 < x < size c)%nat -> served (s_phase s x) = true -> s_phase s 0%nat <> Stopped -> s_finished s x = true \/ In x (fin_of (s_phase s 0%nat))) /\
    (s_phase s 0%nat <> Stopped -> forall x, s_success s x = false) /\
    (s_phase s 0%nat = Stopped -> forall x, (0 < x < size c)%nat -> served (s_phase s x) = true /\ s_success s x = true) /\
    (forall x, (0 < x < size c)%nat -> s_phase s x = Stopped -> s_phase s 0%nat = Stopped).

  Lemma inv2_start : Inv2 start.
  Proof.
    split; [discriminate|]. split; [intros x []|]. split; [discriminate|]. split; [reflexivity|]. split; [discriminate|]. discriminate.
  Qed.

  (** A change of one phase that has nothing to do with finishing. *)
  Lemma inv2_change s s' r q : Inv2 s -> s_phase s' = upd (s_phase s) r q -> s_finished s' = s_finished s -> s_success s' = s_success s ->
    s_phase s r <> Stopped -> q <> Stopped -> served q = served (s_phase s r) -> (r = 0%nat -> fin_of q = fin_of (s_phase s 0%nat)) -> Inv2 s'.
  Proof.
    intros [A [B [C [D [E F]]]]] HP HF HS N1 N2 Hsv H0.
    assert (Sv : forall x, served (s_phase s' x) = served (s_phase s x)).
    { intros x. rewrite HP. destruct (Nat.eq_dec x r) as [->|N]; [rewrite upd_same; exact Hsv|rewrite upd_other by exact N; reflexivity]. }
    assert (St : forall x, s_phase s' x = Stopped <-> s_phase s x = Stopped).
    { intros x. rewrite HP. destruct (Nat.eq_dec x r) as [->|N]; [rewrite upd_same; split; intros H; contradiction|rewrite upd_other by exact N; reflexivity]. }
    assert (Fi : fin_of (s_phase s' 0%nat) = fin_of (s_phase s 0%nat)).
    { rewrite HP. destruct (Nat.eq_dec 0 r) as [<-|N]; [rewrite upd_same; apply H0; reflexivity|rewrite upd_other by exact N; reflexivity]. }
    unfold Inv2. rewrite HF, HS, Fi. repeat split.
    - apply (A x H).
    - apply (A x H).
    - rewrite Sv. apply (A x H).
    - apply (B x H).
    - apply (B x H).
    - rewrite Sv. apply (B x H).
    - intros x Hx Hs Hn. rewrite Sv in Hs. rewrite St in Hn. apply C; assumption.
    - rewrite St. exact D.
    - rewrite Sv. rewrite St in H. apply (E H x H1).
    - rewrite St in H. apply (E H x H1).
    - intros x Hx. rewrite !St. apply F. exact Hx.
  Qed.

  Lemma inv2_poll s r d q s' : Inv lossy c owner newv s -> Inv2 s -> (r < size c)%nat -> In s' (poll lossy c s r d q) ->
    (forall o, question c q r o = question c (s_phase s r) r o) -> Local c owner newv r q (s_new s r) ->
    s_phase s r <> Stopped -> q <> Stopped -> served q = served (s_phase s r) -> (r = 0%nat -> fin_of q = fin_of (s_phase s 0%nat)) -> Inv2 s'.
  Proof.
    intros HI HI2 Hr Hin HQ HL N1 N2 Hsv H0.
    pose proof (inv_poll lossy c owner newv G s r d q s' HI (fun _ => HL) HQ Hin) as HI'.
    assert (HP : s_phase s' = upd (s_phase s) r q /\ s_finished s' = s_finished s /\ s_success s' = s_success s).
    { unfold poll in Hin. destruct Hin as [<-|Hin]; [repeat split|]. destruct (s_search s d r) as [|v rest]; [destruct Hin|].
      destruct Hin as [Hs'|Hin]; [|destruct lossy; [destruct Hin as [<-|[]]; repeat split|destruct Hin]].
      destruct (v <? 0).
      { exfalso. destruct HI' as [L _]. specialize (L r Hr). rewrite <- Hs' in L. cbn [s_phase set_phase] in L. rewrite upd_same in L. exact L. }
      destruct (uidx_of c r) as [|e l].
      { exfalso. destruct HI' as [L _]. specialize (L r Hr). rewrite <- Hs' in L. cbn [s_phase set_phase] in L. rewrite upd_same in L. exact L. }
      rewrite <- Hs'. repeat split. }
    destruct HP as [HP [HF HS]]. apply (inv2_change s s' r q); assumption.
  Qed.

  Lemma inv2_moves s r s' : Inv lossy c owner newv s -> Inv2 s -> (r < size c)%nat -> In s' (moves lossy c s r) -> Inv2 s'.
  Proof.
    intros HI HI2 Hr Hin. pose proof (inv_moves lossy c owner newv G s r s' HI Hr Hin) as HI'. pose proof HI as [L _]. pose proof (L r Hr) as Lr.
    destruct HI' as [L' _]. specialize (L' r Hr).
    unfold moves in Hin. destruct (s_phase s r) as [k|k ds|k os acc|ds|ds fin|cs fin| |e] eqn:Ep.
    - destruct (nth_error (cindex_of c r) k) as [ii|] eqn:Eii.
      + destruct (dget Z.eqb (uidx_of c r) ii) as [v|].
        * destruct Hin as [<-|[]]. apply (inv2_change s _ r (Fill (S k)) HI2); try reflexivity; try (rewrite Ep; reflexivity || discriminate); try discriminate; intros ->; rewrite Ep; reflexivity.
        * destruct (Nat.eqb_spec r 0) as [->|Nr].
          { exfalso. destruct Hin as [<-|[]]. cbn [s_phase set_phase] in L'. rewrite upd_same in L'. exact L'. }
          destruct (ii <? 0). { exfalso. destruct Hin as [<-|[]]. cbn [s_phase set_phase] in L'. rewrite upd_same in L'. exact L'. }
          destruct Hin as [<-|[]]. destruct (ask_spec r ii (overlaps_of c r) s (gs_nodup _ _ _ G r)) as [A [_ [_ [D [E _]]]]]. cbv zeta in A, D, E.
          set (s1 := fold_left _ (overlaps_of c r) s) in *.
          apply (inv2_change s _ r (Poll k (destinations_of c r)) HI2); cbn [s_phase s_finished s_success set_phase]; try congruence; try discriminate; rewrite Ep; try discriminate; reflexivity.
      + destruct (Nat.eqb_spec r 0) as [->|Nr]; destruct Hin as [<-|[]].
        * apply (inv2_change s _ 0%nat (RootServe (destinations_of c 0) []) HI2); try reflexivity; try (rewrite Ep; reflexivity || discriminate); try discriminate; intros _; rewrite Ep; reflexivity.
        * destruct HI2 as [A [B [C [D [E F]]]]].
          assert (N0 : (0 <> r)%nat) by lia.
          assert (Ns : s_phase s 0%nat <> Stopped). { intros H0. destruct (E H0 r) as [H1 _]; [lia|]. rewrite Ep in H1. discriminate. }
          unfold Inv2. cbn [s_phase s_finished s_success set_phase put_finished]. rewrite !(upd_other _ r _ 0%nat) by exact N0.
          assert (Sv : forall x, served (s_phase s x) = true -> served (upd (s_phase s) r (Serve []) x) = true).
          { intros x Hx. destruct (Nat.eq_dec x r) as [->|N]; [rewrite upd_same; reflexivity|rewrite upd_other by exact N; exact Hx]. }
          split; [|split; [|split; [|split; [|split]]]].
          -- intros x Hx. destruct (Nat.eq_dec x r) as [->|N]; [rewrite upd_same; split; [lia|reflexivity]|]. rewrite upd_other in Hx by exact N. destruct (A x Hx). split; [assumption|apply Sv; assumption].
          -- intros x Hx. destruct (B x Hx). split; [assumption|apply Sv; assumption].
          -- intros x Hx Hs _. destruct (Nat.eq_dec x r) as [->|N]; [left; apply upd_same|]. rewrite upd_other in Hs by exact N. rewrite upd_other by exact N. apply C; assumption.
          -- exact D.
          -- intros H0. contradiction.
          -- intros x Hx Hs. destruct (Nat.eq_dec x r) as [->|N]; [rewrite upd_same in Hs; discriminate|rewrite upd_other in Hs by exact N; exact (F x Hx Hs)].
    - destruct Lr as [Nr Lr]. destruct ds as [|d ds].
      + destruct Hin as [<-|[]]. apply (inv2_change s _ r (Wait k (overlaps_of c r) None) HI2); try reflexivity; try (rewrite Ep; reflexivity || discriminate); try discriminate; intros ->; contradiction.
      + apply (inv2_poll s r d (Poll k ds) s' HI HI2 Hr Hin); try (rewrite Ep; reflexivity || discriminate); try discriminate; first [exact Lr | split; assumption | intros ->; contradiction | intros _; rewrite Ep; reflexivity].
    - pose proof Lr as [Nr _]. destruct os as [|o os].
      + destruct acc as [v|].
        * destruct Hin as [<-|[]]. apply (inv2_change s _ r (Fill (S k)) HI2); try reflexivity; try (rewrite Ep; reflexivity || discriminate); try discriminate; intros ->; contradiction.
        * exfalso. destruct Hin as [<-|[]]. cbn [s_phase set_phase] in L'. rewrite upd_same in L'. exact L'.
      + destruct (s_found s o r) as [|v rest]; [destruct Hin|]. destruct Hin as [<-|[]].
        apply (inv2_change s _ r (Wait k os (if v =? empty_value then acc else Some v)) HI2); try reflexivity; try (rewrite Ep; reflexivity || discriminate); try discriminate; intros ->; contradiction.
    - pose proof Lr as [Nr Hn]. destruct ds as [|d ds].
      + destruct Hin as [<-|Hin].
        * apply (inv2_change s _ r (Serve (destinations_of c r)) HI2); try reflexivity; try (rewrite Ep; reflexivity || discriminate); try discriminate; intros ->; contradiction.
        * destruct (s_success s r) eqn:Es; [|destruct Hin]. destruct Hin as [<-|[]]. destruct HI2 as [A [B [C [D [E F]]]]].
          assert (S0 : s_phase s 0%nat = Stopped).
          { destruct (s_phase s 0%nat) eqn:E0; try reflexivity; rewrite (D ltac:(discriminate) r) in Es; discriminate. }
          unfold Inv2. cbn [s_phase s_finished s_success set_phase]. rewrite !(upd_other _ r _ 0%nat) by lia. rewrite S0 in *.
          assert (Sv : forall x, served (s_phase s x) = true -> served (upd (s_phase s) r Stopped x) = true).
          { intros x Hx. destruct (Nat.eq_dec x r) as [->|N]; [rewrite upd_same; reflexivity|rewrite upd_other by exact N; exact Hx]. }
          split; [|split; [|split; [|split; [|split]]]].
          -- intros x Hx. destruct (A x Hx). split; [assumption|apply Sv; assumption].
          -- intros x [].
          -- intros x _ _ N. contradiction.
          -- intros N. contradiction.
          -- intros _ x Hx. destruct (E eq_refl x Hx). split; [apply Sv; assumption|assumption].
          -- reflexivity.
      + apply (inv2_poll s r d (Serve ds) s' HI HI2 Hr Hin); try (rewrite Ep; reflexivity || discriminate); try discriminate; first [exact Lr | split; assumption | intros ->; contradiction | intros _; rewrite Ep; reflexivity].
    - pose proof Lr as [E0 Hn]. subst r. destruct ds as [|d ds].
      + destruct Hin as [<-|[]]. apply (inv2_change s _ 0%nat (RootCheck (filter (fun x => negb (existsb (Nat.eqb x) fin)) (seq 1 (size c - 1))) fin) HI2); try reflexivity; try (rewrite Ep; reflexivity || discriminate); try discriminate; intros _; rewrite Ep; reflexivity.
      + apply (inv2_poll s 0%nat d (RootServe ds fin) s' HI HI2 Hr Hin); try (rewrite Ep; reflexivity || discriminate); try discriminate; first [exact Lr | split; assumption | intros ->; contradiction | intros _; rewrite Ep; reflexivity].
    - pose proof Lr as [E0 Hn]. subst r. destruct cs as [|x cs].
      + destruct (forallb (fun x => existsb (Nat.eqb x) fin) (seq 1 (size c - 1))) eqn:Ef; destruct Hin as [<-|[]].
        * destruct HI2 as [A [B [C [D [E F]]]]]. rewrite Ep in B, F. cbn [fin_of] in B.
          unfold Inv2. cbn [s_phase s_finished s_success set_phase put_success]. rewrite upd_same.
          assert (Hall : forall x, (0 < x < size c)%nat -> served (s_phase s x) = true).
          { intros x Hx. rewrite forallb_forall in Ef. apply B. apply existsb_nat. apply Ef. apply in_seq. lia. }
          split; [|split; [|split; [|split; [|split]]]].
          -- intros x Hx. destruct (A x Hx) as [H1 H2]. split; [exact H1|]. rewrite upd_other by lia. exact H2.
          -- intros x [].
          -- intros x _ _ N. contradiction.
          -- intros N. contradiction.
          -- intros _ x Hx. rewrite upd_other by lia. split; [apply Hall; exact Hx|]. destruct (Nat.eqb_spec x 0); [lia|]. cbn [negb andb]. apply Nat.ltb_lt. lia.
          -- reflexivity.
        * apply (inv2_change s _ 0%nat (RootServe (destinations_of c 0) fin) HI2); try reflexivity; try (rewrite Ep; reflexivity || discriminate); try discriminate; intros _; rewrite Ep; reflexivity.
      + destruct Hin as [<-|Hin].
        * apply (inv2_change s _ 0%nat (RootCheck cs fin) HI2); try reflexivity; try (rewrite Ep; reflexivity || discriminate); try discriminate; intros _; rewrite Ep; reflexivity.
        * destruct (s_finished s x) eqn:Ex; [|destruct Hin]. destruct Hin as [<-|[]]. destruct HI2 as [A [B [C [D [E F]]]]].
          rewrite Ep in B, C, D, F. cbn [fin_of] in B, C.
          unfold Inv2. cbn [s_phase s_finished s_success set_phase put_finished]. rewrite upd_same. cbn [fin_of].
          assert (Hp : forall y, (0 < y < size c)%nat -> upd (s_phase s) 0 (RootCheck cs (x :: fin)) y = s_phase s y) by (intros y Hy; apply upd_other; lia).
          split; [|split; [|split; [|split; [|split]]]].
          -- intros y Hy. destruct (Nat.eq_dec y x) as [->|N]; [rewrite upd_same in Hy; discriminate|]. rewrite upd_other in Hy by exact N. destruct (A y Hy) as [H1 H2]. split; [exact H1|]. rewrite Hp by exact H1. exact H2.
          -- intros y [<-|Hy]; [destruct (A x Ex) as [H1 H2]|destruct (B y Hy) as [H1 H2]]; (split; [exact H1|rewrite Hp by exact H1; exact H2]).
          -- intros y Hy Hs _. rewrite Hp in Hs by exact Hy. destruct (Nat.eq_dec y x) as [->|N]; [right; left; reflexivity|]. rewrite upd_other by exact N.
             destruct (C y Hy Hs ltac:(discriminate)) as [H|H]; [left; exact H|right; right; exact H].
          -- intros _. apply D. discriminate.
          -- discriminate.
          -- intros y Hy Hs. rewrite Hp in Hs by exact Hy. pose proof (F y Hy Hs). discriminate.
    - destruct Hin.
    - destruct Hin.
  Qed.

  Definition Good (s : state) : Prop := Inv lossy c owner newv s /\ Inv2 s.
  Lemma good_steps s s' : steps lossy c s s' -> Good s -> Good s'.
  Proof.
    induction 1 as [|s s1 s2 H1 _ IH]; [exact (fun H => H)|]. intros [H2 H3]. apply IH. destruct H1 as [s r s' Hr Hin].
    split; [exact (inv_moves lossy c owner newv G s r s' H2 Hr Hin)|exact (inv2_moves s r s' H2 H3 Hr Hin)].
  Qed.
  Lemma good_reach s : steps lossy c start s -> Good s.
  Proof. intros H. apply (good_steps start s H). split; [apply inv_start|apply inv2_start]. Qed.
End Protocol.
