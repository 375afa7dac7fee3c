(** Proofs about re-indexing coordinates: with no message lost and the ranks on
    levels, the exchange can complete from every state it reaches. *)
From Verif Require Import Py Lib Spec PartitionModel DimensionModel DistModel ReindexModel ReindexSpec ReindexProofs ReindexLive.
Open Scope Z_scope.

Section Complete.
  Variables (c : setup) (owner : Z -> nat) (newv : Z -> Z).
  Variable G : GoodSetup c owner newv.
  Notation stp := (steps false c).
  Notation good := (Good false c owner newv).

  Lemma go s s1 s2 : stp s s1 -> stp s1 s2 -> stp s s2.
  Proof. apply steps_trans. Qed.

  (** Nothing but the phase of one rank differs. *)
  Definition Only (o : nat) (s s' : state) : Prop :=
    (forall x, x <> o -> s_phase s' x = s_phase s x) /\ (forall a b, s_search s' a b = s_search s a b) /\
    (forall a b, s_found s' a b = s_found s a b) /\ (forall x, s_finished s' x = s_finished s x) /\ (forall x, s_success s' x = s_success s x).
  Lemma only_refl o s : Only o s s.
  Proof. repeat split. Qed.
  Lemma only_trans o s s1 s2 : Only o s s1 -> Only o s1 s2 -> Only o s s2.
  Proof.
    intros [A [B [C [D E]]]] [A' [B' [C' [D' E']]]]. split; [intros x Hx; rewrite A', A by exact Hx; reflexivity|].
    split; [intros; rewrite B', B; reflexivity|]. split; [intros; rewrite C', C; reflexivity|]. split; [intros; rewrite D', D; reflexivity|intros; rewrite E', E; reflexivity].
  Qed.
  Lemma only_set s o p : Only o s (set_phase s o p).
  Proof. split; [intros x Hx; cbn [s_phase set_phase]; apply upd_other; exact Hx|repeat split]. Qed.

  Lemma set_step s o p : (o < size c)%nat -> In (set_phase s o p) (moves false c s o) ->
    exists s', stp s s' /\ s_phase s' o = p /\ Only o s s'.
  Proof.
    intros Ho Hin. exists (set_phase s o p). split; [apply steps_one with o; assumption|]. split; [cbn [s_phase set_phase]; apply upd_same|apply only_set].
  Qed.

  (** * Moving through a round without seeing anything *)

  Lemma child_skip o : (o < size c)%nat -> forall pre ds s, s_phase s o = Serve (pre ++ ds) -> exists s', stp s s' /\ s_phase s' o = Serve ds /\ Only o s s'.
  Proof.
    intros Ho. induction pre as [|d pre IH]; intros ds s Hp.
    - exists s. split; [apply steps_refl|]. split; [exact Hp|apply only_refl].
    - destruct (set_step s o (Serve (pre ++ ds)) Ho) as [s1 [H1 [H2 H3]]]; [unfold moves; rewrite Hp; left; reflexivity|].
      destruct (IH ds s1 H2) as [s2 [H4 [H5 H6]]]. exists s2. split; [exact (go _ _ _ H1 H4)|]. split; [exact H5|exact (only_trans o _ _ _ H3 H6)].
  Qed.

  Lemma child_to o d : (o < size c)%nat -> In d (destinations_of c o) -> forall ds s, s_phase s o = Serve ds ->
    exists s' t, stp s s' /\ s_phase s' o = Serve (d :: t) /\ Only o s s'.
  Proof.
    intros Ho Hd ds s Hp. destruct (in_split d (destinations_of c o) Hd) as [pre [t Et]].
    destruct (child_skip o Ho ds [] s) as [s1 [H1 [H2 H3]]]; [rewrite app_nil_r; exact Hp|].
    destruct (set_step s1 o (Serve (destinations_of c o)) Ho) as [s2 [H4 [H5 H6]]]; [unfold moves; rewrite H2; left; reflexivity|].
    rewrite Et in H5. destruct (child_skip o Ho pre (d :: t) s2 H5) as [s3 [H7 [H8 H9]]].
    exists s3, t. split; [exact (go _ _ _ H1 (go _ _ _ H4 H7))|]. split; [exact H8|]. exact (only_trans o _ _ _ H3 (only_trans o _ _ _ H6 H9)).
  Qed.

  Lemma root_skip fin : (0 < size c)%nat -> forall pre ds s, s_phase s 0%nat = RootServe (pre ++ ds) fin -> exists s', stp s s' /\ s_phase s' 0%nat = RootServe ds fin /\ Only 0 s s'.
  Proof.
    intros Ho. induction pre as [|d pre IH]; intros ds s Hp.
    - exists s. split; [apply steps_refl|]. split; [exact Hp|apply only_refl].
    - destruct (set_step s 0%nat (RootServe (pre ++ ds) fin) Ho) as [s1 [H1 [H2 H3]]]; [unfold moves; rewrite Hp; left; reflexivity|].
      destruct (IH ds s1 H2) as [s2 [H4 [H5 H6]]]. exists s2. split; [exact (go _ _ _ H1 H4)|]. split; [exact H5|exact (only_trans 0 _ _ _ H3 H6)].
  Qed.

  Lemma check_skip fin : (0 < size c)%nat -> forall cs s, s_phase s 0%nat = RootCheck cs fin -> exists s', stp s s' /\ s_phase s' 0%nat = RootCheck [] fin /\ Only 0 s s'.
  Proof.
    intros Ho. induction cs as [|d cs IH]; intros s Hp.
    - exists s. split; [apply steps_refl|]. split; [exact Hp|apply only_refl].
    - destruct (set_step s 0%nat (RootCheck cs fin) Ho) as [s1 [H1 [H2 H3]]]; [unfold moves; rewrite Hp; left; reflexivity|].
      destruct (IH s1 H2) as [s2 [H4 [H5 H6]]]. exists s2. split; [exact (go _ _ _ H1 H4)|]. split; [exact H5|exact (only_trans 0 _ _ _ H3 H6)].
  Qed.

  (** The root starts a round of checking. *)
  Lemma root_check s ds fin : (0 < size c)%nat -> s_phase s 0%nat = RootServe ds fin ->
    exists s', stp s s' /\ s_phase s' 0%nat = RootCheck (filter (fun x => negb (existsb (Nat.eqb x) fin)) (seq 1 (size c - 1))) fin /\ Only 0 s s'.
  Proof.
    intros Ho Hp. destruct (root_skip fin Ho ds [] s) as [s1 [H1 [H2 H3]]]; [rewrite app_nil_r; exact Hp|].
    destruct (set_step s1 0%nat (RootCheck (filter (fun x => negb (existsb (Nat.eqb x) fin)) (seq 1 (size c - 1))) fin) Ho) as [s2 [H4 [H5 H6]]]; [unfold moves; rewrite H2; left; reflexivity|].
    exists s2. split; [exact (go _ _ _ H1 H4)|]. split; [exact H5|exact (only_trans 0 _ _ _ H3 H6)].
  Qed.

  (** A new round of serving, while some child has not finished. *)
  Lemma root_again s cs fin y : (0 < size c)%nat -> s_phase s 0%nat = RootCheck cs fin -> (0 < y < size c)%nat -> ~ In y fin ->
    exists s', stp s s' /\ s_phase s' 0%nat = RootServe (destinations_of c 0) fin /\ Only 0 s s'.
  Proof.
    intros Ho Hp Hy Hn. destruct (check_skip fin Ho cs s Hp) as [s1 [H1 [H2 H3]]].
    destruct (set_step s1 0%nat (RootServe (destinations_of c 0) fin) Ho) as [s2 [H4 [H5 H6]]].
    { unfold moves. rewrite H2. destruct (forallb (fun x => existsb (Nat.eqb x) fin) (seq 1 (size c - 1))) eqn:Ef; [|left; reflexivity].
      exfalso. rewrite forallb_forall in Ef. apply Hn. apply existsb_nat. apply Ef. apply in_seq. lia. }
    exists s2. split; [exact (go _ _ _ H1 H4)|]. split; [exact H5|exact (only_trans 0 _ _ _ H3 H6)].
  Qed.

  Lemma root_to s d y : (0 < size c)%nat -> In d (destinations_of c 0) -> serving (s_phase s 0%nat) = true -> (forall ds, s_phase s 0%nat <> Serve ds) ->
    (0 < y < size c)%nat -> ~ In y (fin_of (s_phase s 0%nat)) ->
    exists s' t fin, stp s s' /\ s_phase s' 0%nat = RootServe (d :: t) fin /\ Only 0 s s'.
  Proof.
    intros Ho Hd Hs Nc Hy Hn. destruct (in_split d (destinations_of c 0) Hd) as [pre [t Et]].
    assert (Hc : exists s1 cs fin, stp s s1 /\ s_phase s1 0%nat = RootCheck cs fin /\ Only 0 s s1 /\ ~ In y fin).
    { destruct (s_phase s 0%nat) as [k|k ds|k os acc|ds|ds fin|cs fin| |e] eqn:Ep; try discriminate.
      - exfalso. exact (Nc ds eq_refl).
      - destruct (root_check s ds fin Ho Ep) as [s1 [H1 [H2 H3]]]. exists s1, (filter (fun x => negb (existsb (Nat.eqb x) fin)) (seq 1 (size c - 1))), fin. split; [exact H1|]. split; [exact H2|]. split; [exact H3|exact Hn].
      - exists s, cs, fin. split; [apply steps_refl|]. split; [exact Ep|]. split; [apply only_refl|exact Hn]. }
    destruct Hc as [s1 [cs [fin [H1 [H2 [H3 H4]]]]]].
    destruct (root_again s1 cs fin y Ho H2 Hy H4) as [s2 [H5 [H6 H7]]]. rewrite Et in H6.
    destruct (root_skip fin Ho pre (d :: t) s2 H6) as [s3 [H8 [H9 H10]]].
    exists s3, t, fin. split; [exact (go _ _ _ H1 (go _ _ _ H5 H8))|]. split; [exact H9|]. exact (only_trans 0 _ _ _ H3 (only_trans 0 _ _ _ H7 H10)).
  Qed.

  (** * What the others may do meanwhile: those who serve go on serving *)

  Definition Frame (r : nat) (s s' : state) : Prop :=
    forall x, x <> r -> s_phase s' x = s_phase s x \/ (serving (s_phase s x) = true /\ serving (s_phase s' x) = true).
  Lemma frame_refl r s : Frame r s s.
  Proof. intros x _. left. reflexivity. Qed.
  Lemma frame_trans r s s1 s2 : Frame r s s1 -> Frame r s1 s2 -> Frame r s s2.
  Proof.
    intros A B x Hx. destruct (A x Hx) as [E|[H1 H2]], (B x Hx) as [E'|[H3 H4]].
    - left. congruence.
    - right. rewrite <- E. split; assumption.
    - right. rewrite E'. split; assumption.
    - right. split; assumption.
  Qed.
  Lemma frame_serving r s s' x : Frame r s s' -> x <> r -> serving (s_phase s x) = true -> serving (s_phase s' x) = true.
  Proof. intros A Hx H. destruct (A x Hx) as [E|[_ E]]; [rewrite E; exact H|exact E]. Qed.
  Lemma only_frame r s s' : Only r s s' -> Frame r s s'.
  Proof. intros [A _] x Hx. left. apply A. exact Hx. Qed.

  (** A rank that serves answers the question put to it. *)
  Lemma reply s r o k os acc : good s -> (r < size c)%nat -> s_phase s r = Wait k (o :: os) acc -> serving (s_phase s o) = true ->
    exists s', stp s s' /\ s_phase s' r = Wait k (o :: os) acc /\ s_found s' o r <> [] /\ Frame r s s'.
  Proof.
    intros HG Hr Hp Hs. destruct HG as [[L C] I2]. pose proof (L r Hr) as Lr. rewrite Hp in Lr.
    destruct Lr as [Nr [Hnew [ii [Hii [_ [Hincl [Hnd _]]]]]]].
    assert (Ho : In o (overlaps_of c r)) by (apply Hincl; left; reflexivity).
    destruct (gs_overlaps _ _ _ G r o Ho) as [Hos [Hne Hu]]. pose proof (proj2 (gs_dest _ _ _ G r o) Ho) as Hd.
    destruct (gs_owner _ _ _ G r ii ltac:(apply nth_error_In with k; exact Hii)) as [Hpos _].
    pose proof (C r o) as Cro. rewrite Hp in Cro. unfold question in Cro. replace (existsb (Nat.eqb o) (o :: os)) with true in Cro by (symmetry; apply existsb_nat; left; reflexivity).
    rewrite Hii in Cro. destruct Cro as [[Hq Hf]|[[Hq Hf]|[Hl _]]]; [| |discriminate].
    2:{ exists s. split; [apply steps_refl|]. split; [exact Hp|]. split; [rewrite Hf; discriminate|apply frame_refl]. }
    (* the serving rank comes to look for [r] *)
    assert (Hround : exists s1 p, stp s s1 /\ Only o s s1 /\ serving p = true /\ (forall s'', In s'' (poll false c s1 o r p) -> In s'' (moves false c s1 o))).
    { destruct (Nat.eq_dec o 0) as [->|No].
      - destruct I2 as [A [B _]].
        destruct (root_to s r r ltac:(lia) Hd Hs) as [s1 [t [fin [H1 [H2 H3]]]]].
        { intros ds Ed. pose proof (L 0%nat ltac:(lia)) as L0. rewrite Ed in L0. destruct L0 as [L0 _]. contradiction. }
        { lia. }
        { intros Hin. destruct (B r Hin) as [_ H]. rewrite Hp in H. discriminate. }
        exists s1, (RootServe t fin). split; [exact H1|]. split; [exact H3|]. split; [reflexivity|]. intros s'' Hs''. unfold moves. rewrite H2. exact Hs''.
      - assert (Hds : exists ds, s_phase s o = Serve ds).
        { pose proof (L o Hos) as Lo. destruct (s_phase s o) as [k'|k' ds|k' os' acc'|ds|ds fin|cs fin| |e]; try discriminate; [exists ds; reflexivity| |]; destruct Lo as [Lo _]; contradiction. }
        destruct Hds as [ds Ep]. destruct (child_to o r Hos Hd ds s Ep) as [s1 [t [H1 [H2 H3]]]].
        exists s1, (Serve t). split; [exact H1|]. split; [exact H3|]. split; [reflexivity|]. intros s'' Hs''. unfold moves. rewrite H2. exact Hs''. }
    destruct Hround as [s1 [p [H1 [H3 [Hsp Hmv]]]]]. pose proof H3 as [P [Q [F _]]].
    assert (Hin : In (set_phase (put_found (put_search s1 r o []) o r (s_found s1 o r ++ [match dget Z.eqb (uidx_of c o) ii with Some x => x | None => empty_value end])%list) o p) (poll false c s1 o r p)).
    { unfold poll. rewrite (Q r o), Hq. right. left. destruct (Z.ltb_spec ii 0); [lia|]. destruct (uidx_of c o); [contradiction|]. reflexivity. }
    eexists. split; [exact (go _ _ _ H1 (steps_one false c s1 o _ Hos (Hmv _ Hin)))|].
    cbn [s_phase s_found set_phase put_found put_search]. split; [rewrite upd_other by congruence; rewrite P by congruence; exact Hp|].
    split; [rewrite upd2_same; destruct (s_found s1 o r); discriminate|].
    intros x Hx. cbn [s_phase set_phase put_found put_search]. destruct (Nat.eq_dec x o) as [->|N]; [right; split; [exact Hs|rewrite upd_same; exact Hsp]|left; rewrite upd_other by exact N; apply P; exact N].
  Qed.

  Lemma wait_all r k : (r < size c)%nat -> forall os acc s, good s -> s_phase s r = Wait k os acc -> (forall o, In o os -> serving (s_phase s o) = true) ->
    exists s', stp s s' /\ s_phase s' r = Fill (S k) /\ Frame r s s'.
  Proof.
    intros Hr. induction os as [|o os IH]; intros acc s HG Hp Hs.
    - pose proof HG as [[L _] _]. pose proof (L r Hr) as Lr. rewrite Hp in Lr. destruct Lr as [_ [_ [ii [_ [_ [_ [_ Hacc]]]]]]].
      destruct Hacc as [->|[_ []]]. eexists. split; [apply steps_one with r; [exact Hr|unfold moves; rewrite Hp; left; reflexivity]|].
      cbn [s_phase set_phase put_new]. split; [apply upd_same|]. intros x Hx. cbn [s_phase set_phase put_new]. left. apply upd_other. exact Hx.
    - destruct (reply s r o k os acc HG Hr Hp (Hs o ltac:(left; reflexivity))) as [s1 [H1 [H2 [H3 H4]]]].
      destruct (s_found s1 o r) as [|v rest] eqn:Ef; [contradiction|].
      assert (H5 : stp s1 (set_phase (put_found s1 o r rest) r (Wait k os (if v =? empty_value then acc else Some v)))).
      { apply steps_one with r; [exact Hr|]. unfold moves. rewrite H2, Ef. left. reflexivity. }
      set (s2 := set_phase _ _ _) in *.
      assert (F2 : Frame r s1 s2) by (intros x Hx; left; cbn [s2 s_phase set_phase put_found]; apply upd_other; exact Hx).
      assert (H6 : stp s s2) by exact (go _ _ _ H1 H5). pose proof (good_steps false c owner newv G s s2 H6 HG) as G2.
      assert (F02 : Frame r s s2) by exact (frame_trans r _ _ _ H4 F2).
      assert (Nor : forall o', In o' os -> o' <> r).
      { pose proof HG as [[L _] _]. pose proof (L r Hr) as Lr. rewrite Hp in Lr. destruct Lr as [_ [_ [ii [_ [_ [Hincl _]]]]]].
        intros o' Ho'. destruct (gs_overlaps _ _ _ G r o' ltac:(apply Hincl; right; exact Ho')) as [_ [N _]]. exact N. }
      destruct (IH _ s2 G2 ltac:(cbn [s2 s_phase set_phase]; apply upd_same)) as [s3 [H7 [H8 H9]]].
      { intros o' Ho'. apply (frame_serving r s s2 o' F02); [apply Nor; exact Ho'|apply Hs; right; exact Ho']. }
      exists s3. split; [exact (go _ _ _ H6 H7)|]. split; [exact H8|exact (frame_trans r _ _ _ F02 H9)].
  Qed.

  Lemma poll_all r k : (r < size c)%nat -> forall ds s, s_phase s r = Poll k ds -> exists s', stp s s' /\ s_phase s' r = Wait k (overlaps_of c r) None /\ Frame r s s'.
  Proof.
    intros Hr. induction ds as [|d ds IH]; intros s Hp.
    - destruct (set_step s r (Wait k (overlaps_of c r) None) Hr) as [s1 [H1 [H2 H3]]]; [unfold moves; rewrite Hp; left; reflexivity|].
      exists s1. split; [exact H1|]. split; [exact H2|apply only_frame; exact H3].
    - destruct (set_step s r (Poll k ds) Hr) as [s1 [H1 [H2 H3]]]; [unfold moves; rewrite Hp; left; reflexivity|].
      destruct (IH s1 H2) as [s2 [H4 [H5 H6]]]. exists s2. split; [exact (go _ _ _ H1 H4)|]. split; [exact H5|exact (frame_trans r _ _ _ (only_frame r _ _ H3) H6)].
  Qed.

  Lemma after_ask r k : (r < size c)%nat -> forall s, good s -> (exists ds, s_phase s r = Poll k ds) \/ (exists os acc, s_phase s r = Wait k os acc) ->
    (forall o, In o (overlaps_of c r) -> serving (s_phase s o) = true) -> exists s', stp s s' /\ s_phase s' r = Fill (S k) /\ Frame r s s'.
  Proof.
    intros Hr s HG Hp Hs.
    assert (Hw : exists s1 os acc, stp s s1 /\ s_phase s1 r = Wait k os acc /\ Frame r s s1).
    { destruct Hp as [[ds Hp]|[os [acc Hp]]].
      - destruct (poll_all r k Hr ds s Hp) as [s1 [H1 [H2 H3]]]. exists s1, (overlaps_of c r), None. repeat split; assumption.
      - exists s, os, acc. split; [apply steps_refl|]. split; [exact Hp|apply frame_refl]. }
    destruct Hw as [s1 [os [acc [H1 [H2 H3]]]]]. pose proof (good_steps false c owner newv G s s1 H1 HG) as G1.
    destruct (wait_all r k Hr os acc s1 G1 H2) as [s2 [H4 [H5 H6]]].
    { intros o Ho. pose proof G1 as [[L _] _]. pose proof (L r Hr) as Lr. rewrite H2 in Lr. destruct Lr as [_ [_ [ii [_ [_ [Hincl _]]]]]].
      apply (frame_serving r s s1 o H3); [|apply Hs; apply Hincl; exact Ho]. destruct (gs_overlaps _ _ _ G r o (Hincl o Ho)) as [_ [N _]]. exact N. }
    exists s2. split; [exact (go _ _ _ H1 H4)|]. split; [exact H5|exact (frame_trans r _ _ _ H3 H6)].
  Qed.

  (** A child all of whose questions go to serving ranks finishes. *)
  Lemma fill_child r : (r < size c)%nat -> r <> 0%nat -> forall n k s, (List.length (cindex_of c r) - k = n)%nat -> good s -> s_phase s r = Fill k ->
    (forall o, In o (overlaps_of c r) -> serving (s_phase s o) = true) -> exists s', stp s s' /\ s_phase s' r = Serve [] /\ Frame r s s'.
  Proof.
    intros Hr Nr. induction n as [|n IH]; intros k s Hn HG Hp Hs.
    - assert (En : nth_error (cindex_of c r) k = None) by (apply nth_error_None; lia).
      eexists. split; [apply steps_one with r; [exact Hr|unfold moves; rewrite Hp, En; destruct (Nat.eqb_spec r 0); [contradiction|left; reflexivity]]|].
      cbn [s_phase set_phase put_finished]. split; [apply upd_same|]. intros x Hx. left. cbn [s_phase set_phase put_finished]. apply upd_other. exact Hx.
    - destruct (nth_error (cindex_of c r) k) as [ii|] eqn:Eii; [|apply nth_error_None in Eii; lia].
      assert (Hone : exists s1, stp s s1 /\ s_phase s1 r = Fill (S k) /\ Frame r s s1).
      { destruct (dget Z.eqb (uidx_of c r) ii) as [v|] eqn:Ev.
        - eexists. split; [apply steps_one with r; [exact Hr|unfold moves; rewrite Hp, Eii, Ev; left; reflexivity]|].
          cbn [s_phase set_phase put_new]. split; [apply upd_same|]. intros x Hx. left. cbn [s_phase set_phase put_new]. apply upd_other. exact Hx.
        - destruct (gs_owner _ _ _ G r ii ltac:(apply nth_error_In with k; exact Eii)) as [Hpos _].
          destruct (ask_spec r ii (overlaps_of c r) s (gs_nodup _ _ _ G r)) as [A _]. cbv zeta in A.
          set (s0 := fold_left _ (overlaps_of c r) s) in *.
          assert (H1 : stp s (set_phase s0 r (Poll k (destinations_of c r)))).
          { apply steps_one with r; [exact Hr|]. unfold moves. rewrite Hp, Eii, Ev. destruct (Nat.eqb_spec r 0); [contradiction|]. destruct (Z.ltb_spec ii 0); [lia|]. left. reflexivity. }
          set (s1 := set_phase s0 r _) in *.
          assert (F1 : Frame r s s1) by (intros x Hx; left; cbn [s1 s_phase set_phase]; rewrite upd_other by exact Hx; rewrite A; reflexivity).
          destruct (after_ask r k Hr s1 (good_steps false c owner newv G s s1 H1 HG)) as [s2 [H2 [H3 H4]]].
          { left. exists (destinations_of c r). cbn [s1 s_phase set_phase]. apply upd_same. }
          { intros o Ho. destruct (gs_overlaps _ _ _ G r o Ho) as [_ [N _]]. apply (frame_serving r s s1 o F1 N). apply Hs. exact Ho. }
          exists s2. split; [exact (go _ _ _ H1 H2)|]. split; [exact H3|exact (frame_trans r _ _ _ F1 H4)]. }
      destruct Hone as [s1 [H1 [H2 H3]]].
      destruct (IH (S k) s1 ltac:(lia) (good_steps false c owner newv G s s1 H1 HG) H2) as [s2 [H4 [H5 H6]]].
      { intros o Ho. destruct (gs_overlaps _ _ _ G r o Ho) as [_ [N _]]. apply (frame_serving r s s1 o H3 N). apply Hs. exact Ho. }
      exists s2. split; [exact (go _ _ _ H1 H4)|]. split; [exact H5|exact (frame_trans r _ _ _ H3 H6)].
  Qed.

  Lemma finish_child r s : (r < size c)%nat -> r <> 0%nat -> good s -> served (s_phase s r) = false ->
    (forall o, In o (overlaps_of c r) -> serving (s_phase s o) = true) -> exists s', stp s s' /\ served (s_phase s' r) = true /\ Frame r s s'.
  Proof.
    intros Hr Nr HG Hp Hs.
    assert (Hf : exists s1 k, stp s s1 /\ s_phase s1 r = Fill k /\ Frame r s s1).
    { pose proof HG as [[L _] _]. pose proof (L r Hr) as Lr. destruct (s_phase s r) as [k|k ds|k os acc|ds|ds fin|cs fin| |e] eqn:Ep; try discriminate.
      - exists s, k. split; [apply steps_refl|]. split; [exact Ep|apply frame_refl].
      - destruct (after_ask r k Hr s HG ltac:(left; exists ds; exact Ep) Hs) as [s1 [H1 [H2 H3]]]. exists s1, (S k). repeat split; assumption.
      - destruct (after_ask r k Hr s HG ltac:(right; exists os, acc; exact Ep) Hs) as [s1 [H1 [H2 H3]]]. exists s1, (S k). repeat split; assumption.
      - destruct Lr as [Lr _]. contradiction.
      - destruct Lr as [Lr _]. contradiction.
      - destruct Lr. }
    destruct Hf as [s1 [k [H1 [H2 H3]]]].
    destruct (fill_child r Hr Nr _ k s1 eq_refl (good_steps false c owner newv G s s1 H1 HG) H2) as [s2 [H4 [H5 H6]]].
    { intros o Ho. destruct (gs_overlaps _ _ _ G r o Ho) as [_ [N _]]. apply (frame_serving r s s1 o H3 N). apply Hs. exact Ho. }
    exists s2. split; [exact (go _ _ _ H1 H4)|]. split; [rewrite H5; reflexivity|exact (frame_trans r _ _ _ H3 H6)].
  Qed.

  (** The root needs nobody. *)
  Lemma fill_root : (0 < size c)%nat -> forall n k s, (List.length (cindex_of c 0) - k = n)%nat -> good s -> s_phase s 0%nat = Fill k ->
    exists s', stp s s' /\ serving (s_phase s' 0%nat) = true /\ Frame 0 s s'.
  Proof.
    intros Hr. induction n as [|n IH]; intros k s Hn HG Hp.
    - assert (En : nth_error (cindex_of c 0) k = None) by (apply nth_error_None; lia).
      destruct (set_step s 0%nat (RootServe (destinations_of c 0) []) Hr) as [s1 [H1 [H2 H3]]]; [unfold moves; rewrite Hp, En; left; reflexivity|].
      exists s1. split; [exact H1|]. split; [rewrite H2; reflexivity|apply only_frame; exact H3].
    - destruct (nth_error (cindex_of c 0) k) as [ii|] eqn:Eii; [|apply nth_error_None in Eii; lia].
      destruct (gs_owner _ _ _ G 0%nat ii ltac:(apply nth_error_In with k; exact Eii)) as [_ [_ [Hv [_ [_ [_ H0]]]]]]. rewrite (H0 eq_refl) in Hv.
      assert (H1 : stp s (set_phase (put_new s 0 (newv ii)) 0 (Fill (S k)))).
      { apply steps_one with 0%nat; [exact Hr|]. unfold moves. rewrite Hp, Eii, Hv. left. reflexivity. }
      set (s1 := set_phase _ _ _) in *.
      destruct (IH (S k) s1 ltac:(lia) (good_steps false c owner newv G s s1 H1 HG) ltac:(cbn [s1 s_phase set_phase]; apply upd_same)) as [s2 [H2 [H3 H4]]].
      exists s2. split; [exact (go _ _ _ H1 H2)|]. split; [exact H3|].
      apply (frame_trans 0 s s1 s2); [intros x Hx; left; cbn [s1 s_phase set_phase put_new]; apply upd_other; exact Hx|exact H4].
  Qed.

  (** * All children finish, lower levels first *)

  Variable level : nat -> nat.
  Hypothesis Hlevel : forall r o, r <> 0%nat -> o <> 0%nat -> In o (overlaps_of c r) -> (level o < level r)%nat.

  Definition pending (s : state) : list nat := filter (fun x => negb (served (s_phase s x))) (seq 1 (size c - 1)).
  Lemma in_pending s x : In x (pending s) <-> (0 < x < size c)%nat /\ served (s_phase s x) = false.
  Proof. unfold pending. rewrite filter_In, in_seq, Bool.negb_true_iff. split; intros [A B]; (split; [lia|exact B]). Qed.

  Lemma filter_le {A} (f g : A -> bool) : forall l, (forall x, In x l -> g x = true -> f x = true) -> (List.length (filter g l) <= List.length (filter f l))%nat.
  Proof.
    induction l as [|a l IH]; intros H; [reflexivity|]. cbn [filter]. specialize (IH (fun x Hx => H x (or_intror Hx))).
    pose proof (H a (or_introl eq_refl)) as Ha. destruct (g a); [rewrite (Ha eq_refl); cbn [List.length]; lia|destruct (f a); cbn [List.length]; lia].
  Qed.
  Lemma filter_lt {A} (f g : A -> bool) r : forall l, (forall x, In x l -> g x = true -> f x = true) -> In r l -> f r = true -> g r = false -> (List.length (filter g l) < List.length (filter f l))%nat.
  Proof.
    induction l as [|a l IH]; intros H Hin Hf Hg; [destruct Hin|]. cbn [filter]. pose proof (filter_le f g l (fun x Hx => H x (or_intror Hx))) as Hle.
    destruct Hin as [->|Hin]; [rewrite Hf, Hg; cbn [List.length]; lia|].
    specialize (IH (fun x Hx => H x (or_intror Hx)) Hin Hf Hg). pose proof (H a (or_introl eq_refl)) as Ha.
    destruct (g a); [rewrite (Ha eq_refl); cbn [List.length]; lia|destruct (f a); cbn [List.length]; lia].
  Qed.
  Lemma least (l : list nat) : l <> [] -> exists r, In r l /\ forall x, In x l -> (level r <= level x)%nat.
  Proof.
    induction l as [|a l IH]; intros H; [contradiction|]. destruct l as [|b l]; [exists a; split; [left; reflexivity|intros x [<-|[]]; reflexivity]|].
    destruct IH as [r [Hr Hm]]; [discriminate|]. destruct (Nat.le_gt_cases (level a) (level r)) as [Hle|Hgt].
    - exists a. split; [left; reflexivity|]. intros x [<-|Hx]; [reflexivity|]. specialize (Hm x Hx). lia.
    - exists r. split; [right; exact Hr|]. intros x [<-|Hx]; [lia|exact (Hm x Hx)].
  Qed.

  Lemma child_serve s x : good s -> (0 < x < size c)%nat -> serving (s_phase s x) = true -> served (s_phase s x) = true.
  Proof.
    intros [[L _] _] Hx Hs. pose proof (L x ltac:(lia)) as Lx. destruct (s_phase s x); try discriminate; try reflexivity; destruct Lx as [Lx _]; lia.
  Qed.

  Lemma children : forall n s, (List.length (pending s) <= n)%nat -> good s -> (0 < size c)%nat -> serving (s_phase s 0%nat) = true ->
    exists s', stp s s' /\ pending s' = [] /\ serving (s_phase s' 0%nat) = true.
  Proof.
    induction n as [|n IH]; intros s Hn HG H0 Hs.
    - exists s. split; [apply steps_refl|]. split; [destruct (pending s); [reflexivity|cbn in Hn; lia]|exact Hs].
    - destruct (pending s) as [|a l] eqn:Ep; [exists s; split; [apply steps_refl|split; [exact Ep|exact Hs]]|]. rewrite <- Ep in *.
      destruct (least (pending s)) as [r [Hr Hm]]; [rewrite Ep; discriminate|]. apply in_pending in Hr. destruct Hr as [Hr Hus].
      pose proof HG as [[L _] [_ [_ [_ [_ [_ F]]]]]].
      assert (Hall : forall o, In o (overlaps_of c r) -> serving (s_phase s o) = true).
      { intros o Ho. destruct (Nat.eq_dec o 0) as [->|No]; [exact Hs|]. destruct (gs_overlaps _ _ _ G r o Ho) as [Hos _].
        pose proof (Hlevel r o ltac:(lia) No Ho) as Hlt. destruct (served (s_phase s o)) eqn:Eo.
        - destruct (s_phase s o) eqn:Epo; try discriminate; [reflexivity|]. rewrite (F o ltac:(lia) Epo) in Hs. discriminate.
        - specialize (Hm o ltac:(apply in_pending; split; [lia|exact Eo])). lia. }
      destruct (finish_child r s ltac:(lia) ltac:(lia) HG Hus Hall) as [s1 [H1 [H2 H3]]].
      pose proof (good_steps false c owner newv G s s1 H1 HG) as G1.
      destruct (IH s1) as [s2 [H4 [H5 H6]]].
      + assert (Hlt : (List.length (pending s1) < List.length (pending s))%nat).
        { unfold pending. apply filter_lt with r; [|apply in_seq; lia|rewrite Hus; reflexivity|rewrite H2; reflexivity].
          intros x Hx Hg. apply in_seq in Hx. rewrite Bool.negb_true_iff in *. destruct (Nat.eq_dec x r) as [->|N]; [exact Hus|].
          destruct (H3 x N) as [E|[_ E]]; [rewrite <- E; exact Hg|]. rewrite (child_serve s1 x G1 ltac:(lia) E) in Hg. discriminate. }
        lia.
      + exact G1.
      + exact H0.
      + apply (frame_serving r s s1 0%nat H3); [lia|exact Hs].
      + exists s2. split; [exact (go _ _ _ H1 H4)|]. split; assumption.
  Qed.

  (** * The root learns it and tells the children *)

  Lemma collect : (0 < size c)%nat -> forall cs fin s, good s -> pending s = [] -> s_phase s 0%nat = RootCheck cs fin ->
    (forall x, (0 < x < size c)%nat -> In x fin \/ In x cs) -> exists s', stp s s' /\ s_phase s' 0%nat = Stopped.
  Proof.
    intros H0. induction cs as [|y cs IH]; intros fin s HG Hpe Hp Hall.
    - eexists. split; [apply steps_one with 0%nat; [exact H0|unfold moves; rewrite Hp]|].
      + replace (forallb (fun x => existsb (Nat.eqb x) fin) (seq 1 (size c - 1))) with true; [left; reflexivity|].
        symmetry. apply forallb_forall. intros x Hx. apply in_seq in Hx. apply existsb_nat. destruct (Hall x ltac:(lia)) as [H|[]]. exact H.
      + cbn [s_phase set_phase put_success]. apply upd_same.
    - assert (Hserved : forall x, (0 < x < size c)%nat -> served (s_phase s x) = true).
      { intros x Hx. destruct (served (s_phase s x)) eqn:E; [reflexivity|]. assert (In x (pending s)) by (apply in_pending; split; assumption). rewrite Hpe in H. destruct H. }
      pose proof HG as [_ [_ [_ [C _]]]]. rewrite Hp in C. cbn [fin_of] in C.
      assert (Hpend : forall s', (forall x, x <> 0%nat -> s_phase s' x = s_phase s x) -> pending s' = []).
      { intros s' H'. destruct (pending s') as [|z l] eqn:Ez; [reflexivity|]. assert (In z (pending s')) by (rewrite Ez; left; reflexivity).
        apply in_pending in H. destruct H as [Hz Hzs]. rewrite H' in Hzs by lia. rewrite (Hserved z Hz) in Hzs. discriminate. }
      destruct (s_finished s y) eqn:Ey.
      + assert (H1 : stp s (set_phase (put_finished s y false) 0 (RootCheck cs (y :: fin)))).
        { apply steps_one with 0%nat; [exact H0|]. unfold moves. rewrite Hp, Ey. right. left. reflexivity. }
        set (s1 := set_phase _ _ _) in *.
        destruct (IH (y :: fin) s1 (good_steps false c owner newv G s s1 H1 HG)) as [s2 [H2 H3]].
        * apply Hpend. intros x Hx. cbn [s1 s_phase set_phase put_finished]. apply upd_other. exact Hx.
        * cbn [s1 s_phase set_phase]. apply upd_same.
        * intros x Hx. destruct (Hall x Hx) as [H|[H|H]]; [left; right; exact H|left; left; exact H|right; exact H].
        * exists s2. split; [exact (go _ _ _ H1 H2)|exact H3].
      + destruct (set_step s 0%nat (RootCheck cs fin) H0) as [s1 [H1 [H2 [H3 _]]]]; [unfold moves; rewrite Hp; left; reflexivity|].
        destruct (IH fin s1 (good_steps false c owner newv G s s1 H1 HG) (Hpend s1 H3) H2) as [s2 [H4 H5]].
        * intros x Hx. destruct (Hall x Hx) as [H|[<-|H]]; [left; exact H| |right; exact H].
          left. destruct (C y Hx (Hserved y Hx) ltac:(discriminate)) as [E|E]; [congruence|exact E].
        * exists s2. split; [exact (go _ _ _ H1 H4)|exact H5].
  Qed.

  Lemma root_stops s : (0 < size c)%nat -> good s -> pending s = [] -> serving (s_phase s 0%nat) = true -> exists s', stp s s' /\ s_phase s' 0%nat = Stopped.
  Proof.
    intros H0 HG Hpe Hs.
    assert (Hr : exists s1 ds fin, stp s s1 /\ s_phase s1 0%nat = RootServe ds fin /\ Only 0 s s1 \/ stp s s1 /\ s_phase s1 0%nat = Stopped).
    { pose proof HG as [[L _] _]. pose proof (L 0%nat H0) as L0. destruct (s_phase s 0%nat) as [k|k ds|k os acc|ds|ds fin|cs fin| |e] eqn:Ep; try discriminate.
      - destruct L0 as [L0 _]. contradiction.
      - exists s, ds, fin. left. split; [apply steps_refl|]. split; [exact Ep|apply only_refl].
      - destruct (check_skip fin H0 cs s Ep) as [s1 [H1 [H2 H3]]].
        destruct (forallb (fun x => existsb (Nat.eqb x) fin) (seq 1 (size c - 1))) eqn:Ef.
        + eexists. exists [], []. right. split; [apply (go s s1 _ H1); apply steps_one with 0%nat; [exact H0|unfold moves; rewrite H2, Ef; left; reflexivity]|]. cbn [s_phase set_phase put_success]. apply upd_same.
        + destruct (set_step s1 0%nat (RootServe (destinations_of c 0) fin) H0) as [s2 [H4 [H5 H6]]]; [unfold moves; rewrite H2, Ef; left; reflexivity|].
          exists s2, (destinations_of c 0), fin. left. split; [exact (go _ _ _ H1 H4)|]. split; [exact H5|exact (only_trans 0 _ _ _ H3 H6)]. }
    destruct Hr as [s1 [ds [fin [[H1 [H2 H3]]|[H1 H2]]]]]; [|exists s1; split; assumption].
    destruct (root_check s1 ds fin H0 H2) as [s2 [H4 [H5 H6]]]. pose proof (go _ _ _ H1 H4) as H7.
    assert (Hpe2 : pending s2 = []).
    { pose proof (only_trans 0 _ _ _ H3 H6) as [P _]. destruct (pending s2) as [|z l] eqn:Ez; [reflexivity|]. assert (Hz : In z (pending s2)) by (rewrite Ez; left; reflexivity).
      apply in_pending in Hz. destruct Hz as [Hz Hzs]. rewrite P in Hzs by lia. assert (In z (pending s)) by (apply in_pending; split; assumption). rewrite Hpe in H. destruct H. }
    destruct (collect H0 _ fin s2 (good_steps false c owner newv G s s2 H7 HG) Hpe2 H5) as [s3 [H8 H9]].
    - intros x Hx. destruct (existsb (Nat.eqb x) fin) eqn:Ef; [left; apply existsb_nat; exact Ef|right]. apply filter_In. split; [apply in_seq; lia|rewrite Ef; reflexivity].
    - exists s3. split; [exact (go _ _ _ H7 H8)|exact H9].
  Qed.

  Lemma all_stop : forall l s, good s -> s_phase s 0%nat = Stopped -> (forall x, In x l -> (0 < x < size c)%nat) ->
    exists s', stp s s' /\ (forall x, In x l -> s_phase s' x = Stopped) /\ (forall x, s_phase s x = Stopped -> s_phase s' x = Stopped).
  Proof.
    induction l as [|y l IH]; intros s HG Hp Hl.
    - exists s. split; [apply steps_refl|]. split; [intros x []|exact (fun x H => H)].
    - assert (Hy : (0 < y < size c)%nat) by (apply Hl; left; reflexivity).
      assert (H1 : exists s1, stp s s1 /\ s_phase s1 y = Stopped /\ forall x, s_phase s x = Stopped -> s_phase s1 x = Stopped).
      { pose proof HG as [_ [_ [_ [_ [_ [E _]]]]]]. destruct (E Hp y Hy) as [Hs Hsu]. destruct (s_phase s y) as [k|k ds|k os acc|ds|ds fin|cs fin| |e] eqn:Ep; try discriminate.
        - destruct (child_skip y ltac:(lia) ds [] s) as [s1 [H1 [H2 [P [_ [_ [_ S1]]]]]]]; [rewrite app_nil_r; exact Ep|].
          destruct (set_step s1 y Stopped ltac:(lia)) as [s2 [H4 [H5 [P' _]]]]; [unfold moves; rewrite H2, S1, Hsu; right; left; reflexivity|].
          exists s2. split; [exact (go _ _ _ H1 H4)|]. split; [exact H5|]. intros x Hx. destruct (Nat.eq_dec x y) as [->|N]; [exact H5|]. rewrite P', P by exact N. exact Hx.
        - exists s. split; [apply steps_refl|]. split; [exact Ep|exact (fun x H => H)]. }
      destruct H1 as [s1 [H1 [H2 H3]]].
      destruct (IH s1 (good_steps false c owner newv G s s1 H1 HG) (H3 0%nat Hp) (fun x Hx => Hl x (or_intror Hx))) as [s2 [H4 [H5 H6]]].
      exists s2. split; [exact (go _ _ _ H1 H4)|]. split; [intros x [<-|Hx]; [apply H6; exact H2|apply H5; exact Hx]|intros x Hx; apply H6, H3, Hx].
  Qed.

  Lemma stop_from_root s : (0 < size c)%nat -> good s -> s_phase s 0%nat = Stopped -> exists s', stp s s' /\ all_stopped c s'.
  Proof.
    intros H0 HG Hp. destruct (all_stop (seq 1 (size c - 1)) s HG Hp) as [s1 [H1 [H2 H3]]]; [intros x Hx; apply in_seq in Hx; lia|].
    exists s1. split; [exact H1|]. intros r Hr. destruct (Nat.eq_dec r 0) as [->|N]; [apply H3; exact Hp|apply H2; apply in_seq; lia].
  Qed.

  Theorem completes s : good s -> exists s', stp s s' /\ all_stopped c s'.
  Proof.
    intros HG. destruct (Nat.eq_dec (size c) 0) as [E0|N0]; [exists s; split; [apply steps_refl|intros r Hr; lia]|]. assert (H0 : (0 < size c)%nat) by lia.
    assert (Hroot : (exists s1, stp s s1 /\ serving (s_phase s1 0%nat) = true) \/ s_phase s 0%nat = Stopped).
    { pose proof HG as [[L _] _]. pose proof (L 0%nat H0) as L0. destruct (s_phase s 0%nat) as [k|k ds|k os acc|ds|ds fin|cs fin| |e] eqn:Ep.
      - destruct (fill_root H0 _ k s eq_refl HG Ep) as [s1 [H1 [H2 _]]]. left. exists s1. split; assumption.
      - destruct L0 as [L0 _]. contradiction.
      - destruct L0 as [L0 _]. contradiction.
      - destruct L0 as [L0 _]. contradiction.
      - left. exists s. split; [apply steps_refl|rewrite Ep; reflexivity].
      - left. exists s. split; [apply steps_refl|rewrite Ep; reflexivity].
      - right. reflexivity.
      - destruct L0. }
    destruct Hroot as [[s1 [H1 H2]]|Hst]; [|exact (stop_from_root s H0 HG Hst)].
    pose proof (good_steps false c owner newv G s s1 H1 HG) as G1.
    destruct (children _ s1 (le_n _) G1 H0 H2) as [s2 [H3 [H4 H5]]]. pose proof (good_steps false c owner newv G s1 s2 H3 G1) as G2.
    destruct (root_stops s2 H0 G2 H4 H5) as [s3 [H6 H7]]. pose proof (good_steps false c owner newv G s2 s3 H6 G2) as G3.
    destruct (stop_from_root s3 H0 G3 H7) as [s4 [H8 H9]]. exists s4. split; [exact (go _ _ _ H1 (go _ _ _ H3 (go _ _ _ H6 H8)))|exact H9].
  Qed.
End Complete.
