(** Proofs about re-indexing coordinates: nothing wrong is ever filled in. *)
From Verif Require Import Py Lib Spec PartitionModel DimensionModel DistModel ReindexModel ReindexSpec.
Open Scope Z_scope.

(** ** Updates *)
Lemma upd_same {A} (f : nat -> A) r v : upd f r v r = v.
Proof. unfold upd. rewrite Nat.eqb_refl. reflexivity. Qed.
Lemma upd_other {A} (f : nat -> A) r v x : x <> r -> upd f r v x = f x.
Proof. intros H. unfold upd. destruct (Nat.eqb_spec x r); [contradiction|reflexivity]. Qed.
Lemma upd2_same {A} (f : nat -> nat -> A) a b v : upd2 f a b v a b = v.
Proof. unfold upd2. rewrite !upd_same. reflexivity. Qed.
Lemma upd2_other {A} (f : nat -> nat -> A) a b v x y : x <> a \/ y <> b -> upd2 f a b v x y = f x y.
Proof.
  intros H. unfold upd2. destruct (Nat.eq_dec x a) as [->|Hx]; [|rewrite upd_other by exact Hx; reflexivity].
  rewrite upd_same. apply upd_other. destruct H; [contradiction|exact H].
Qed.

Lemma existsb_nat x l : existsb (Nat.eqb x) l = true <-> In x l.
Proof.
  rewrite existsb_exists. split; [intros [y [Hy E]]; apply Nat.eqb_eq in E; subst; exact Hy|intros H; exists x; split; [exact H|apply Nat.eqb_refl]].
Qed.

(** What is needed of the collective part. *)
Record GoodSetup (c : setup) (owner : Z -> nat) (newv : Z -> Z) : Prop := {
  gs_owner : forall r x, In x (cindex_of c r) -> 0 <= x /\ (owner x < size c)%nat /\ dget Z.eqb (uidx_of c (owner x)) x = Some (newv x) /\ 0 <= newv x /\
    (forall o, o <> owner x -> dget Z.eqb (uidx_of c o) x = None) /\ (owner x = r \/ In (owner x) (overlaps_of c r)) /\ (r = 0%nat -> owner x = 0%nat);
  gs_overlaps : forall r o, In o (overlaps_of c r) -> (o < size c)%nat /\ o <> r /\ uidx_of c o <> [];
  gs_nodup : forall r, NoDup (overlaps_of c r);
  gs_dest : forall r o, In r (destinations_of c o) <-> In o (overlaps_of c r)
}.

Section Safety.
  Variables (lossy : bool) (c : setup) (owner : Z -> nat) (newv : Z -> Z).
  Variable G : GoodSetup c owner newv.

  Definition answer (o : nat) (ii : Z) : Z := match dget Z.eqb (uidx_of c o) ii with Some x => x | None => empty_value end.

  (** The question rank [r] still has an answer to expect for from rank [o]. *)
  Definition question (p : phase) (r o : nat) : option Z :=
    match p with
    | Poll k _ => if existsb (Nat.eqb o) (overlaps_of c r) then nth_error (cindex_of c r) k else None
    | Wait k os _ => if existsb (Nat.eqb o) os then nth_error (cindex_of c r) k else None
    | _ => None
    end.

  (** The channels between the two. *)
  Definition Chan (o : nat) (q : option Z) (search found : list Z) : Prop :=
    match q with
    | None => search = [] /\ found = []
    | Some ii => (search = [ii] /\ found = []) \/ (search = [] /\ found = [answer o ii]) \/ (lossy = true /\ search = [] /\ found = [])
    end.

  Definition Local (r : nat) (p : phase) (new : list Z) : Prop :=
    let cx := cindex_of c r in
    match p with
    | Fill k => (k <= List.length cx)%nat /\ new = map newv (firstn k cx)
    | Poll k _ => r <> 0%nat /\ new = map newv (firstn k cx) /\ exists ii, nth_error cx k = Some ii /\ dget Z.eqb (uidx_of c r) ii = None
    | Wait k os acc => r <> 0%nat /\ new = map newv (firstn k cx) /\ exists ii, nth_error cx k = Some ii /\ dget Z.eqb (uidx_of c r) ii = None /\
        incl os (overlaps_of c r) /\ NoDup os /\ (acc = Some (newv ii) \/ (acc = None /\ In (owner ii) os))
    | Serve _ => r <> 0%nat /\ new = map newv cx
    | RootServe _ _ | RootCheck _ _ => r = 0%nat /\ new = map newv cx
    | Stopped => new = map newv cx
    | Crashed _ => False
    end.

  Definition Inv (s : state) : Prop :=
    (forall r, (r < size c)%nat -> Local r (s_phase s r) (s_new s r)) /\
    (forall a b, Chan b (question (s_phase s a) a b) (s_search s a b) (s_found s b a)).

  Lemma cindex_range r k ii : nth_error (cindex_of c r) k = Some ii -> (r < size c)%nat.
  Proof.
    intros H. destruct (Nat.lt_ge_cases r (size c)) as [Hr|Hr]; [exact Hr|]. unfold cindex_of in H. rewrite nth_overflow in H by exact Hr. destruct k; discriminate.
  Qed.

  Lemma question_in p r o ii new : question p r o = Some ii -> ((r < size c)%nat -> Local r p new) ->
    nth_error (cindex_of c r) (match p with Poll k _ => k | Wait k _ _ => k | _ => 0%nat end) = Some ii /\ In o (overlaps_of c r).
  Proof.
    intros H L. destruct p; cbn [question] in H; try discriminate.
    - destruct (existsb (Nat.eqb o) (overlaps_of c r)) eqn:E; [|discriminate]. apply existsb_nat in E. split; assumption.
    - destruct (existsb (Nat.eqb o) os) eqn:E; [|discriminate]. apply existsb_nat in E. split; [exact H|].
      destruct (L (cindex_range _ _ _ H)) as [_ [_ [ii' [_ [_ [Hi _]]]]]]. apply Hi. exact E.
  Qed.

  Lemma inv_start : Inv start.
  Proof.
    split; [intros r _; split; [lia|reflexivity]|]. intros a b. split; reflexivity.
  Qed.

  (** Changing only the phase of [r], with the same questions. *)
  Lemma inv_set_phase s r q : Inv s -> ((r < size c)%nat -> Local r q (s_new s r)) ->
    (forall o, question q r o = question (s_phase s r) r o) -> Inv (set_phase s r q).
  Proof.
    intros [L C] HL HQ. split; cbn [s_phase s_new s_search s_found set_phase].
    - intros x Hx. destruct (Nat.eq_dec x r) as [->|N]; [rewrite upd_same; apply HL; exact Hx|rewrite upd_other by exact N; apply L; exact Hx].
    - intros a b. destruct (Nat.eq_dec a r) as [->|N]; [rewrite upd_same, HQ; apply C|rewrite upd_other by exact N; apply C].
  Qed.

  Lemma inv_poll s r d q s' : Inv s -> ((r < size c)%nat -> Local r q (s_new s r)) ->
    (forall o, question q r o = question (s_phase s r) r o) -> In s' (poll lossy c s r d q) -> Inv s'.
  Proof.
    intros HI HL HQ Hin. unfold poll in Hin. destruct Hin as [<-|Hin]; [apply inv_set_phase; assumption|].
    destruct HI as [L C]. pose proof (C d r) as Cd. destruct (s_search s d r) as [|v rest] eqn:Es; [destruct Hin|].
    destruct (question (s_phase s d) d r) as [ii|] eqn:Eq; cbn [Chan] in Cd; [|destruct Cd; discriminate].
    destruct Cd as [[E1 E2]|[[E1 _]|[_ [E1 _]]]]; try discriminate. injection E1 as -> ->.
    destruct (question_in _ _ _ _ (s_new s d) Eq (L d)) as [Hii Hover].
    destruct (gs_owner _ _ _ G d ii (nth_error_In _ _ Hii)) as [Hpos _]. destruct (gs_overlaps _ _ _ G d r Hover) as [_ [Hne Hu]].
    destruct (Z.ltb_spec ii 0) as [Hlt|_]; [lia|]. destruct (uidx_of c r) as [|e l] eqn:Eu; [contradiction|]. rewrite <- Eu in Hin. clear Hu.
    cbn [s_found put_search] in Hin. rewrite E2 in Hin. cbn [app] in Hin. fold (answer r ii) in Hin.
    destruct Hin as [<-|Hin].
    - split; cbn [s_phase s_new s_search s_found set_phase put_found put_search].
      + intros x Hx. destruct (Nat.eq_dec x r) as [->|N]; [rewrite upd_same; apply HL; exact Hx|rewrite upd_other by exact N; apply L; exact Hx].
      + intros a b. assert (Hq : question (upd (s_phase s) r q a) a b = question (s_phase s a) a b).
        { destruct (Nat.eq_dec a r) as [->|N]; [rewrite upd_same; apply HQ|rewrite upd_other by exact N; reflexivity]. }
        rewrite Hq. destruct (Nat.eq_dec a d) as [->|Na].
        * destruct (Nat.eq_dec b r) as [->|Nb].
          -- rewrite !upd2_same, Eq. right. left. split; reflexivity.
          -- rewrite !upd2_other by tauto. apply C.
        * rewrite !upd2_other by tauto. apply C.
    - destruct lossy eqn:El; [|destruct Hin]. destruct Hin as [<-|[]].
      split; cbn [s_phase s_new s_search s_found set_phase put_search].
      + intros x Hx. destruct (Nat.eq_dec x r) as [->|N]; [rewrite upd_same; apply HL; exact Hx|rewrite upd_other by exact N; apply L; exact Hx].
      + intros a b. assert (Hq : question (upd (s_phase s) r q a) a b = question (s_phase s a) a b).
        { destruct (Nat.eq_dec a r) as [->|N]; [rewrite upd_same; apply HQ|rewrite upd_other by exact N; reflexivity]. }
        rewrite Hq. destruct (Nat.eq_dec a d) as [->|Na].
        * destruct (Nat.eq_dec b r) as [->|Nb].
          -- rewrite !upd2_same, Eq, E2. right. right. split; [exact El|]. split; reflexivity.
          -- rewrite !upd2_other by tauto. apply C.
        * rewrite !upd2_other by tauto. apply C.
  Qed.

  (** Asking. *)
  Lemma ask_spec r ii : forall os s, NoDup os ->
    let s' := fold_left (fun s o => put_search s r o (s_search s r o ++ [ii])%list) os s in
    s_phase s' = s_phase s /\ s_new s' = s_new s /\ s_found s' = s_found s /\ s_finished s' = s_finished s /\ s_success s' = s_success s /\
    forall a b, s_search s' a b = if Nat.eqb a r && existsb (Nat.eqb b) os then (s_search s a b ++ [ii])%list else s_search s a b.
  Proof.
    induction os as [|o os IH]; intros s N; cbv zeta.
    - cbn [fold_left existsb]. do 5 (split; [reflexivity|]). intros a b. rewrite andb_false_r. reflexivity.
    - inversion N as [|? ? No Nos]; subst. cbn [fold_left]. destruct (IH (put_search s r o (s_search s r o ++ [ii])%list) Nos) as [A [B [C [D [E F]]]]].
      cbv zeta in *. do 5 (split; [assumption|]). intros a b. rewrite F. cbn [s_search put_search existsb].
      destruct (Nat.eqb_spec a r) as [->|Na]; cbn [andb].
      + destruct (Nat.eqb_spec b o) as [->|Nb]; cbn [orb].
        * assert (Ex : existsb (Nat.eqb o) os = false).
          { destruct (existsb (Nat.eqb o) os) eqn:Ex; [|reflexivity]. apply existsb_nat in Ex. contradiction. }
          rewrite Ex, upd2_same. reflexivity.
        * rewrite upd2_other by tauto. reflexivity.
      + rewrite upd2_other by tauto. reflexivity.
  Qed.

  Lemma firstn_snoc {A} (l : list A) k x : nth_error l k = Some x -> firstn (S k) l = (firstn k l ++ [x])%list.
  Proof. revert l. induction k as [|k IH]; intros [|y l] H; try discriminate; [injection H as ->; reflexivity|]. cbn [nth_error] in H. cbn [firstn app]. f_equal. exact (IH l H). Qed.

  Lemma inv_write s r v k ii : Inv s -> (r < size c)%nat -> (forall o, question (s_phase s r) r o = None) ->
    nth_error (cindex_of c r) k = Some ii -> s_new s r = map newv (firstn k (cindex_of c r)) -> v = newv ii ->
    Inv (set_phase (put_new s r v) r (Fill (S k))).
  Proof.
    intros [L C] Hr HQ Hii Hn ->. split; cbn [s_phase s_new s_search s_found set_phase put_new].
    - intros x Hx. destruct (Nat.eq_dec x r) as [->|N].
      + rewrite !upd_same. split; [apply nth_error_Some; congruence|]. rewrite (firstn_snoc _ _ _ Hii), map_app, Hn. reflexivity.
      + rewrite !upd_other by exact N. apply L. exact Hx.
    - intros a b. destruct (Nat.eq_dec a r) as [->|N]; [rewrite upd_same; pose proof (C r b) as Cb; rewrite HQ in Cb; exact Cb|rewrite upd_other by exact N; apply C].
  Qed.

  (** A change of the two flags does not matter here. *)
  Lemma inv_flags s f g : Inv s -> Inv (mkstate (s_phase s) (s_new s) (s_search s) (s_found s) f g).
  Proof. intros H. exact H. Qed.

  Lemma inv_moves s r s' : Inv s -> (r < size c)%nat -> In s' (moves lossy c s r) -> Inv s'.
  Proof.
    intros HI Hr Hin. pose proof HI as [L C]. pose proof (L r Hr) as Lr. unfold moves in Hin.
    destruct (s_phase s r) as [k|k ds|k os acc|ds|ds fin|cs fin| |e] eqn:Ep.
    - (* Fill *) cbn [Local] in Lr. destruct Lr as [Hk Hn].
      assert (HQ : forall o, question (s_phase s r) r o = None) by (intros o; rewrite Ep; reflexivity).
      destruct (nth_error (cindex_of c r) k) as [ii|] eqn:Eii.
      + destruct (gs_owner _ _ _ G r ii (nth_error_In _ _ Eii)) as [Hpos [Hos [Hown [Hv [Huniq [Hov H0]]]]]].
        destruct (dget Z.eqb (uidx_of c r) ii) as [v|] eqn:Ed.
        * destruct Hin as [<-|[]]. apply (inv_write s r v k ii HI Hr HQ Eii Hn).
          destruct (Nat.eq_dec r (owner ii)) as [E|N]; [rewrite E in Ed; congruence|rewrite (Huniq r N) in Ed; discriminate].
        * destruct (Nat.eqb_spec r 0) as [->|Nr]; [rewrite (H0 eq_refl) in Hown; congruence|].
          destruct (Z.ltb_spec ii 0); [lia|]. destruct Hin as [<-|[]].
          destruct (ask_spec r ii (overlaps_of c r) s (gs_nodup _ _ _ G r)) as [A [B [Cf [_ [_ F]]]]]. cbv zeta in A, B, Cf, F.
          set (s1 := fold_left _ (overlaps_of c r) s) in *.
          split; cbn [s_phase s_new s_search s_found set_phase].
          -- rewrite A, B. intros x Hx. destruct (Nat.eq_dec x r) as [->|N]; [rewrite upd_same|rewrite upd_other by exact N; apply L; exact Hx].
             split; [exact Nr|]. split; [exact Hn|]. exists ii. split; assumption.
          -- rewrite A, Cf. intros a b. rewrite F. pose proof (C a b) as Cab. destruct (Nat.eq_dec a r) as [->|N].
             ++ rewrite upd_same, Nat.eqb_refl. cbn [andb question]. rewrite HQ in Cab. destruct Cab as [-> ->].
                destruct (existsb (Nat.eqb b) (overlaps_of c r)); [rewrite Eii; left; split; reflexivity|split; reflexivity].
             ++ rewrite upd_other by exact N. destruct (Nat.eqb_spec a r); [contradiction|]. exact Cab.
      + assert (Hall : s_new s r = map newv (cindex_of c r)) by (rewrite Hn; f_equal; apply firstn_all2; apply nth_error_None; exact Eii).
        destruct (Nat.eqb_spec r 0) as [->|Nr]; destruct Hin as [<-|[]].
        * apply inv_set_phase; [exact HI|intros _; split; [reflexivity|exact Hall]|intros o; rewrite HQ; reflexivity].
        * apply (inv_set_phase (put_finished s r true)); [apply inv_flags; exact HI|intros _; split; [exact Nr|exact Hall]|intros o; cbn [s_phase put_finished]; rewrite HQ; reflexivity].
    - (* Poll *) destruct ds as [|d ds].
      + destruct Hin as [<-|[]]. destruct Lr as [Nr [Hn [ii [Eii Ed]]]]. apply inv_set_phase; [exact HI| |].
        * intros _. split; [exact Nr|]. split; [exact Hn|]. exists ii. split; [exact Eii|]. split; [exact Ed|]. split; [apply incl_refl|]. split; [apply (gs_nodup _ _ _ G)|].
          right. split; [reflexivity|]. destruct (gs_owner _ _ _ G r ii (nth_error_In _ _ Eii)) as [_ [_ [Hown [_ [_ [[E|Hov] _]]]]]]; [rewrite E in Hown; congruence|exact Hov].
        * intros o. rewrite Ep. reflexivity.
      + apply (inv_poll s r d (Poll k ds) s' HI); [intros _; exact Lr|intros o; rewrite Ep; reflexivity|exact Hin].
    - (* Wait *) destruct Lr as [Nr [Hn [ii [Eii [Ed [Hi [Nd Hacc]]]]]]]. destruct os as [|o os].
      + destruct Hacc as [->|[_ []]]. destruct Hin as [<-|[]]. apply (inv_write s r (newv ii) k ii HI Hr); try assumption; [|reflexivity]. intros o. rewrite Ep. reflexivity.
      + pose proof (C r o) as Co. rewrite Ep in Co. cbn [question existsb] in Co. rewrite Nat.eqb_refl in Co. cbn [orb] in Co. rewrite Eii in Co. cbn [Chan] in Co.
        destruct (s_found s o r) as [|v rest] eqn:Ef; [destruct Hin|]. destruct Co as [[_ E]|[[Es E]|[_ [_ E]]]]; try discriminate. injection E as -> ->.
        destruct Hin as [<-|[]]. inversion Nd as [|? ? Noo Ndos]; subst.
        destruct (gs_owner _ _ _ G r ii (nth_error_In _ _ Eii)) as [_ [_ [Hown [Hv [Huniq [_ _]]]]]].
        split; cbn [s_phase s_new s_search s_found set_phase put_found].
        * intros x Hx. destruct (Nat.eq_dec x r) as [->|N]; [rewrite upd_same|rewrite upd_other by exact N; apply L; exact Hx].
          split; [exact Nr|]. split; [exact Hn|]. exists ii. split; [exact Eii|]. split; [exact Ed|]. split; [intros y Hy; apply Hi; right; exact Hy|]. split; [exact Ndos|].
          unfold answer. destruct (Nat.eq_dec o (owner ii)) as [->|No].
          -- left. rewrite Hown. unfold empty_value. destruct (Z.eqb_spec (newv ii) (-999)); [lia|reflexivity].
          -- rewrite (Huniq o No). unfold empty_value. cbn [Z.eqb Pos.eqb]. destruct Hacc as [->|[-> [E|Hin]]]; [left; reflexivity|congruence|right; split; [reflexivity|exact Hin]].
        * intros a b. destruct (Nat.eq_dec a r) as [->|N].
          -- rewrite upd_same. cbn [question]. pose proof (C r b) as Cb. rewrite Ep in Cb. cbn [question existsb] in Cb.
             destruct (Nat.eq_dec b o) as [->|Nb].
             ++ rewrite upd2_same. assert (Ex : existsb (Nat.eqb o) os = false) by (destruct (existsb (Nat.eqb o) os) eqn:Ex; [apply existsb_nat in Ex; contradiction|reflexivity]).
                rewrite Ex. split; [exact Es|reflexivity].
             ++ rewrite upd2_other by tauto. destruct (Nat.eqb_spec b o); [contradiction|]. cbn [orb] in Cb. exact Cb.
          -- rewrite upd_other by exact N. rewrite upd2_other by tauto. apply C.
    - (* Serve *) destruct ds as [|d ds].
      + destruct Hin as [<-|Hin]; [apply inv_set_phase; [exact HI|intros _; exact Lr|intros o; rewrite Ep; reflexivity]|].
        destruct (s_success s r); [|destruct Hin]. destruct Hin as [<-|[]]. apply inv_set_phase; [exact HI|intros _; apply Lr|intros o; rewrite Ep; reflexivity].
      + apply (inv_poll s r d (Serve ds) s' HI); [intros _; exact Lr|intros o; rewrite Ep; reflexivity|exact Hin].
    - (* RootServe *) destruct ds as [|d ds].
      + destruct Hin as [<-|[]]. apply inv_set_phase; [exact HI|intros _; exact Lr|intros o; rewrite Ep; reflexivity].
      + apply (inv_poll s r d (RootServe ds fin) s' HI); [intros _; exact Lr|intros o; rewrite Ep; reflexivity|exact Hin].
    - (* RootCheck *) destruct cs as [|x cs].
      + destruct (forallb _ _); destruct Hin as [<-|[]].
        * apply (inv_set_phase (put_success s _)); [apply inv_flags; exact HI|intros _; apply Lr|intros o; cbn [s_phase put_success]; rewrite Ep; reflexivity].
        * apply inv_set_phase; [exact HI|intros _; exact Lr|intros o; rewrite Ep; reflexivity].
      + destruct Hin as [<-|Hin]; [apply inv_set_phase; [exact HI|intros _; exact Lr|intros o; rewrite Ep; reflexivity]|].
        destruct (s_finished s x); [|destruct Hin]. destruct Hin as [<-|[]].
        apply (inv_set_phase (put_finished s x false)); [apply inv_flags; exact HI|intros _; exact Lr|intros o; cbn [s_phase put_finished]; rewrite Ep; reflexivity].
    - destruct Hin.
    - destruct Hin.
  Qed.

  Lemma inv_steps s s' : steps lossy c s s' -> Inv s -> Inv s'.
  Proof. induction 1 as [|s s1 s2 H1 _ IH]; [exact (fun H => H)|]. intros HI. apply IH. destruct H1 as [s r s' Hr Hin]. exact (inv_moves s r s' HI Hr Hin). Qed.

  Lemma inv_reach s : steps lossy c start s -> Inv s.
  Proof. intros H. exact (inv_steps start s H inv_start). Qed.
End Safety.
