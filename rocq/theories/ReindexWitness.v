(** Proofs about re-indexing coordinates: the results, and when it never ends. *)
From Verif Require Import Py Lib Spec PartitionModel DimensionModel DistModel DistProofs ScatterProofs ReindexModel ReindexSpec ReindexProofs ReindexLive ReindexComplete ReindexSetup.
Open Scope Z_scope.

Lemma prepare_uniques arrs st c : prepare arrs st = Ok c -> the_uniques arrs = Ok (u_unique c).
Proof.
  intros H. assert (Hu : exists us, the_uniques arrs = Ok us) by (unfold prepare in H; unfold the_uniques; destruct arrs as [|a [|b t]];
    [destruct (create_unique_global_array []) as [us|]; [exists us; reflexivity|discriminate]|eexists; reflexivity|destruct (create_unique_global_array (a :: b :: t)) as [us|]; [exists us; reflexivity|discriminate]]).
  destruct Hu as [us Hu]. rewrite Hu. f_equal. symmetry. apply (prepared arrs us st c Hu H).
Qed.

Lemma Forall2_map_r {A B} (P : A -> B -> Prop) (f : A -> B) : forall l, (forall x, In x l -> P x (f x)) -> Forall2 P l (map f l).
Proof. induction l as [|x l IH]; intros H; constructor; [apply H; left; reflexivity|apply IH; intros y Hy; apply H; right; exact Hy]. Qed.

Lemma in_firstn {A} (x : A) : forall k l, In x (firstn k l) -> In x l.
Proof. induction k as [|k IH]; intros [|a l] H; try (destruct H; fail). destruct H as [<-|H]; [left; reflexivity|right; exact (IH l H)]. Qed.

Section Results.
  Variables (lossy : bool) (arrs : list (list Z)) (st : Z) (c : setup).
  Hypothesis Hp : prepare arrs st = Ok c.
  Let us := u_unique c.

  Lemma uniques_elements : List.length us = List.length arrs /\ NoDup (concat us) /\ (forall x, In x (concat us) <-> In x (concat arrs)) /\
    (forall r a u, nth_error arrs r = Some a -> nth_error us r = Some u -> incl u a).
  Proof.
    destruct (the_uniques_ok arrs us (prepare_uniques arrs st c Hp)) as [HL [Hincl [Hone [Hnd _]]]].
    split; [exact HL|]. split; [exact Hnd|]. split; [|exact Hincl]. intros x. split; intros H.
    - apply in_concat in H. destruct H as [u [Hu Hx]]. apply In_nth_error in Hu. destruct Hu as [r Hu].
      destruct (nth_error arrs r) as [a|] eqn:Ea; [|apply nth_error_None in Ea; assert (r < List.length us)%nat by (apply nth_error_Some; congruence); lia].
      apply in_concat. exists a. split; [apply nth_error_In with r; exact Ea|exact (Hincl r a u Ea Hu x Hx)].
    - destruct (Hone x H) as [k [u [Hk [Hx _]]]]. apply in_concat. exists u. split; [apply nth_error_In with k; exact Hk|exact Hx].
  Qed.

  Hypothesis Hst : 0 <= st.
  Hypothesis Hpos : forall x, In x (concat arrs) -> 0 <= x.
  Variable s : state.
  Hypothesis Hs : steps lossy c start s.

  Let G := good_setup arrs us st c (prepare_uniques arrs st c Hp) Hp Hst Hpos.

  Lemma size_arrs : size c = List.length arrs.
  Proof. unfold size. destruct (prepared arrs us st c (prepare_uniques arrs st c Hp) Hp) as [-> _]. reflexivity. Qed.
  Lemma cindex_arr r a : nth_error arrs r = Some a -> cindex_of c r = a.
  Proof. intros H. unfold cindex_of. destruct (prepared arrs us st c (prepare_uniques arrs st c Hp) Hp) as [-> _]. rewrite nth_default, H. reflexivity. Qed.

  Lemma new_index r a x : nth_error arrs r = Some a -> In x a -> NewIndex us st x (new_of us c x).
  Proof.
    intros Ha Hx. apply (new_spec arrs us st c (prepare_uniques arrs st c Hp) Hp). apply in_concat. exists a. split; [apply nth_error_In with r; exact Ha|exact Hx].
  Qed.

  Lemma reindexed :
    (forall r e, (r < List.length arrs)%nat -> s_phase s r <> Crashed e) /\
    (forall r a, nth_error arrs r = Some a -> exists k, Forall2 (NewIndex us st) (firstn k a) (s_new s r)) /\
    (all_stopped c s -> forall r a, nth_error arrs r = Some a -> Forall2 (NewIndex us st) a (s_new s r)).
  Proof.
    destruct (inv_reach lossy c _ _ G s Hs) as [L _].
    assert (Hr : forall r a, nth_error arrs r = Some a -> (r < size c)%nat) by (intros r a H; rewrite size_arrs; apply nth_error_Some; congruence).
    split; [|split].
    - intros r e H E. specialize (L r ltac:(rewrite size_arrs; exact H)). rewrite E in L. exact L.
    - intros r a Ha. specialize (L r (Hr r a Ha)).
      assert (Hk : exists k, s_new s r = map (new_of us c) (firstn k (cindex_of c r))).
      { destruct (s_phase s r) as [k|k ds|k os acc|ds|ds fin|cs fin| |e]; cbn [Local] in L; cbv zeta in L.
        - exists k. apply L.
        - exists k. apply L.
        - exists k. apply L.
        - exists (List.length (cindex_of c r)). rewrite firstn_all. apply L.
        - exists (List.length (cindex_of c r)). rewrite firstn_all. apply L.
        - exists (List.length (cindex_of c r)). rewrite firstn_all. apply L.
        - exists (List.length (cindex_of c r)). rewrite firstn_all. exact L.
        - destruct L. }
      destruct Hk as [k ->]. rewrite (cindex_arr r a Ha). exists k. apply Forall2_map_r. intros x Hx. apply (new_index r a x Ha). exact (in_firstn x k a Hx).
    - intros Hall r a Ha. specialize (L r (Hr r a Ha)). rewrite (Hall r (Hr r a Ha)) in L. cbn [Local] in L. cbv zeta in L. rewrite L, (cindex_arr r a Ha).
      apply Forall2_map_r. intros x Hx. exact (new_index r a x Ha Hx).
  Qed.

  Lemma newindex_det x y i j : NewIndex us st x i -> NewIndex us st y j -> (x = y <-> i = j).
  Proof.
    intros [H1 H2] [H3 H4]. split; intros E; subst.
    - destruct uniques_elements as [_ [Hnd _]]. assert (Z.to_nat (i - st) = Z.to_nat (j - st)); [|lia].
      apply (proj1 (NoDup_nth_error (concat us)) Hnd); [apply nth_error_Some; congruence|congruence].
    - congruence.
  Qed.
  Lemma newindex_range x i : NewIndex us st x i -> st <= i < st + zlen (concat us).
  Proof. intros [H1 H2]. assert (Z.to_nat (i - st) < List.length (concat us))%nat by (apply nth_error_Some; congruence). unfold zlen. lia. Qed.

  Lemma Forall2_nth_both {A B} (P : A -> B -> Prop) : forall l l', Forall2 P l l' -> forall k x y, nth_error l k = Some x -> nth_error l' k = Some y -> P x y.
  Proof. induction 1 as [|a b l l' H _ IH]; intros [|k] x y Hx Hy; try discriminate; cbn in Hx, Hy; [congruence|exact (IH k x y Hx Hy)]. Qed.
  Lemma Forall2_nth_right {A B} (P : A -> B -> Prop) : forall l l', Forall2 P l l' -> forall y, In y l' -> exists x, In x l /\ P x y.
  Proof. induction 1 as [|a b l l' H _ IH]; intros y Hy; [destruct Hy|]. destruct Hy as [<-|Hy]; [exists a; split; [left; reflexivity|exact H]|]. destruct (IH y Hy) as [x [Hx Hxy]]. exists x. split; [right; exact Hx|exact Hxy]. Qed.
  Lemma Forall2_nth_left {A B} (P : A -> B -> Prop) : forall l l', Forall2 P l l' -> forall x, In x l -> exists y, In y l' /\ P x y.
  Proof. induction 1 as [|a b l l' H _ IH]; intros y Hy; [destruct Hy|]. destruct Hy as [<-|Hy]; [exists b; split; [left; reflexivity|exact H]|]. destruct (IH y Hy) as [x [Hx Hxy]]. exists x. split; [right; exact Hx|exact Hxy]. Qed.

  Lemma same_iff : all_stopped c s -> forall r r' a a' i i' x x' y y',
    nth_error arrs r = Some a -> nth_error arrs r' = Some a' -> nth_error a i = Some x -> nth_error a' i' = Some x' ->
    nth_error (s_new s r) i = Some y -> nth_error (s_new s r') i' = Some y' -> (x = x' <-> y = y').
  Proof.
    intros Hall r r' a a' i i' x x' y y' Ha Ha' Hx Hx' Hy Hy'. destruct reindexed as [_ [_ R]].
    apply newindex_det; [exact (Forall2_nth_both _ _ _ (R Hall r a Ha) i x y Hx Hy)|exact (Forall2_nth_both _ _ _ (R Hall r' a' Ha') i' x' y' Hx' Hy')].
  Qed.

  Lemma range_exact : all_stopped c s -> forall i, (exists r, (r < List.length arrs)%nat /\ In i (s_new s r)) <-> st <= i < st + zlen (concat us).
  Proof.
    intros Hall i. destruct reindexed as [_ [_ R]]. specialize (R Hall). split.
    - intros [r [Hr Hi]]. destruct (nth_error arrs r) as [a|] eqn:Ea; [|apply nth_error_None in Ea; lia].
      destruct (Forall2_nth_right _ _ _ (R r a Ea) i Hi) as [x [_ Hx]]. exact (newindex_range x i Hx).
    - intros Hi. destruct (nth_error (concat us) (Z.to_nat (i - st))) as [x|] eqn:Ex; [|apply nth_error_None in Ex; unfold zlen in Hi; lia].
      destruct uniques_elements as [_ [_ [He _]]]. assert (Hx : In x (concat arrs)) by (apply He; apply nth_error_In with (Z.to_nat (i - st)); exact Ex).
      apply in_concat in Hx. destruct Hx as [a [Ha Hx]]. apply In_nth_error in Ha. destruct Ha as [r Ha].
      destruct (Forall2_nth_left _ _ _ (R r a Ha) x Hx) as [y [Hy Hxy]]. exists r. split; [apply nth_error_Some; congruence|].
      replace i with y; [exact Hy|]. apply (newindex_det x x y i Hxy); [split; [lia|exact Ex]|reflexivity].
  Qed.
End Results.

Lemma completes_layered arrs st c s : prepare arrs st = Ok c -> 0 <= st -> (forall x, In x (concat arrs) -> 0 <= x) -> Layered arrs (u_unique c) ->
  steps false c start s -> exists s', steps false c s s' /\ all_stopped c s'.
Proof.
  intros Hp Hst Hpos [level Hl] Hs. pose proof (good_setup arrs (u_unique c) st c (prepare_uniques arrs st c Hp) Hp Hst Hpos) as G.
  apply (completes c _ _ G level).
  - intros r o Hr Ho Hin. apply Hl; [exact Hr|exact Ho|]. rewrite <- (asks_spec arrs (u_unique c) st c (prepare_uniques arrs st c Hp) Hp). exact Hin.
  - apply good_reach with (1 := G). exact Hs.
Qed.

Lemma layered_two arrs us : (List.length arrs <= 2)%nat -> List.length us = List.length arrs -> Layered arrs us.
Proof.
  intros H HL. exists (fun _ => 0%nat). intros r o Hr Ho [N [a [u [x [lo [hi [Ha [Hu _]]]]]]]].
  assert (r < List.length arrs)%nat by (apply nth_error_Some; congruence). assert (o < List.length us)%nat by (apply nth_error_Some; congruence). lia.
Qed.

(** * Two ranks that wait for each other never go on *)

Lemma poll_frame lossy c s r d q s' : In s' (poll lossy c s r d q) ->
  (forall x, x <> r -> s_phase s' x = s_phase s x) /\ (forall a b, a <> r -> s_found s' a b = s_found s a b) /\
  (s_search s d r = [] -> (forall a b, s_found s' a b = s_found s a b)).
Proof.
  unfold poll. intros [<-|Hin]; [split; [intros x Hx; cbn [s_phase set_phase]; apply upd_other; exact Hx|split; reflexivity]|].
  destruct (s_search s d r) as [|v rest]; [destruct Hin|].
  destruct Hin as [Hs'|Hin]; [|destruct lossy; [destruct Hin as [<-|[]]; split; [intros x Hx; cbn [s_phase set_phase put_search]; apply upd_other; exact Hx|split; [reflexivity|discriminate]]|destruct Hin]].
  destruct (v <? 0); [rewrite <- Hs'; split; [intros x Hx; cbn [s_phase set_phase put_search]; apply upd_other; exact Hx|split; [reflexivity|discriminate]]|].
  destruct (uidx_of c r) as [|e l]; [rewrite <- Hs'; split; [intros x Hx; cbn [s_phase set_phase put_search]; apply upd_other; exact Hx|split; [reflexivity|discriminate]]|].
  rewrite <- Hs'. split; [intros x Hx; cbn [s_phase set_phase put_search put_found]; apply upd_other; exact Hx|split; [|discriminate]].
  intros a b Ha. cbn [s_found set_phase put_search put_found]. apply upd2_other. left. exact Ha.
Qed.

(** Nobody but the rank itself changes its phase; answers from [a] appear only when
    [a] moves. *)
Lemma moves_frame lossy c s r s' : In s' (moves lossy c s r) ->
  (forall x, x <> r -> s_phase s' x = s_phase s x) /\ (forall a b, a <> r -> s_found s a b = [] -> s_found s' a b = []).
Proof.
  unfold moves. intros Hin.
  assert (Hset : forall p, s' = set_phase s r p -> (forall x, x <> r -> s_phase s' x = s_phase s x) /\ (forall a b, a <> r -> s_found s a b = [] -> s_found s' a b = [])).
  { intros p ->. split; [intros x Hx; cbn [s_phase set_phase]; apply upd_other; exact Hx|intros a b _ H; exact H]. }
  assert (Hpoll : forall d q, In s' (poll lossy c s r d q) -> (forall x, x <> r -> s_phase s' x = s_phase s x) /\ (forall a b, a <> r -> s_found s a b = [] -> s_found s' a b = [])).
  { intros d q H. destruct (poll_frame lossy c s r d q s' H) as [A [B _]]. split; [exact A|]. intros a b Ha E. rewrite B by exact Ha. exact E. }
  destruct (s_phase s r) as [k|k ds|k os acc|ds|ds fin|cs fin| |e].
  - destruct (nth_error (cindex_of c r) k) as [ii|].
    + destruct (dget Z.eqb (uidx_of c r) ii) as [v|].
      * destruct Hin as [<-|[]]. split; [intros x Hx; cbn [s_phase set_phase put_new]; apply upd_other; exact Hx|intros a b _ H; exact H].
      * destruct (Nat.eqb r 0); [destruct Hin as [<-|[]]; eapply Hset; reflexivity|]. destruct (ii <? 0); [destruct Hin as [<-|[]]; eapply Hset; reflexivity|].
        destruct Hin as [<-|[]].
        assert (Hf : forall os s0, s_phase (fold_left (fun s o => put_search s r o (s_search s r o ++ [ii])%list) os s0) = s_phase s0 /\ s_found (fold_left (fun s o => put_search s r o (s_search s r o ++ [ii])%list) os s0) = s_found s0).
        { induction os as [|o os IH]; intros s0; [split; reflexivity|]. cbn [fold_left]. destruct (IH (put_search s0 r o (s_search s0 r o ++ [ii])%list)) as [-> ->]. split; reflexivity. }
        destruct (Hf (overlaps_of c r) s) as [A B]. cbn [s_phase s_found set_phase]. rewrite A, B. split; [intros x Hx; apply upd_other; exact Hx|intros a b _ H; exact H].
    + destruct (Nat.eqb r 0); destruct Hin as [<-|[]]; [eapply Hset; reflexivity|]. split; [intros x Hx; cbn [s_phase set_phase put_finished]; apply upd_other; exact Hx|intros a b _ H; exact H].
  - destruct ds as [|d ds]; [destruct Hin as [<-|[]]; eapply Hset; reflexivity|exact (Hpoll d _ Hin)].
  - destruct os as [|o os].
    + destruct acc as [v|]; destruct Hin as [<-|[]]; [|eapply Hset; reflexivity]. split; [intros x Hx; cbn [s_phase set_phase put_new]; apply upd_other; exact Hx|intros a b _ H; exact H].
    + destruct (s_found s o r) as [|v rest] eqn:Ef; [destruct Hin|]. destruct Hin as [<-|[]]. split; [intros x Hx; cbn [s_phase set_phase put_found]; apply upd_other; exact Hx|].
      intros a b _ H. cbn [s_found set_phase put_found]. destruct (Nat.eq_dec a o) as [->|Na]; [|rewrite upd2_other by (left; exact Na); exact H].
      destruct (Nat.eq_dec b r) as [->|Nb]; [congruence|rewrite upd2_other by (right; exact Nb); exact H].
  - destruct ds as [|d ds]; [|exact (Hpoll d _ Hin)]. destruct Hin as [<-|Hin]; [eapply Hset; reflexivity|]. destruct (s_success s r); [|destruct Hin]. destruct Hin as [<-|[]]. eapply Hset; reflexivity.
  - destruct ds as [|d ds]; [destruct Hin as [<-|[]]; eapply Hset; reflexivity|exact (Hpoll d _ Hin)].
  - destruct cs as [|x cs].
    + destruct (forallb _ _); destruct Hin as [<-|[]]; [|eapply Hset; reflexivity]. split; [intros x Hx; cbn [s_phase set_phase put_success]; apply upd_other; exact Hx|intros a b _ H; exact H].
    + destruct Hin as [<-|Hin]; [eapply Hset; reflexivity|]. destruct (s_finished s x); [|destruct Hin]. destruct Hin as [<-|[]].
      split; [intros y Hy; cbn [s_phase set_phase put_finished]; apply upd_other; exact Hy|intros a b _ H; exact H].
  - destruct Hin.
  - destruct Hin.
Qed.

(** Rank [a] waits for an answer of [b] that is not there. *)
Definition Awaits (s : state) (a b : nat) : Prop :=
  s_found s b a = [] /\ exists k os acc, s_phase s a = Wait k os acc /\ In b os.

(** A step of a rank that waits keeps it waiting, and sends no answers. *)
Lemma awaits_own lossy c s a b s' : Awaits s a b -> In s' (moves lossy c s a) -> Awaits s' a b /\ (forall x y, s_found s x y = [] -> s_found s' x y = []).
Proof.
  intros [Hf [k [os [acc [Hp Hin]]]]] Hm. unfold moves in Hm. rewrite Hp in Hm. destruct os as [|o os]; [destruct Hin|].
  destruct (s_found s o a) as [|v rest] eqn:Ef; [destruct Hm|]. destruct Hm as [<-|[]]. unfold Awaits. cbn [s_found s_phase set_phase put_found].
  assert (Hk : forall x y, s_found s x y = [] -> upd2 (s_found s) o a rest x y = []).
  { intros x y H. destruct (Nat.eq_dec x o) as [->|N]; [|rewrite upd2_other by (left; exact N); exact H]. destruct (Nat.eq_dec y a) as [->|N]; [congruence|rewrite upd2_other by (right; exact N); exact H]. }
  split; [|exact Hk]. split; [apply Hk; exact Hf|]. rewrite upd_same. do 3 eexists. split; [reflexivity|]. destruct Hin as [->|Hin]; [congruence|exact Hin].
Qed.

Lemma stuck_step lossy c s s' a b : Awaits s a b -> Awaits s b a -> step lossy c s s' -> Awaits s' a b /\ Awaits s' b a.
Proof.
  intros Hab Hba Hstep. destruct Hstep as [s r s' Hr Hm]. destruct (moves_frame lossy c s r s' Hm) as [P F].
  destruct (Nat.eq_dec r a) as [->|Na].
  - destruct (awaits_own lossy c s a b s' Hab Hm) as [H1 H2]. split; [exact H1|]. destruct (Nat.eq_dec b a) as [->|N]; [exact H1|].
    destruct Hba as [Hf Hw]. split; [exact (H2 a b Hf)|]. rewrite P by exact N. exact Hw.
  - destruct (Nat.eq_dec r b) as [->|Nb].
    + destruct (awaits_own lossy c s b a s' Hba Hm) as [H1 H2]. split; [|exact H1]. destruct Hab as [Hf Hw]. split; [exact (H2 b a Hf)|]. rewrite P by congruence. exact Hw.
    + destruct Hab as [Hf Hw], Hba as [Hf' Hw']. split; (split; [apply F; [congruence|assumption]|rewrite P by congruence; assumption]).
Qed.

Lemma stuck_forever lossy c s s' a b : steps lossy c s s' -> Awaits s a b -> Awaits s b a -> (a < size c)%nat -> ~ all_stopped c s'.
Proof.
  intros H Hab Hba Ha. assert (HS : Awaits s' a b).
  { revert Hab Hba. induction H as [s|s s1 s2 H1 _ IH]; intros Hab Hba; [exact Hab|]. destruct (stuck_step lossy c s s1 a b Hab Hba H1) as [A B]. exact (IH A B). }
  destruct HS as [_ [k [os [acc [Hp _]]]]]. intros Hall. rewrite (Hall a Ha) in Hp. discriminate.
Qed.

(** * A lost question is never answered *)

Definition Lost (s : state) (a b : nat) : Prop := s_search s a b = [] /\ Awaits s a b.

Lemma poll_search lossy c s r d q s' a b : In s' (poll lossy c s r d q) -> s_search s a b = [] -> s_search s' a b = [].
Proof.
  unfold poll. intros [<-|Hin] H; [exact H|]. destruct (s_search s d r) as [|v rest] eqn:Eq; [destruct Hin|].
  assert (Hk : upd2 (s_search s) d r rest a b = []).
  { destruct (Nat.eq_dec a d) as [->|N]; [|rewrite upd2_other by (left; exact N); exact H]. destruct (Nat.eq_dec b r) as [->|N]; [congruence|rewrite upd2_other by (right; exact N); exact H]. }
  destruct Hin as [Hs'|Hin]; [|destruct lossy; [destruct Hin as [<-|[]]; exact Hk|destruct Hin]].
  destruct (v <? 0); [rewrite <- Hs'; exact Hk|]. destruct (uidx_of c r) as [|e l]; rewrite <- Hs'; exact Hk.
Qed.

(** Only [a] itself puts questions of [a]. *)
Lemma moves_search lossy c s r s' a b : In s' (moves lossy c s r) -> r <> a -> s_search s a b = [] -> s_search s' a b = [].
Proof.
  unfold moves. intros Hin N H. destruct (s_phase s r) as [k|k ds|k os acc|ds|ds fin|cs fin| |e].
  - destruct (nth_error (cindex_of c r) k) as [ii|].
    + destruct (dget Z.eqb (uidx_of c r) ii) as [v|]; [destruct Hin as [<-|[]]; exact H|].
      destruct (Nat.eqb r 0); [destruct Hin as [<-|[]]; exact H|]. destruct (ii <? 0); [destruct Hin as [<-|[]]; exact H|].
      destruct Hin as [<-|[]]. cbn [s_search set_phase].
      assert (Hf : forall os s0, s_search s0 a b = [] -> s_search (fold_left (fun s o => put_search s r o (s_search s r o ++ [ii])%list) os s0) a b = []).
      { induction os as [|o os IH]; intros s0 H0; [exact H0|]. cbn [fold_left]. apply IH. cbn [s_search put_search]. rewrite upd2_other by (left; congruence). exact H0. }
      apply Hf. exact H.
    + destruct (Nat.eqb r 0); destruct Hin as [<-|[]]; exact H.
  - destruct ds as [|d ds]; [destruct Hin as [<-|[]]; exact H|exact (poll_search lossy c s r d _ s' a b Hin H)].
  - destruct os as [|o os]; [destruct acc; destruct Hin as [<-|[]]; exact H|]. destruct (s_found s o r); [destruct Hin|]. destruct Hin as [<-|[]]. exact H.
  - destruct ds as [|d ds]; [|exact (poll_search lossy c s r d _ s' a b Hin H)]. destruct Hin as [<-|Hin]; [exact H|]. destruct (s_success s r); [|destruct Hin]. destruct Hin as [<-|[]]. exact H.
  - destruct ds as [|d ds]; [destruct Hin as [<-|[]]; exact H|exact (poll_search lossy c s r d _ s' a b Hin H)].
  - destruct cs as [|x cs]; [destruct (forallb _ _); destruct Hin as [<-|[]]; exact H|]. destruct Hin as [<-|Hin]; [exact H|]. destruct (s_finished s x); [|destruct Hin]. destruct Hin as [<-|[]]. exact H.
  - destruct Hin.
  - destruct Hin.
Qed.

(** Answers to [a] are sent only for questions of [a]. *)
Lemma moves_answers lossy c s r s' a b : In s' (moves lossy c s r) -> s_search s a b = [] -> s_found s b a = [] -> s_found s' b a = [].
Proof.
  intros Hin HS HF. destruct (Nat.eq_dec b r) as [->|N]; [|exact (proj2 (moves_frame lossy c s r s' Hin) b a N HF)].
  assert (Hpoll : forall d q, In s' (poll lossy c s r d q) -> s_found s' r a = []).
  { intros d q. unfold poll. intros [<-|H]; [exact HF|]. destruct (s_search s d r) as [|v rest] eqn:Eq; [destruct H|].
    destruct H as [Hs'|H]; [|destruct lossy; [destruct H as [<-|[]]; exact HF|destruct H]]. destruct (v <? 0); [rewrite <- Hs'; exact HF|].
    destruct (uidx_of c r) as [|e l]; [rewrite <- Hs'; exact HF|]. rewrite <- Hs'. cbn [s_found set_phase put_found put_search]. rewrite upd2_other; [exact HF|]. right. intros ->. congruence. }
  unfold moves in Hin. destruct (s_phase s r) as [k|k ds|k os acc|ds|ds fin|cs fin| |e].
  - destruct (nth_error (cindex_of c r) k) as [ii|].
    + destruct (dget Z.eqb (uidx_of c r) ii) as [v|]; [destruct Hin as [<-|[]]; exact HF|].
      destruct (Nat.eqb r 0); [destruct Hin as [<-|[]]; exact HF|]. destruct (ii <? 0); [destruct Hin as [<-|[]]; exact HF|]. destruct Hin as [<-|[]]. cbn [s_found set_phase].
      assert (Hf : forall os s0, s_found (fold_left (fun s o => put_search s r o (s_search s r o ++ [ii])%list) os s0) = s_found s0).
      { induction os as [|o os IH]; intros s0; [reflexivity|]. cbn [fold_left]. rewrite IH. reflexivity. }
      rewrite Hf. exact HF.
    + destruct (Nat.eqb r 0); destruct Hin as [<-|[]]; exact HF.
  - destruct ds as [|d ds]; [destruct Hin as [<-|[]]; exact HF|exact (Hpoll d _ Hin)].
  - destruct os as [|o os]; [destruct acc; destruct Hin as [<-|[]]; exact HF|]. destruct (s_found s o r) as [|v rest] eqn:Ef; [destruct Hin|]. destruct Hin as [<-|[]].
    cbn [s_found set_phase put_found]. destruct (Nat.eq_dec o r) as [->|No]; [|rewrite upd2_other by (left; congruence); exact HF].
    destruct (Nat.eq_dec a r) as [->|Na]; [congruence|rewrite upd2_other by (right; congruence); exact HF].
  - destruct ds as [|d ds]; [|exact (Hpoll d _ Hin)]. destruct Hin as [<-|Hin]; [exact HF|]. destruct (s_success s r); [|destruct Hin]. destruct Hin as [<-|[]]. exact HF.
  - destruct ds as [|d ds]; [destruct Hin as [<-|[]]; exact HF|exact (Hpoll d _ Hin)].
  - destruct cs as [|x cs]; [destruct (forallb _ _); destruct Hin as [<-|[]]; exact HF|]. destruct Hin as [<-|Hin]; [exact HF|]. destruct (s_finished s x); [|destruct Hin]. destruct Hin as [<-|[]]. exact HF.
  - destruct Hin.
  - destruct Hin.
Qed.

Lemma lost_forever lossy c s s' a b : steps lossy c s s' -> Lost s a b -> (a < size c)%nat -> ~ all_stopped c s'.
Proof.
  intros H HL Ha. assert (HS : Lost s' a b).
  { revert HL. induction H as [s|s s1 s2 H1 _ IH]; intros HL; [exact HL|]. apply IH. destruct H1 as [s r s1 Hr Hm]. destruct HL as [Hse [Hf Hw]].
    destruct (Nat.eq_dec r a) as [->|N].
    - destruct (awaits_own lossy c s a b s1 (conj Hf Hw) Hm) as [HA _]. split; [|exact HA]. destruct Hw as [k [os [acc [Hp Hin]]]].
      unfold moves in Hm. rewrite Hp in Hm. destruct os as [|o os]; [destruct Hin|]. destruct (s_found s o a); [destruct Hm|]. destruct Hm as [<-|[]]. exact Hse.
    - split; [exact (moves_search lossy c s r s1 a b Hm N Hse)|]. split; [exact (moves_answers lossy c s r s1 a b Hm Hse Hf)|].
      rewrite (proj1 (moves_frame lossy c s r s1 Hm) a) by congruence. exact Hw. }
  destruct HS as [_ [_ [k [os [acc [Hp _]]]]]]. intros Hall. rewrite (Hall a Ha) in Hp. discriminate.
Qed.

Lemma run_steps lossy c : forall sched s s', run lossy c s sched = Some s' -> steps lossy c s s'.
Proof.
  induction sched as [|[r i] t IH]; intros s s' H; cbn [run] in H; [injection H as <-; apply steps_refl|].
  destruct (Nat.ltb_spec r (size c)) as [Hr|]; [|discriminate]. destruct (nth_error (moves lossy c s r) i) as [s1|] eqn:E; [|discriminate].
  apply steps_cons with s1; [apply step_rank with r; [exact Hr|apply nth_error_In with i; exact E]|exact (IH s1 s' H)].
Qed.

Lemma empty_rank arrs st : (List.length arrs > 1)%nat -> In [] arrs -> prepare arrs st = Err ValueError.
Proof.
  intros H1 H2. unfold prepare. destruct arrs as [|a [|b t]]; cbn in H1; try lia. rewrite (create_unique_empty_raises _ H2). reflexivity.
Qed.
