From Verif Require Import Py Lib CollModel CollSpec DmapProofs.
Local Open Scope string_scope.
Local Open Scope Z_scope.

(** ** Heaps *)
Lemma upd_same {A} (f : Z -> A) i x : upd f i x i = x.
Proof. unfold upd; now rewrite Z.eqb_refl. Qed.
Lemma upd_other {A} (f : Z -> A) i j x : j <> i -> upd f i x j = f j.
Proof. unfold upd; intros H; destruct (Z.eqb_spec j i); [contradiction|reflexivity]. Qed.

Lemma Forall2_impl {A B} (P Q : A -> B -> Prop) : (forall a b, P a b -> Q a b) -> forall la lb, Forall2 P la lb -> Forall2 Q la lb.
Proof. intros H la lb; induction 1; constructor; auto. Qed.

(** Programs: what holds after them, also when they raise. *)
Definition tr {A} (P : heap -> Prop) (m : M A) (Q : res A -> heap -> Prop) : Prop :=
  forall h, P h -> Q (snd (m h)) (fst (m h)).

Lemma tr_bind {A B} P (m : M A) (f : A -> M B) Q R :
  tr P m Q -> (forall x, tr (Q (Ok x)) (f x) R) -> (forall e h, Q (Err e) h -> R (Err e) h) -> tr P (mbind m f) R.
Proof.
  intros Hm Hf He h HP. specialize (Hm h HP). unfold mbind.
  destruct (m h) as [h' [x|e]]; cbn [fst snd] in *; [now apply Hf|now apply He].
Qed.

Lemma tr_cons {A} (P P' : heap -> Prop) (m : M A) (Q Q' : res A -> heap -> Prop) :
  tr P m Q -> (forall h, P' h -> P h) -> (forall r h, Q r h -> Q' r h) -> tr P' m Q'.
Proof. intros Hm HP HQ h H. apply HQ, Hm, HP, H. Qed.

Lemma tr_ret {A} (P : heap -> Prop) (x : A) (Q : res A -> heap -> Prop) : (forall h, P h -> Q (Ok x) h) -> tr P (mret x) Q.
Proof. intros H h HP; exact (H h HP). Qed.
Lemma tr_raise {A} (P : heap -> Prop) e (Q : res A -> heap -> Prop) : (forall h, P h -> Q (Err e) h) -> tr P (mraise e) Q.
Proof. intros H h HP; exact (H h HP). Qed.

(** A loop that keeps an invariant, whatever happens. *)
Lemma tr_for {A} (l : list A) (f : A -> M unit) (P : heap -> Prop) :
  (forall x, In x l -> tr P (f x) (fun _ h => P h)) -> tr P (mfor l f) (fun _ h => P h).
Proof.
  induction l as [|a l IH]; intros H; cbn [mfor].
  - apply tr_ret; auto.
  - eapply tr_bind; [apply H; now left| |auto]. intros []. apply IH. intros; apply H; now right.
Qed.

Lemma bind_ok {A B} (m : M A) (f : A -> M B) h h' x : m h = (h', Ok x) -> mbind m f h = f x h'.
Proof. intros H; unfold mbind; now rewrite H. Qed.
Lemma bind_err {A B} (m : M A) (f : A -> M B) h h' e : m h = (h', Err e) -> mbind m f h = (h', Err e).
Proof. intros H; unfold mbind; now rewrite H. Qed.

(** ** The invariant of a collection in use *)
Record ok (h : heap) (c : Z) : Prop := {
  ok_cs : Consistent h c;
  ok_id : c < h_next h;
  ok_vid : forall k v, Listed h c k v -> v < h_next h;
  ok_did : forall n d, Registered h c n d -> d < h_next h;
  ok_nodup : forall k v names, Listed h c k v -> v_dims (h_var h v) = Some names -> NoDup names }.
Definition inv (L : list Z) (h : heap) : Prop := forall c, In c L -> ok h c.

(** What a collection looks like is the same in both heaps. *)
Definition same_for (h h' : heap) (c : Z) : Prop :=
  h_coll h' c = h_coll h c
  /\ (forall k v, Listed h c k v -> h_var h' v = h_var h v)
  /\ (forall n d, Registered h c n d -> d_name (h_dim h' d) = d_name (h_dim h d) /\ d_size (h_dim h' d) = d_size (h_dim h d))
  /\ h_next h <= h_next h'.

Lemma ok_same h h' c : ok h c -> same_for h h' c -> ok h' c.
Proof.
  intros [[C1 C2 C3 C4 C5 C6 C7] O1 O2 O3 O4] [Hc [Hv [Hd Hn]]].
  assert (HL : forall k v, Listed h' c k v <-> Listed h c k v) by (intros; unfold Listed; now rewrite Hc).
  assert (HR : forall n d, Registered h' c n d <-> Registered h c n d) by (intros; unfold Registered; now rewrite Hc).
  constructor; [constructor|..].
  - now rewrite Hc.
  - now rewrite Hc.
  - intros k v H; apply HL in H. rewrite (Hv _ _ H); eauto.
  - intros k v H; apply HL in H. rewrite (Hv _ _ H); eauto.
  - intros n d H; apply HR in H. rewrite (proj1 (Hd _ _ H)); eauto.
  - intros k v names H Hn' n Hin; apply HL in H. rewrite (Hv _ _ H) in Hn'.
    destruct (C6 _ _ _ H Hn' _ Hin) as [d Hd']. exists d; now apply HR.
  - intros k v names shape H Hn' Hs; apply HL in H. rewrite (Hv _ _ H) in Hn', Hs.
    eapply Forall2_impl; [|exact (C7 _ _ _ _ H Hn' Hs)]. cbn beta. intros s n Hx d Hd'. apply HR in Hd'.
    rewrite (proj2 (Hd _ _ Hd')). auto.
  - lia.
  - intros k v H; apply HL in H. specialize (O2 _ _ H). lia.
  - intros n d H; apply HR in H. specialize (O3 _ _ H). lia.
  - intros k v names H Hn'; apply HL in H. rewrite (Hv _ _ H) in Hn'. eauto.
Qed.

(** Extension: nothing that existed has changed. *)
Definition ext (h h' : heap) : Prop :=
  h_next h <= h_next h' /\ (forall i, i < h_next h -> h_var h' i = h_var h i /\ h_dim h' i = h_dim h i /\ h_coll h' i = h_coll h i).
Lemma ext_refl h : ext h h.
Proof. split; [lia|auto]. Qed.
Lemma ext_trans h1 h2 h3 : ext h1 h2 -> ext h2 h3 -> ext h1 h3.
Proof.
  intros [A B] [C D]; split; [lia|]. intros i Hi. destruct (B i Hi) as [-> [-> ->]] || idtac.
  destruct (B i Hi) as [E1 [E2 E3]]. destruct (D i ltac:(lia)) as [F1 [F2 F3]]. now rewrite F1, F2, F3.
Qed.
Lemma ext_same h h' c : ok h c -> ext h h' -> same_for h h' c.
Proof.
  intros [C O1 O2 O3 O4] [Hn H]. split; [apply (H c O1)|split; [|split; [|exact Hn]]].
  - intros k v Hl. apply (H v (O2 _ _ Hl)).
  - intros n d Hr. destruct (H d (O3 _ _ Hr)) as [_ [-> _]]. auto.
Qed.
Lemma ok_ext h h' c : ok h c -> ext h h' -> ok h' c.
Proof. intros Ho He. eapply ok_same; [exact Ho|now apply ext_same]. Qed.
Lemma inv_ext L h h' : inv L h -> ext h h' -> inv L h'.
Proof. intros Hi He c Hc. eapply ok_ext; [apply Hi, Hc|exact He]. Qed.

Lemma ext_new_var h x : ext h (fst (new_var x h)).
Proof. split; cbn; [lia|]. intros i Hi. rewrite upd_other by lia. auto. Qed.
Lemma ext_new_dim h x : ext h (fst (new_dim x h)).
Proof. split; cbn; [lia|]. intros i Hi. rewrite upd_other by lia. auto. Qed.
Lemma ext_new_coll h x : ext h (fst (new_coll x h)).
Proof. split; cbn; [lia|]. intros i Hi. rewrite upd_other by lia. auto. Qed.

(** ** Changing one collection's dictionaries *)
Lemma listed_get h c k v : ok h c -> Listed h c k v <-> dget String.eqb (c_vars (h_coll h c)) k = Some v.
Proof.
  intros [C _ _ _ _]; split; intros H.
  - apply (in_dget _ String.eqb_spec); [apply (cs_once _ _ C)|exact H].
  - now apply (dget_in _ String.eqb_spec) in H.
Qed.
Lemma reg_get h c n d : ok h c -> Registered h c n d <-> dget String.eqb (c_dims (h_coll h c)) n = Some d.
Proof.
  intros [C _ _ _ _]; split; intros H.
  - apply (in_dget _ String.eqb_spec); [apply (cs_dims_once _ _ C)|exact H].
  - now apply (dget_in _ String.eqb_spec) in H.
Qed.

Definition hput (h : heap) (c : Z) (cc : coll) : heap := mkheap (h_dim h) (h_var h) (upd (h_coll h) c cc) (h_next h).
Definition vput (h : heap) (v : Z) (x : var) : heap := mkheap (h_dim h) (upd (h_var h) v x) (h_coll h) (h_next h).
Definition dput (h : heap) (d : Z) (x : dim) : heap := mkheap (upd (h_dim h) d x) (h_var h) (h_coll h) (h_next h).

(** The dictionaries of [c] shrink: variables may go, and dimensions that no
    variable left uses. *)
Lemma ok_shrink h c cc :
  ok h c ->
  NoDup (map fst (c_vars cc)) -> NoDup (map fst (c_dims cc)) ->
  (forall k v, In (k, v) (c_vars cc) -> Listed h c k v) ->
  (forall n d, In (n, d) (c_dims cc) -> Registered h c n d) ->
  (forall k v names n d, In (k, v) (c_vars cc) -> v_dims (h_var h v) = Some names -> In n names -> Registered h c n d -> In (n, d) (c_dims cc)) ->
  ok (hput h c cc) c.
Proof.
  intros [[C1 C2 C3 C4 C5 C6 C7] O1 O2 O3 O4] N1 N2 Hv Hd Hu.
  assert (HL : forall k v, Listed (hput h c cc) c k v <-> In (k, v) (c_vars cc)).
  { intros; unfold Listed, hput; cbn [h_coll]; now rewrite upd_same. }
  assert (HR : forall k v, Registered (hput h c cc) c k v <-> In (k, v) (c_dims cc)).
  { intros; unfold Registered, hput; cbn [h_coll]; now rewrite upd_same. }
  constructor; [constructor|..].
  - unfold hput; cbn [h_coll]; now rewrite upd_same.
  - unfold hput; cbn [h_coll]; now rewrite upd_same.
  - intros k v H; apply C3, Hv, HL, H.
  - intros k v H; eapply C4, Hv, HL, H.
  - intros n d H; apply C5, Hd, HR, H.
  - intros k v names H Hn n Hin. apply HL in H. destruct (C6 _ _ _ (Hv _ _ H) Hn _ Hin) as [d Hr]. exists d. apply HR; eauto.
  - intros k v names shape H Hn Hs. apply HL in H. eapply Forall2_impl; [|exact (C7 _ _ _ _ (Hv _ _ H) Hn Hs)].
    cbn beta. intros s n Hx d Hr. apply Hx, Hd, HR, Hr.
  - exact O1.
  - intros k v H; eapply O2, Hv, HL, H.
  - intros n d H; eapply O3, Hd, HR, H.
  - intros k v names H Hn; eapply O4; [apply Hv, HL, H|exact Hn].
Qed.

Lemma hput_other h c cc x : x <> c -> ok h x -> ok (hput h c cc) x.
Proof.
  intros Hne Ho; apply (ok_same h); [exact Ho|].
  split; [|split; [|split]]; cbn [h_coll h_var h_dim h_next hput]; auto; try lia.
  now rewrite upd_other.
Qed.
Lemma inv_hput L h c cc : inv L h -> (In c L -> ok (hput h c cc) c) -> inv L (hput h c cc).
Proof.
  intros Hi Hc x Hx. destruct (Z.eq_dec x c) as [->|Hne]; [auto|]. apply hput_other; auto.
Qed.

(** Only the tags change. *)
Lemma ok_tags h c t : ok h c -> ok (hput h c (set_tags (h_coll h c) t)) c.
Proof.
  intros Ho. apply ok_shrink; auto.
  - apply (cs_once _ _ (ok_cs _ _ Ho)).
  - apply (cs_dims_once _ _ (ok_cs _ _ Ho)).
Qed.
Lemma inv_tags L h c t : inv L h -> inv L (hput h c (set_tags (h_coll h c) t)).
Proof. intros Hi. apply inv_hput; auto. intros Hc. apply ok_tags; auto. Qed.

Lemma ok_pop_var h c k : ok h c -> ok (hput h c (set_vars (h_coll h c) (dremove String.eqb (c_vars (h_coll h c)) k))) c.
Proof.
  intros Ho. apply ok_shrink; cbn [set_vars c_vars c_dims]; auto.
  - apply dremove_nodup, (cs_once _ _ (ok_cs _ _ Ho)).
  - apply (cs_dims_once _ _ (ok_cs _ _ Ho)).
  - intros k' v' H. apply in_dremove in H. exact H.
Qed.
Lemma ok_pop_dim h c k :
  ok h c -> (forall kv v names, Listed h c kv v -> v_dims (h_var h v) = Some names -> ~ In k names) ->
  ok (hput h c (set_dims (h_coll h c) (dremove String.eqb (c_dims (h_coll h c)) k))) c.
Proof.
  intros Ho Hu. apply ok_shrink; cbn [set_dims c_vars c_dims]; auto.
  - apply (cs_once _ _ (ok_cs _ _ Ho)).
  - apply dremove_nodup, (cs_dims_once _ _ (ok_cs _ _ Ho)).
  - intros n d H. apply in_dremove in H. exact H.
  - intros k' v' names n d Hl Hn Hin Hr. apply (dget_in _ String.eqb_spec).
    rewrite (dget_dremove_other _ String.eqb_spec).
    + now apply reg_get.
    + intros ->. eapply Hu; eauto.
Qed.

Definition invp {A} (L : list Z) : res A -> heap -> Prop := fun _ h => inv L h.

Lemma tr_pop_var L c k : tr (inv L) (pop_var c k) (invp L).
Proof.
  intros h Hi. unfold pop_var, mbind, get_coll.
  destruct (dmem _ _ _); [|exact Hi].
  apply inv_hput; [exact Hi|]. intros Hc. apply ok_pop_var, Hi, Hc.
Qed.

(** ** [copy_coll] *)
Lemma copy_loop c' (l : list (string * Z)) : forall h pre,
  c' < h_next h ->
  c_vars (h_coll h c') = (pre ++ l)%list ->
  NoDup (map fst (pre ++ l)%list) ->
  (forall k v, In (k, v) l -> v < h_next h /\ v_name (h_var h v) = k) ->
  exists h' new,
    mfor (map snd l) (fun v => x <-- get_var v ;; v' <-- new_var (with_parent x (Some c')) ;;
      nc <-- get_coll c' ;; put_coll c' (set_vars nc (dset String.eqb (c_vars nc) (v_name x) v'))) h = (h', Ok tt)
    /\ h_next h <= h_next h'
    /\ (forall i, i < h_next h -> h_var h' i = h_var h i /\ h_dim h' i = h_dim h i /\ (i <> c' -> h_coll h' i = h_coll h i))
    /\ h_coll h' c' = set_vars (h_coll h c') (pre ++ new)%list
    /\ Forall2 (fun kv kv' => fst kv' = fst kv /\ h_next h <= snd kv' < h_next h'
                              /\ h_var h' (snd kv') = with_parent (h_var h (snd kv)) (Some c')) l new.
Proof.
  induction l as [|[k v] l IH]; intros h pre Hc Hv Hnd Hl.
  - exists h, []. cbn [map mfor]. split; [reflexivity|]. split; [lia|]. split; [auto|]. split; [|constructor].
    rewrite app_nil_r in *. destruct (h_coll h c'); cbn in *; now subst.
  - destruct (Hl k v (or_introl eq_refl)) as [Hvl Hvn].
    set (n := h_next h).
    set (x := with_parent (h_var h v) (Some c')).
    set (h1 := hput (fst (new_var x h)) c' (set_vars (h_coll h c') (pre ++ (k, n) :: l)%list)).
    assert (Hset : dset String.eqb (pre ++ (k, v) :: l)%list k n = (pre ++ (k, n) :: l)%list).
    { rewrite map_app in Hnd; cbn [map fst] in Hnd. apply NoDup_remove_2 in Hnd.
      assert (Hp : ~ In k (map fst pre)) by (intros H; apply Hnd, in_or_app; now left).
      clear -Hp. induction pre as [|[k' v'] pre IHp]; cbn [app dset].
      - now rewrite String.eqb_refl.
      - destruct (String.eqb_spec k k') as [->|]; [exfalso; apply Hp; now left|].
        rewrite IHp; [reflexivity|]. intros H; apply Hp; now right. }
    destruct (IH h1 (pre ++ [(k, n)])%list) as [h' [new [Hrun [Hn [Hfr [Hcol Hall]]]]]].
    + unfold h1, hput, new_var; cbn [h_next fst]. lia.
    + unfold h1, hput; cbn [h_coll]. rewrite upd_same. cbn. now rewrite <- app_assoc.
    + rewrite <- app_assoc. rewrite !map_app in *. cbn [map fst app] in *. exact Hnd.
    + intros k2 v2 Hin. destruct (Hl k2 v2 (or_intror Hin)) as [A B].
      unfold h1, hput, new_var; cbn [h_next h_var fst]. rewrite upd_other by (fold n; lia). split; [lia|exact B].
    + exists h', ((k, n) :: new). split; [|split; [|split; [|split]]].
      * cbn [map snd mfor]. rewrite <- Hrun.
        rewrite (bind_ok _ _ h h1 tt); [reflexivity|].
        unfold mbind, get_var, new_var, get_coll, put_coll; cbn [h_coll h_var h_dim h_next].
        rewrite Hv, Hvn; fold n; rewrite Hset. reflexivity.
      * unfold h1, hput, new_var in Hn; cbn [h_next fst] in Hn. lia.
      * intros i Hi. destruct (Hfr i) as [A [B C]]; [unfold h1, hput, new_var; cbn [h_next fst]; lia|].
        rewrite A, B. unfold h1, hput, new_var; cbn [h_var h_dim fst].
        rewrite upd_other by (fold n; lia). split; [reflexivity|split; [reflexivity|]].
        intros Hne. rewrite (C Hne). unfold h1, hput, new_var; cbn [h_coll fst]. now rewrite upd_other.
      * rewrite Hcol. unfold h1, hput; cbn [h_coll]. rewrite upd_same. cbn. now rewrite <- app_assoc.
      * constructor.
        -- cbn [fst snd]. split; [reflexivity|]. unfold h1, hput, new_var in Hn; cbn [h_next fst] in Hn.
           split; [unfold n in *; lia|].
           destruct (Hfr n) as [A _]; [unfold h1, hput, new_var; cbn [h_next fst]; unfold n; lia|].
           rewrite A. unfold h1, hput, new_var; cbn [h_var fst]. unfold n. now rewrite upd_same.
        -- assert (HF : forall (A B : Type) (P Q : A -> B -> Prop) (la : list A) (lb : list B),
             (forall a b, In a la -> P a b -> Q a b) -> Forall2 P la lb -> Forall2 Q la lb).
           { intros A0 B0 P Q la lb Himp HP. induction HP; constructor; [apply Himp; [now left|assumption]|].
             apply IHHP. intros; apply Himp; [now right|assumption]. }
           eapply HF; [|exact Hall]. clear HF. intros [k2 v2] [k3 v3] Hin [A [B C]]. cbn [fst snd] in *.
           split; [exact A|]. unfold h1, hput, new_var in B, C; cbn [h_next h_var fst] in B, C.
           split; [unfold n in *; lia|]. rewrite C. rewrite upd_other; [reflexivity|].
           destruct (Hl k2 v2 (or_intror Hin)). unfold n in *; lia.
Qed.

(** What a copy is. *)
Record copied (h : heap) (c : Z) (h' : heap) (c' : Z) : Prop := {
  cp_ext : ext h h';
  cp_fresh : h_next h <= c' < h_next h';
  cp_dims : c_dims (h_coll h' c') = c_dims (h_coll h c);
  cp_tags : c_tags (h_coll h' c') = c_tags (h_coll h c);
  cp_vars : Forall2 (fun kv kv' => fst kv' = fst kv /\ h_next h <= snd kv' < h_next h'
                              /\ h_var h' (snd kv') = with_parent (h_var h (snd kv)) (Some c'))
              (c_vars (h_coll h c)) (c_vars (h_coll h' c')) }.

Lemma copy_coll_spec h c : ok h c -> exists h' c', copy_coll c h = (h', Ok c') /\ copied h c h' c'.
Proof.
  intros Ho. destruct Ho as [[C1 C2 C3 C4 C5 C6 C7] O1 O2 O3 O4] eqn:E. clear E.
  set (h1 := fst (new_coll (h_coll h c) h)). set (c' := h_next h).
  destruct (copy_loop c' (c_vars (h_coll h c)) h1 []) as [h' [new [Hrun [Hn [Hfr [Hcol Hall]]]]]].
  - unfold h1, new_coll, c'; cbn. lia.
  - unfold h1, new_coll, c'; cbn. now rewrite upd_same.
  - exact C1.
  - intros k v Hin. unfold h1, new_coll; cbn. split; [specialize (O2 _ _ Hin); lia|]. now apply C3.
  - assert (Hn1 : h_next h1 = h_next h + 1) by reflexivity.
    exists h', c'. split.
    + unfold copy_coll. unfold mbind at 1, get_coll at 1. unfold mbind at 1.
      change (new_coll (h_coll h c) h) with (h1, Ok c'). cbv iota beta. unfold mbind at 1.
      rewrite Hrun. reflexivity.
    + assert (Hc1 : h_coll h1 c' = h_coll h c) by (unfold h1, new_coll, c'; cbn; now rewrite upd_same).
      rewrite Hc1 in Hcol. cbn [app] in Hcol.
      constructor.
      * split; [lia|]. intros i Hi. destruct (Hfr i) as [A [B C]]; [lia|].
        rewrite A, B. split; [reflexivity|split; [reflexivity|]].
        rewrite C by (unfold c'; lia). unfold h1, new_coll; cbn. now rewrite upd_other by lia.
      * unfold c'; lia.
      * now rewrite Hcol.
      * now rewrite Hcol.
      * rewrite Hcol. cbn [set_vars c_vars]. eapply Forall2_impl; [|exact Hall]. cbn beta.
        intros a b [A [B C]]. split; [exact A|split; [lia|exact C]].
Qed.

Lemma forall2_in_r {A B} (R : A -> B -> Prop) la lb b : Forall2 R la lb -> In b lb -> exists a, In a la /\ R a b.
Proof.
  induction 1; intros H'; [destruct H'|]. destruct H' as [<-|H']; [eexists; split; [now left|assumption]|].
  destruct (IHForall2 H') as [a [? ?]]; exists a; split; [now right|assumption].
Qed.
Lemma forall2_in_l {A B} (R : A -> B -> Prop) la lb a : Forall2 R la lb -> In a la -> exists b, In b lb /\ R a b.
Proof.
  induction 1; intros H'; [destruct H'|]. destruct H' as [<-|H']; [eexists; split; [now left|assumption]|].
  destruct (IHForall2 H') as [b [? ?]]; exists b; split; [now right|assumption].
Qed.
Lemma forall2_fst {A B C} (R : (A * B) -> (A * C) -> Prop) la lb :
  (forall a b, R a b -> fst b = fst a) -> Forall2 R la lb -> map fst lb = map fst la.
Proof. intros H; induction 1; cbn [map]; [reflexivity|]. f_equal; auto. Qed.

Lemma copied_listed h c h' c' k v' :
  copied h c h' c' -> Listed h' c' k v' ->
  exists v, Listed h c k v /\ h_next h <= v' < h_next h' /\ h_var h' v' = with_parent (h_var h v) (Some c').
Proof.
  intros Hcp Hl. destruct (forall2_in_r _ _ _ _ (cp_vars _ _ _ _ Hcp) Hl) as [[k0 v] [Hin [A [B C]]]].
  cbn [fst snd] in *. subst. exists v. auto.
Qed.

Lemma copied_ok h c h' c' : ok h c -> copied h c h' c' -> ok h' c'.
Proof.
  intros Ho Hcp. pose proof Ho as [[C1 C2 C3 C4 C5 C6 C7] O1 O2 O3 O4].
  destruct (cp_ext _ _ _ _ Hcp) as [Hn Hex].
  assert (HR : forall n d, Registered h' c' n d <-> Registered h c n d).
  { intros; unfold Registered; now rewrite (cp_dims _ _ _ _ Hcp). }
  constructor; [constructor|..].
  - rewrite (forall2_fst _ _ _ (fun a b H => proj1 H) (cp_vars _ _ _ _ Hcp)). exact C1.
  - rewrite (cp_dims _ _ _ _ Hcp). exact C2.
  - intros k v' Hl. destruct (copied_listed _ _ _ _ _ _ Hcp Hl) as [v [Hv [_ ->]]]. cbn. now apply C3.
  - intros k v' Hl. destruct (copied_listed _ _ _ _ _ _ Hcp Hl) as [v [Hv [_ ->]]]. reflexivity.
  - intros n d Hr. apply HR in Hr. destruct (Hex d (O3 _ _ Hr)) as [_ [-> _]]. auto.
  - intros k v' names Hl Hd n Hin. destruct (copied_listed _ _ _ _ _ _ Hcp Hl) as [v [Hv [_ E]]]. rewrite E in Hd. cbn in Hd.
    destruct (C6 _ _ _ Hv Hd _ Hin) as [d Hr]. exists d; now apply HR.
  - intros k v' names shape Hl Hd Hs. destruct (copied_listed _ _ _ _ _ _ Hcp Hl) as [v [Hv [_ E]]]. rewrite E in Hd, Hs. cbn in Hd, Hs.
    eapply Forall2_impl; [|exact (C7 _ _ _ _ Hv Hd Hs)]. cbn beta. intros s n Hx d Hr. apply HR in Hr.
    destruct (Hex d (O3 _ _ Hr)) as [_ [-> _]]. auto.
  - apply (cp_fresh _ _ _ _ Hcp).
  - intros k v' Hl. destruct (copied_listed _ _ _ _ _ _ Hcp Hl) as [v [Hv [H _]]]. lia.
  - intros n d Hr. apply HR in Hr. specialize (O3 _ _ Hr). lia.
  - intros k v' names Hl Hd. destruct (copied_listed _ _ _ _ _ _ Hcp Hl) as [v [Hv [_ E]]]. rewrite E in Hd. cbn in Hd. eauto.
Qed.

(** ** Only collection [c] changed *)
Record hm (c : Z) (h h' : heap) : Prop := {
  hm_next : h_next h' = h_next h;
  hm_var : h_var h' = h_var h;
  hm_dim : h_dim h' = h_dim h;
  hm_coll : forall i, i <> c -> h_coll h' i = h_coll h i }.
Lemma hm_refl c h : hm c h h.
Proof. constructor; auto. Qed.
Lemma hm_trans c h1 h2 h3 : hm c h1 h2 -> hm c h2 h3 -> hm c h1 h3.
Proof. intros [A B C D] [E F G H]; constructor; try congruence. intros i Hi. rewrite H, D; auto. Qed.
Lemma hm_hput c h cc : hm c h (hput h c cc).
Proof. constructor; try reflexivity. intros i Hi. cbn. now rewrite upd_other. Qed.
Lemma hm_other c h h' x : hm c h h' -> x <> c -> ok h x -> ok h' x.
Proof.
  intros [A B C D] Hne Ho. apply (ok_same h); [exact Ho|]. split; [auto|]. rewrite B, C, A. repeat split; auto; lia.
Qed.
Lemma ok_hm h h' c :
  ok h c -> hm c h h' ->
  NoDup (map fst (c_vars (h_coll h' c))) -> NoDup (map fst (c_dims (h_coll h' c))) ->
  (forall k v, Listed h' c k v -> Listed h c k v) ->
  (forall n d, Registered h' c n d -> Registered h c n d) ->
  (forall k v names n d, Listed h' c k v -> v_dims (h_var h v) = Some names -> In n names -> Registered h c n d -> Registered h' c n d) ->
  ok h' c.
Proof.
  intros Ho [A B C D] N1 N2 Hv Hd Hu.
  apply (ok_same (hput h c (h_coll h' c))).
  - apply ok_shrink; auto.
  - split; [cbn; now rewrite upd_same|]. cbn [hput h_var h_dim h_next]. rewrite B, C, A. repeat split; auto; lia.
Qed.

(** Removing several keys. *)
Definition rem {V} (l : list string) (d : list (string * V)) : list (string * V) := fold_left (fun d k => dremove String.eqb d k) l d.
Lemma rem_nodup {V} l : forall (d : list (string * V)), NoDup (map fst d) -> NoDup (map fst (rem l d)).
Proof. induction l as [|k l IH]; intros d H; [exact H|]. cbn [rem fold_left]. apply IH. now apply dremove_nodup. Qed.
Lemma in_dremove_iff {V} (d : list (string * V)) k k' v :
  NoDup (map fst d) -> In (k', v) (dremove String.eqb d k) <-> In (k', v) d /\ k' <> k.
Proof.
  intros Hn. split.
  - intros H. split; [now apply in_dremove in H|]. intros ->.
    apply (in_dget _ String.eqb_spec) in H; [|now apply dremove_nodup].
    rewrite (dget_dremove_same _ String.eqb_spec) in H; [discriminate|exact Hn].
  - intros [H Hne]. apply (dget_in _ String.eqb_spec). rewrite (dget_dremove_other _ String.eqb_spec) by auto.
    now apply (in_dget _ String.eqb_spec).
Qed.
Lemma in_rem {V} l : forall (d : list (string * V)) k v,
  NoDup (map fst d) -> In (k, v) (rem l d) <-> In (k, v) d /\ ~ In k l.
Proof.
  induction l as [|a l IH]; intros d k v H; [cbn; tauto|].
  change (rem (a :: l) d) with (rem l (dremove String.eqb d a)).
  rewrite (IH _ _ _ (dremove_nodup _ _ _ H)), in_dremove_iff by exact H. cbn [In]. intuition congruence.
Qed.
Lemma dmem_in {V} (d : list (string * V)) k : dmem String.eqb d k = true <-> In k (map fst d).
Proof.
  unfold dmem. split.
  - destruct (dget String.eqb d k) eqn:E; [|discriminate]. intros _. apply (dget_in _ String.eqb_spec) in E.
    now apply in_map with (f := fst) in E.
  - intros H. apply in_map_iff in H as [[k' v] [<- Hin]]. cbn [fst].
    destruct (dget String.eqb d k') eqn:E; [reflexivity|]. exfalso. eapply (dget_none _ String.eqb_spec); [exact E|].
    now apply in_map with (f := fst) in Hin.
Qed.
