(** Proofs for C17, C18 and the broadcasting part of C46. *)
From Verif Require Import Py Lib Spec PartitionModel NdModel NdSpec.

(** ** set_nth, swap_list *)
Lemma set_nth_length {A} (l : list A) n x : List.length (set_nth l n x) = List.length l.
Proof. revert n; induction l as [|y t IH]; intros [|n]; cbn; congruence. Qed.

Lemma nth_error_set_nth_same {A} (l : list A) n x : (n < List.length l)%nat -> nth_error (set_nth l n x) n = Some x.
Proof. revert n; induction l as [|y t IH]; intros [|n] H; cbn in *; try lia; [reflexivity|apply IH; lia]. Qed.

Lemma nth_error_set_nth_other {A} (l : list A) n k x : k <> n -> nth_error (set_nth l n x) k = nth_error l k.
Proof. revert n k; induction l as [|y t IH]; intros [|n] [|k] H; cbn; try reflexivity; try congruence. apply IH; congruence. Qed.

Lemma map_set_nth {A B} (f : A -> B) l n x : map f (set_nth l n x) = set_nth (map f l) n (f x).
Proof. revert n; induction l as [|y t IH]; intros [|n]; cbn; try reflexivity. rewrite IH; reflexivity. Qed.

Lemma map_swap {A B} (f : A -> B) i j l : map f (swap_list i j l) = swap_list i j (map f l).
Proof.
  unfold swap_list. rewrite !nth_error_map.
  destruct (nth_error l i) as [a|]; cbn [option_map]; [|reflexivity].
  destruct (nth_error l j) as [b|]; cbn [option_map]; [|reflexivity].
  rewrite !map_set_nth. reflexivity.
Qed.

Lemma swap_exchanged {A} i j (l : list A) : (i < List.length l)%nat -> (j < List.length l)%nat -> Exchanged i j l (swap_list i j l).
Proof.
  intros Hi Hj. unfold swap_list.
  destruct (nth_error l i) as [a|] eqn:Ea; [|apply nth_error_None in Ea; lia].
  destruct (nth_error l j) as [b|] eqn:Eb; [|apply nth_error_None in Eb; lia].
  unfold Exchanged. rewrite !set_nth_length. repeat split; try assumption.
  - destruct (Nat.eq_dec i j) as [->|Hne].
    + rewrite nth_error_set_nth_same by (rewrite set_nth_length; lia). congruence.
    + rewrite nth_error_set_nth_other by exact Hne. rewrite nth_error_set_nth_same by lia. congruence.
  - rewrite nth_error_set_nth_same by (rewrite set_nth_length; lia). congruence.
  - intros k H1 H2. rewrite !nth_error_set_nth_other by assumption. reflexivity.
Qed.

Lemma nth_error_ext' {A} : forall l1 l2 : list A, (forall k, nth_error l1 k = nth_error l2 k) -> l1 = l2.
Proof.
  induction l1 as [|x t IH]; intros [|y u] H; try reflexivity.
  - specialize (H O); discriminate. - specialize (H O); discriminate.
  - pose proof (H O) as H0. injection H0 as ->. f_equal. apply IH. intros k. exact (H (S k)).
Qed.

Lemma exchanged_unique {A} i j (l m m' : list A) : Exchanged i j l m -> Exchanged i j l m' -> m = m'.
Proof.
  intros [L1 [_ [_ [A1 [A2 A3]]]]] [L2 [_ [_ [B1 [B2 B3]]]]]. apply nth_error_ext'. intros k.
  destruct (Nat.eq_dec k i) as [->|Hi]; [congruence|]. destruct (Nat.eq_dec k j) as [->|Hj]; [congruence|].
  rewrite A3, B3 by assumption. reflexivity.
Qed.

Lemma exchanged_sym {A} i j (l m : list A) : Exchanged i j l m -> Exchanged i j m l.
Proof.
  intros [L1 [Hi [Hj [A1 [A2 A3]]]]]. unfold Exchanged. repeat split; try congruence; try lia.
  intros k H1 H2. rewrite A3 by assumption. reflexivity.
Qed.

Lemma swap_swap {A} i j (l : list A) : (i < List.length l)%nat -> (j < List.length l)%nat -> swap_list i j (swap_list i j l) = l.
Proof.
  intros Hi Hj. pose proof (swap_exchanged i j l Hi Hj) as H. pose proof (exchanged_sym _ _ _ _ H) as H'.
  destruct H as [L _]. eapply exchanged_unique; [|exact H']. apply swap_exchanged; lia.
Qed.

Lemma swap_length {A} i j (l : list A) : List.length (swap_list i j l) = List.length l.
Proof. unfold swap_list. destruct (nth_error l i), (nth_error l j); rewrite ?set_nth_length; reflexivity. Qed.

(** ** names *)
Lemma str_mem_In x l : str_mem x l = true <-> In x l.
Proof.
  unfold str_mem. rewrite existsb_exists. split; [intros [y [H E]]; apply String.eqb_eq in E; subst; exact H|].
  intros H; exists x; split; [exact H|apply String.eqb_refl].
Qed.

Lemma str_mem_nIn x l : str_mem x l = false <-> ~ In x l.
Proof. rewrite <- str_mem_In. destruct (str_mem x l); split; congruence. Qed.

Lemma str_index_ok l x : In x l -> exists k, str_index l x = Ok k /\ nth_error l k = Some x.
Proof.
  induction l as [|y t IH]; intros H; [destruct H|]. cbn [str_index]. destruct (String.eqb y x) eqn:E.
  - apply String.eqb_eq in E; subst. exists O; split; reflexivity.
  - destruct H as [->|H]; [rewrite String.eqb_refl in E; discriminate|]. destruct (IH H) as [k [E1 E2]].
    rewrite E1. cbn [bind]. exists (S k); split; [reflexivity|exact E2].
Qed.

Lemma nodup_nth_inj {A} (l : list A) i j x : NoDup l -> nth_error l i = Some x -> nth_error l j = Some x -> i = j.
Proof.
  intros Hn Hi Hj. apply (proj1 (NoDup_nth_error l) Hn); [apply nth_error_Some; congruence|congruence].
Qed.

Lemma str_index_nth l k x : NoDup l -> nth_error l k = Some x -> str_index l x = Ok k.
Proof.
  intros Hn Hk. destruct (str_index_ok l x (nth_error_In _ _ Hk)) as [k' [E1 E2]].
  rewrite E1. f_equal. eapply nodup_nth_inj; eassumption.
Qed.

(** ** get_swap_chain *)
Definition same_set (a b : list string) : Prop := forall x, In x a <-> In x b.

Lemma exchanged_In {A} i j (l m : list A) x : Exchanged i j l m -> In x m -> In x l.
Proof.
  intros [L [Hi [Hj [A1 [A2 A3]]]]] H. apply In_nth_error in H. destruct H as [k E].
  destruct (Nat.eq_dec k i) as [->|H1]; [rewrite A1 in E; eapply nth_error_In; exact E|].
  destruct (Nat.eq_dec k j) as [->|H2]; [rewrite A2 in E; eapply nth_error_In; exact E|].
  rewrite A3 in E by assumption. eapply nth_error_In; exact E.
Qed.

Lemma exchanged_NoDup {A} i j (l m : list A) : Exchanged i j l m -> NoDup l -> NoDup m.
Proof.
  intros H Hn. pose proof H as [L [Hi [Hj [A1 [A2 A3]]]]]. apply NoDup_nth_error. intros a b Ha E.
  set (tr := fun k => if Nat.eq_dec k i then j else if Nat.eq_dec k j then i else k).
  assert (Htr : forall k, nth_error m k = nth_error l (tr k)).
  { intros k. unfold tr. destruct (Nat.eq_dec k i) as [->|]; [exact A1|]. destruct (Nat.eq_dec k j) as [->|]; [exact A2|]. apply A3; assumption. }
  rewrite !Htr in E. apply (proj1 (NoDup_nth_error l) Hn) in E.
  - unfold tr in E. destruct (Nat.eq_dec a i), (Nat.eq_dec a j), (Nat.eq_dec b i), (Nat.eq_dec b j); lia.
  - unfold tr. destruct (Nat.eq_dec a i); [lia|]. destruct (Nat.eq_dec a j); lia.
Qed.

Lemma same_set_length a b : NoDup a -> NoDup b -> same_set a b -> List.length a = List.length b.
Proof.
  intros Ha Hb H. apply Nat.le_antisymm; apply NoDup_incl_length; try assumption; intros x Hx; apply H; exact Hx.
Qed.

Lemma app_exchanged_along {A} c1 i j (l m m' : list A) : ExchangedAlong c1 l m -> Exchanged i j m m' -> ExchangedAlong (c1 ++ [(i, j)]) l m'.
Proof.
  revert l. induction c1 as [|[a b] t IH]; intros l H1 H2; cbn [app ExchangedAlong] in *.
  - subst. exists m'. split; [exact H2|reflexivity].
  - destruct H1 as [q [Hq H1]]. exists q. split; [exact Hq|]. apply IH; assumption.
Qed.

Lemma swap_steps desired actual : NoDup desired ->
  forall k src running ops, (src + k = List.length desired)%nat ->
  NoDup running -> same_set running desired ->
  ExchangedAlong ops actual running -> Forall (fun p => (fst p < List.length desired)%nat /\ (snd p < List.length desired)%nat) ops ->
  (forall i, (i < src)%nat -> nth_error running i = nth_error desired i) ->
  exists ops', fold_res (swap_step desired) (seq src k) (running, ops) = Ok (desired, ops') /\
    ExchangedAlong ops' actual desired /\ Forall (fun p => (fst p < List.length desired)%nat /\ (snd p < List.length desired)%nat) ops'.
Proof.
  intros Hd. induction k as [|k IH]; intros src running ops Hk Hr Hs Hex HF Hpre.
  - pose proof (same_set_length _ _ Hr Hd Hs) as Hlen.
    assert (running = desired) as ->.
    { apply nth_error_ext'. intros i. destruct (Nat.lt_ge_cases i src) as [H|H]; [apply Hpre; exact H|].
      rewrite (proj2 (nth_error_None running i)), (proj2 (nth_error_None desired i)) by lia. reflexivity. }
    exists ops. split; [reflexivity|]. split; assumption.
  - pose proof (same_set_length _ _ Hr Hd Hs) as Hlen.
    cbn [seq fold_res]. unfold swap_step at 1.
    destruct (nth_error running src) as [a|] eqn:Ea; [|apply nth_error_None in Ea; lia].
    destruct (nth_error desired src) as [b|] eqn:Eb; [|apply nth_error_None in Eb; lia].
    destruct (String.eqb a b) eqn:E.
    + apply String.eqb_eq in E; subst b. cbn [bind]. apply IH; try assumption; [lia|].
      intros i Hi. destruct (Nat.eq_dec i src) as [->|]; [congruence|]. apply Hpre; lia.
    + assert (Hin : In b running) by (apply Hs; eapply nth_error_In; exact Eb).
      destruct (str_index_ok running b Hin) as [dst [E1 E2]]. rewrite E1. cbn [bind].
      assert (Hdst : (dst < List.length running)%nat) by (apply nth_error_Some; congruence).
      assert (Hge : (src < dst)%nat).
      { destruct (Nat.lt_trichotomy src dst) as [H|[->|H]]; [exact H| |].
        - rewrite Ea in E2. injection E2 as ->. rewrite String.eqb_refl in E. discriminate.
        - rewrite Hpre in E2 by exact H. assert (dst = src) by (eapply nodup_nth_inj; [exact Hd|exact E2|exact Eb]). lia. }
      pose proof (swap_exchanged src dst running ltac:(lia) Hdst) as Hx.
      apply IH.
      * lia.
      * eapply exchanged_NoDup; eassumption.
      * intros x. rewrite <- (Hs x). split; [eapply exchanged_In; exact Hx|eapply exchanged_In; apply exchanged_sym; exact Hx].
      * eapply app_exchanged_along; eassumption.
      * apply Forall_app. split; [exact HF|]. constructor; [cbn; lia|constructor].
      * intros i Hi. destruct Hx as [_ [_ [_ [A1 [A2 A3]]]]]. destruct (Nat.eq_dec i src) as [->|Hne].
        -- rewrite A1, E2, Eb. reflexivity.
        -- rewrite A3 by lia. apply Hpre; lia.
Qed.

Theorem get_swap_chain_spec actual desired : NoDup actual -> NoDup desired -> (forall x, In x actual <-> In x desired) ->
  exists chain, get_swap_chain actual desired = Ok chain /\ ExchangedAlong chain actual desired.
Proof.
  intros Ha Hd Hs. unfold get_swap_chain.
  replace (forallb (fun x => str_mem x desired) actual) with true
    by (symmetry; apply forallb_forall; intros x Hx; apply str_mem_In, Hs; exact Hx).
  replace (forallb (fun x => str_mem x actual) desired) with true
    by (symmetry; apply forallb_forall; intros x Hx; apply str_mem_In, Hs; exact Hx).
  cbn [andb]. rewrite (same_set_length _ _ Ha Hd Hs).
  destruct (swap_steps desired actual Hd (List.length desired) 0 actual []) as [ops [E [H _]]]; try assumption; try lia.
  - reflexivity.
  - constructor.
  - rewrite E. cbn [bind snd]. exists ops. split; [reflexivity|exact H].
Qed.

(** Swapping the axes of an array along a chain. *)
Lemma exchanged_along_swaps {A} chain : forall (l l' : list A), ExchangedAlong chain l l' ->
  fold_left (fun x sc => swap_list (fst sc) (snd sc) x) chain l = l'.
Proof.
  induction chain as [|[i j] t IH]; intros l l' H; cbn [ExchangedAlong fold_left fst snd] in *; [congruence|].
  destruct H as [m [Hm H]]. assert (swap_list i j l = m) as ->.
  { eapply exchanged_unique; [|exact Hm]. destruct Hm as [_ [Hi [Hj _]]]. apply swap_exchanged; assumption. }
  apply IH; exact H.
Qed.

Lemma swapaxes_chain {A} (sz : string -> Z) chain : forall (names names' : list string) (arr : nd A),
  ExchangedAlong chain names names' -> nd_shape arr = map sz names ->
  let arr' := fold_left (fun a sc => np_swapaxes (fst sc) (snd sc) a) chain arr in
  nd_shape arr' = map sz names' /\ forall f : string -> Z, nd_at arr' (map f names') = nd_at arr (map f names).
Proof.
  induction chain as [|[i j] t IH]; intros names names' arr H Hsh; cbn [ExchangedAlong fold_left fst snd] in *.
  - subst. split; [exact Hsh|reflexivity].
  - destruct H as [m [Hm H]]. pose proof Hm as [_ [Hi [Hj _]]].
    assert (Em : swap_list i j names = m) by (eapply exchanged_unique; [apply swap_exchanged; assumption|exact Hm]).
    destruct (IH m names' (np_swapaxes i j arr) H) as [E1 E2].
    + cbn [np_swapaxes nd_shape]. rewrite Hsh, <- map_swap, Em. reflexivity.
    + split; [exact E1|]. intros f. rewrite E2. cbn [np_swapaxes nd_at]. rewrite <- Em, map_swap.
      rewrite swap_swap by (rewrite map_length; assumption). reflexivity.
Qed.

(** ** squeeze *)
Definition kept (dst : list string) (n : string) : bool := str_mem n dst.

Lemma axes_of_squeeze src dst : NoDup src ->
  exists axes, map_res (str_index src) (filter (fun dn => negb (kept dst dn)) src) = Ok axes /\
  forall k n, nth_error src k = Some n -> existsb (Nat.eqb k) axes = negb (kept dst n).
Proof.
  intros Hn.
  assert (H : forall l, incl l src -> exists axes, map_res (str_index src) (filter (fun dn => negb (kept dst dn)) l) = Ok axes /\
     forall k, existsb (Nat.eqb k) axes = true <-> exists n, In n l /\ nth_error src k = Some n /\ kept dst n = false).
  { induction l as [|y t IH]; intros Hinc.
    - exists []. split; [reflexivity|]. intros k; cbn. split; [discriminate|intros [n [[] _]]].
    - destruct IH as [axes [E Hax]]; [intros z Hz; apply Hinc; right; exact Hz|]. cbn [filter].
      destruct (kept dst y) eqn:Ey; cbn [negb].
      + exists axes. split; [exact E|]. intros k. rewrite Hax. split.
        * intros [n [H1 H2]]. exists n. split; [right; exact H1|exact H2].
        * intros [n [[->|H1] [H2 H3]]]; [congruence|]. exists n; tauto.
      + destruct (str_index_ok src y) as [p [Ep Hp]]; [apply Hinc; left; reflexivity|].
        cbn [map_res]. rewrite Ep; cbn [bind]. rewrite E; cbn [bind]. exists (p :: axes). split; [reflexivity|].
        intros k. cbn [existsb]. rewrite orb_true_iff, Hax, Nat.eqb_eq. split.
        * intros [->|[n [H1 H2]]]; [exists y; split; [left; reflexivity|tauto]|exists n; split; [right; exact H1|exact H2]].
        * intros [n [[<-|H1] [H2 H3]]]; [left; eapply nodup_nth_inj; [exact Hn|exact H2|exact Hp]|right; exists n; tauto]. }
  destruct (H src (incl_refl _)) as [axes [E Hax]]. exists axes. split; [exact E|].
  intros k n Hk. destruct (existsb (Nat.eqb k) axes) eqn:Ee.
  - apply Hax in Ee. destruct Ee as [n' [_ [H1 H2]]]. rewrite Hk in H1. injection H1 as <-. rewrite H2. reflexivity.
  - destruct (kept dst n) eqn:Ek; [reflexivity|]. exfalso.
    assert (existsb (Nat.eqb k) axes = true) by (apply Hax; exists n; split; [eapply nth_error_In; exact Hk|tauto]). congruence.
Qed.

Lemma drop_axes_filter (sz : string -> Z) dst axes : forall src k,
  (forall i n, nth_error src i = Some n -> existsb (Nat.eqb (k + i)) axes = negb (kept dst n)) ->
  drop_axes k axes (map sz src) = map sz (filter (kept dst) src).
Proof.
  induction src as [|n t IH]; intros k H; [reflexivity|]. cbn [map drop_axes filter].
  pose proof (H O n eq_refl) as H0. rewrite Nat.add_0_r in H0. rewrite H0.
  assert (Hrest : drop_axes (S k) axes (map sz t) = map sz (filter (kept dst) t)).
  { apply IH. intros i m Hi. replace (S k + i)%nat with (k + S i)%nat by lia. apply H; exact Hi. }
  destruct (kept dst n); cbn [negb map]; rewrite Hrest; reflexivity.
Qed.

Lemma add_axes_filter (sz f : string -> Z) dst axes : forall src k,
  (forall i n, nth_error src i = Some n -> existsb (Nat.eqb (k + i)) axes = negb (kept dst n)) ->
  (forall n, In n src -> kept dst n = false -> f n = 0) ->
  add_axes k axes (map sz src) (map f (filter (kept dst) src)) = map f src.
Proof.
  induction src as [|n t IH]; intros k H Hf; [reflexivity|]. cbn [map add_axes filter].
  pose proof (H O n eq_refl) as H0. rewrite Nat.add_0_r in H0. rewrite H0.
  assert (Hrest : add_axes (S k) axes (map sz t) (map f (filter (kept dst) t)) = map f t).
  { apply IH; [|intros m Hm; apply Hf; right; exact Hm]. intros i m Hi. replace (S k + i)%nat with (k + S i)%nat by lia. apply H; exact Hi. }
  destruct (kept dst n) eqn:Ek; cbn [negb map].
  - rewrite Hrest. reflexivity.
  - rewrite Hrest, (Hf n); [reflexivity|left; reflexivity|exact Ek].
Qed.

(** ** reshape with singletons *)
Lemma insert_singletons (sz : string -> Z) src : forall dst pre,
  fold_left (fun s p => py_insert s (fst p) 1)
    (filter (fun p => negb (str_mem (snd p) src)) (enumerate (List.length pre) dst))
    (pre ++ map sz (filter (fun dn => str_mem dn src) dst)) = pre ++ map (size_after src sz) dst.
Proof.
  induction dst as [|n t IH]; intros pre; [reflexivity|]. cbn [enumerate filter snd map].
  unfold size_after at 1. destruct (str_mem n src) eqn:E; cbn [negb].
  - cbn [map]. specialize (IH (pre ++ [sz n])). rewrite app_length in IH. cbn [List.length] in IH.
    rewrite Nat.add_1_r in IH. rewrite <- !app_assoc in IH. cbn [app] in IH. exact IH.
  - cbn [fold_left fst]. unfold py_insert. rewrite firstn_app, Nat.sub_diag, firstn_all, skipn_app, Nat.sub_diag, skipn_all. cbn [firstn skipn app].
    rewrite app_nil_r. specialize (IH (pre ++ [1])). rewrite app_length in IH. cbn [List.length] in IH.
    rewrite Nat.add_1_r in IH. rewrite <- !app_assoc in IH. cbn [app] in IH. exact IH.
Qed.

Lemma zprodl_size_after (sz : string -> Z) src : forall dst,
  zprodl (map (size_after src sz) dst) = zprodl (map sz (filter (fun dn => str_mem dn src) dst)).
Proof.
  induction dst as [|n t IH]; [reflexivity|]. cbn [map zprodl fold_right filter]. fold (zprodl (map (size_after src sz) t)).
  rewrite IH. unfold size_after. destruct (str_mem n src); cbn [map zprodl fold_right]; [reflexivity|].
  fold (zprodl (map sz (filter (fun dn => str_mem dn src) t))). lia.
Qed.

Lemma ravel_size_after (sz f : string -> Z) src : forall dst,
  (forall n, In n dst -> str_mem n src = false -> f n = 0) ->
  ravel (map (size_after src sz) dst) (map f dst) =
  ravel (map sz (filter (fun dn => str_mem dn src) dst)) (map f (filter (fun dn => str_mem dn src) dst)).
Proof.
  induction dst as [|n t IH]; intros Hf; [reflexivity|]. cbn [map ravel filter].
  rewrite IH by (intros m Hm; apply Hf; right; exact Hm). rewrite zprodl_size_after.
  destruct (str_mem n src) eqn:E; cbn [map ravel]; [reflexivity|]. rewrite (Hf n) by (try (left; reflexivity); exact E). lia.
Qed.

Lemma zprodl_pos l : Forall (fun n => 0 < n) l -> 0 < zprodl l.
Proof. induction 1; cbn [zprodl fold_right]; [lia|]. fold (zprodl l). nia. Qed.

Lemma ravel_range : forall shape idx, IndexOf shape idx -> 0 <= ravel shape idx < zprodl shape.
Proof.
  intros shape idx H. induction H as [|n i s t Hi HF IH]; cbn [ravel zprodl fold_right]; [lia|]. fold (zprodl s). nia.
Qed.

Lemma unravel_ravel : forall shape idx, IndexOf shape idx -> unravel shape (ravel shape idx) = idx.
Proof.
  intros shape idx H. induction H as [|n i s t Hi HF IH]; cbn [ravel unravel]; [reflexivity|].
  pose proof (ravel_range s t HF) as Hr.
  assert (E1 : (i * zprodl s + ravel s t) / zprodl s = i) by (symmetry; apply Z.div_unique with (r := ravel s t); lia).
  assert (E2 : (i * zprodl s + ravel s t) mod zprodl s = ravel s t) by (symmetry; apply Z.mod_unique with (q := i); lia).
  rewrite E1, E2, IH. reflexivity.
Qed.

Lemma index_of_map (sz f : string -> Z) l : (forall n, In n l -> 0 <= f n < sz n) -> IndexOf (map sz l) (map f l).
Proof.
  induction l as [|n t IH]; intros H; [constructor|]. cbn [map]. constructor; [apply H; left; reflexivity|].
  apply IH. intros m Hm. apply H; right; exact Hm.
Qed.

(** ** the whole thing *)
Lemma filter_kept_matching src dst : filter (fun dn => negb (str_mem dn (filter (fun dn => str_mem dn src) dst))) src =
  filter (fun dn => negb (kept dst dn)) src.
Proof.
  apply filter_ext_in. intros n Hn. f_equal. unfold kept.
  destruct (str_mem n dst) eqn:E.
  - apply str_mem_In. apply filter_In. split; [apply str_mem_In; exact E|apply str_mem_In; exact Hn].
  - apply str_mem_nIn. intros H. apply filter_In in H. apply str_mem_nIn in E. tauto.
Qed.

Lemma nodup_filter {A} (p : A -> bool) l : NoDup l -> NoDup (filter p l).
Proof. apply NoDup_filter. Qed.

Theorem broadcast_array_spec {A} (arr : nd A) src dst (sz : string -> Z) :
  NoDup src -> NoDup dst -> nd_shape arr = map sz src ->
  (forall n, In n src -> ~ In n dst -> sz n = 1) ->
  exists r, broadcast_array arr src dst = Ok r /\
    nd_shape r = map (size_after src sz) dst /\
    forall f : string -> Z,
      (forall n, In n src -> 0 <= f n < sz n) -> (forall n, In n dst -> ~ In n src -> f n = 0) ->
      nd_at r (map f dst) = nd_at arr (map f src).
Proof.
  intros Hns Hnd Hsh Hone. unfold broadcast_array.
  set (matching := filter (fun dn => str_mem dn src) dst).
  (* after squeezing *)
  assert (Hsq : exists src' arr1,
    (match filter (fun dn => negb (str_mem dn matching)) src with
     | [] => Ok (src, arr)
     | _ => do axes <- map_res (str_index src) (filter (fun dn => negb (str_mem dn matching)) src);
            do arr' <- np_squeeze axes arr; Ok (filter (fun dn => str_mem dn dst) src, arr')
     end) = Ok (src', arr1) /\ src' = filter (kept dst) src /\ nd_shape arr1 = map sz src' /\
    forall f : string -> Z, (forall n, In n src -> ~ In n dst -> f n = 0) -> nd_at arr1 (map f src') = nd_at arr (map f src)).
  { unfold matching. rewrite filter_kept_matching.
    destruct (filter (fun dn => negb (kept dst dn)) src) as [|q qs] eqn:Eq.
    - exists src, arr. assert (Hk : filter (kept dst) src = src).
      { clear -Eq. induction src as [|n t IH]; [reflexivity|]. cbn [filter] in *. destruct (kept dst n); cbn [negb] in Eq; [|discriminate]. rewrite IH by exact Eq. reflexivity. }
      rewrite Hk. split; [reflexivity|]. split; [reflexivity|]. split; [exact Hsh|]. reflexivity.
    - rewrite <- Eq. destruct (axes_of_squeeze src dst Hns) as [axes [Ea Hax]]. rewrite Ea. cbn [bind].
      unfold np_squeeze. 
      assert (Hok : forallb (fun a => match nth_error (nd_shape arr) a with Some n => n =? 1 | None => false end) axes = true).
      { assert (Hinv : forall l axes0, map_res (str_index src) (filter (fun dn => negb (kept dst dn)) l) = Ok axes0 -> incl l src ->
          forallb (fun a => match nth_error (nd_shape arr) a with Some n => n =? 1 | None => false end) axes0 = true).
        { induction l as [|y t IH]; intros axes0 E0 Hinc; cbn [filter map_res] in E0; [injection E0 as <-; reflexivity|].
          assert (Hinc' : incl t src) by (intros z Hz; apply Hinc; right; exact Hz).
          destruct (kept dst y) eqn:Ey; cbn [negb] in E0; [apply IH; assumption|].
          cbn [map_res] in E0. destruct (str_index_ok src y) as [p [Ep Hp]]; [apply Hinc; left; reflexivity|].
          rewrite Ep in E0; cbn [bind] in E0. destruct (map_res (str_index src) (filter (fun dn => negb (kept dst dn)) t)) as [ax|] eqn:Et; cbn [bind] in E0; [|discriminate].
          injection E0 as <-. cbn [forallb]. rewrite (IH ax eq_refl Hinc'), andb_true_r.
          rewrite Hsh, nth_error_map, Hp. cbn [option_map]. rewrite (Hone y); [reflexivity|apply Hinc; left; reflexivity|].
          apply str_mem_nIn. exact Ey. }
        apply (Hinv src axes Ea (incl_refl _)). }
      rewrite Hok. cbn [bind]. exists (filter (kept dst) src), (mknd (drop_axes 0 axes (nd_shape arr)) (fun idx => nd_at arr (add_axes 0 axes (nd_shape arr) idx))).
      split; [reflexivity|]. split; [reflexivity|]. cbn [nd_shape nd_at]. rewrite Hsh. split.
      + apply drop_axes_filter. intros i n Hi. apply (Hax i n Hi).
      + intros f Hf. rewrite add_axes_filter; [reflexivity| |].
        * intros i n Hi. apply (Hax i n Hi).
        * intros n Hn Hk. apply Hf; [exact Hn|]. apply str_mem_nIn. exact Hk. }
  destruct Hsq as [src' [arr1 [E1 [Esrc' [Hsh1 Hat1]]]]]. rewrite E1. cbn [bind].
  assert (Hset : forall x, In x src' <-> In x matching).
  { intros x. rewrite Esrc'. unfold matching, kept. rewrite !filter_In, !str_mem_In. tauto. }
  assert (Hns' : NoDup src') by (rewrite Esrc'; apply NoDup_filter; exact Hns).
  assert (Hnm : NoDup matching) by (apply NoDup_filter; exact Hnd).
  destruct (get_swap_chain_spec src' matching Hns' Hnm Hset) as [chain [Ec Hc]]. rewrite Ec. cbn [bind].
  set (arr2 := fold_left (fun a sc => np_swapaxes (fst sc) (snd sc) a) chain arr1).
  destruct (swapaxes_chain sz chain src' matching arr1 Hc Hsh1) as [Hsh2 Hat2]. fold arr2 in Hsh2, Hat2.
  pose proof (insert_singletons sz src dst []) as Hins. cbn [app List.length] in Hins. fold matching in Hins. rewrite <- Hsh2 in Hins. rewrite Hins.
  unfold np_reshape. rewrite Hsh2, zprodl_size_after. fold matching. rewrite Z.eqb_refl.
  eexists. split; [reflexivity|]. cbn [nd_shape nd_at]. split; [reflexivity|].
  intros f Hf Hf0. rewrite ravel_size_after; [|intros n Hn Hm; apply Hf0; [exact Hn|apply str_mem_nIn; exact Hm]]. fold matching.
  rewrite unravel_ravel.
  - rewrite Hat2. apply Hat1. intros n Hn Hd. pose proof (Hf n Hn) as H. rewrite (Hone n Hn Hd) in H. lia.
  - apply index_of_map. intros n Hn. apply Hf. unfold matching in Hn. apply filter_In in Hn. apply str_mem_In. tauto.
Qed.

(** A dimension that is dropped must have size one. *)
Theorem broadcast_array_raises {A} (arr : nd A) src dst (sz : string -> Z) n :
  NoDup src -> nd_shape arr = map sz src -> In n src -> ~ In n dst -> sz n <> 1 ->
  broadcast_array arr src dst = Err ValueError.
Proof.
  intros Hns Hsh Hn Hd Hone. unfold broadcast_array. rewrite filter_kept_matching.
  destruct (axes_of_squeeze src dst Hns) as [axes [Ea Hax]].
  destruct (filter (fun dn => negb (kept dst dn)) src) as [|q qs] eqn:Eq.
  - exfalso. assert (H : In n (filter (fun dn => negb (kept dst dn)) src)).
    { apply filter_In. split; [exact Hn|]. unfold kept. rewrite (proj2 (str_mem_nIn n dst) Hd). reflexivity. }
    rewrite Eq in H. destruct H.
  - rewrite Ea. cbn [bind]. unfold np_squeeze.
    assert (Hk : forallb (fun a => match nth_error (nd_shape arr) a with Some n => n =? 1 | None => false end) axes = false).
    { apply In_nth_error in Hn. destruct Hn as [k Ek].
      pose proof (Hax k n Ek) as H. unfold kept in H. rewrite (proj2 (str_mem_nIn n dst) Hd) in H. cbn [negb] in H.
      apply existsb_exists in H. destruct H as [k' [Hin E]]. apply Nat.eqb_eq in E; subst k'.
      destruct (forallb _ axes) eqn:E; [|reflexivity]. rewrite forallb_forall in E. specialize (E k Hin).
      rewrite Hsh, nth_error_map, Ek in E. cbn [option_map] in E. apply Z.eqb_eq in E. congruence. }
    rewrite Hk. reflexivity.
Qed.

(** ** variables *)
Definition dsize (dims : list (string * Z)) (n : string) : Z := match dget String.eqb dims n with Some k => k | None => 1 end.

Lemma dget_In (dims : list (string * Z)) n k : NoDup (map fst dims) -> In (n, k) dims -> dget String.eqb dims n = Some k.
Proof.
  induction dims as [|[m j] t IH]; intros Hn H; [destruct H|]. cbn [map fst] in Hn. inversion Hn; subst. cbn [dget]. destruct H as [H|H].
  - injection H as -> ->. rewrite String.eqb_refl. reflexivity.
  - destruct (String.eqb n m) eqn:E; [|apply IH; assumption]. apply String.eqb_eq in E; subst. exfalso. apply H2. apply in_map_iff. exists (m, k). split; [reflexivity|exact H].
Qed.

Lemma dims_as_map (dims : list (string * Z)) : NoDup (map fst dims) -> map (fun n => (n, dsize dims n)) (map fst dims) = dims.
Proof.
  intros Hn. rewrite map_map. assert (H : forall p, In p dims -> (fst p, dsize dims (fst p)) = p).
  { intros [n k] Hp. cbn [fst]. unfold dsize. rewrite (dget_In _ _ _ Hn Hp). reflexivity. }
  transitivity (map (fun p => p) dims); [apply map_ext_in; exact H|apply map_id].
Qed.

Lemma dims_shape (dims : list (string * Z)) : NoDup (map fst dims) -> map snd dims = map (dsize dims) (map fst dims).
Proof. intros Hn. rewrite <- (dims_as_map dims Hn) at 1. rewrite map_map. cbn [snd]. reflexivity. Qed.

Lemma dget_None (dims : list (string * Z)) n : dget String.eqb dims n = None <-> ~ In n (map fst dims).
Proof.
  induction dims as [|[m k] t IH]; cbn [dget map fst In]; [tauto|]. destruct (String.eqb n m) eqn:E.
  - apply String.eqb_eq in E; subst. split; [discriminate|tauto].
  - rewrite IH. assert (m <> n) by (intros ->; rewrite String.eqb_refl in E; discriminate). tauto.
Qed.

Lemma index_as_map (sz : string -> Z) names : NoDup names -> forall idx, IndexOf (map sz names) idx ->
  exists f, idx = map f names /\ forall n, In n names -> 0 <= f n < sz n.
Proof.
  induction names as [|n t IH]; intros Hn idx H; cbn [map] in H; inversion H as [|? i ? u Hi HF]; subst.
  - exists (fun _ => 0). split; [reflexivity|]. intros m [].
  - inversion Hn; subst. destruct (IH H3 u HF) as [f [-> Hf]].
    exists (fun m => if String.eqb m n then i else f m). cbn [map]. rewrite String.eqb_refl. split.
    + f_equal. apply map_ext_in. intros m Hm. destruct (String.eqb m n) eqn:E; [apply String.eqb_eq in E; subst; tauto|reflexivity].
    + intros m [<-|Hm]; [rewrite String.eqb_refl; exact Hi|]. destruct (String.eqb m n) eqn:E; [apply String.eqb_eq in E; subst; tauto|apply Hf; exact Hm].
Qed.

Lemma listZ_eqb_refl l : listZ_eqb l l = true.
Proof. induction l as [|x t IH]; [reflexivity|]. cbn. rewrite Z.eqb_refl, IH. reflexivity. Qed.

Lemma listZ_eqb_eq a b : listZ_eqb a b = true <-> a = b.
Proof.
  split; [|intros ->; apply listZ_eqb_refl]. revert b. induction a as [|x t IH]; intros [|y u] H; cbn in H; try discriminate; [reflexivity|].
  apply andb_true_iff in H. destruct H as [H1 H2]. apply Z.eqb_eq in H1. rewrite (IH u H2), H1. reflexivity.
Qed.

Lemma broadcast_variable_spec {A} (v : nvar A) dst : GoodVar v -> SameNames (nv_names v) dst ->
  exists v', broadcast_variable v dst = Ok v' /\ GoodVar v' /\
    nv_dims v' = map (fun n => (n, dsize (nv_dims v) n)) dst /\
    (forall f : string -> Z, (forall n, In n dst -> 0 <= f n < dsize (nv_dims v) n) ->
       nd_at (nv_value v') (map f dst) = nd_at (nv_value v) (map f (nv_names v))) /\
    match nv_mask v, nv_mask v' with
    | None, None => True
    | Some m, Some m' => forall f : string -> Z, (forall n, In n dst -> 0 <= f n < dsize (nv_dims v) n) ->
                           nd_at m' (map f dst) = nd_at m (map f (nv_names v))
    | _, _ => False
    end.
Proof.
  intros [Hn [Hpos [Hval Hmask]]] [_ [Hnd Hset]]. set (sz := dsize (nv_dims v)). set (names := nv_names v) in *.
  assert (Hshape : nv_shape v = map sz names) by (apply dims_shape; exact Hn).
  assert (Hsa : map (size_after names sz) dst = map sz dst).
  { apply map_ext_in. intros n Hx. unfold size_after. rewrite (proj2 (str_mem_In n names)); [reflexivity|apply Hset; exact Hx]. }
  assert (Hb : forall B (arr : nd B), nd_shape arr = nv_shape v ->
    exists r, broadcast_array arr names dst = Ok r /\ nd_shape r = map sz dst /\
      forall f : string -> Z, (forall n, In n dst -> 0 <= f n < sz n) -> nd_at r (map f dst) = nd_at arr (map f names)).
  { intros B arr Harr. rewrite Hshape in Harr.
    destruct (broadcast_array_spec arr names dst sz Hn Hnd Harr) as [r [E [Hs Hat]]].
    - intros n Hx Hy. exfalso. apply Hy, Hset; exact Hx.
    - exists r. split; [exact E|]. split; [congruence|]. intros f Hf. apply Hat.
      + intros n Hx. apply Hf, Hset; exact Hx.
      + intros n Hx Hy. exfalso. apply Hy, Hset; exact Hx. }
  unfold broadcast_variable. fold names.
  destruct (Hb A (nv_value v) Hval) as [value [Ev [Hsv Hatv]]]. rewrite Ev. cbn [bind].
  assert (Hdims : map_res (fun n => match dget String.eqb (nv_dims v) n with Some k => Ok (n, k) | None => Err KeyError end) dst = Ok (map (fun n => (n, sz n)) dst)).
  { assert (Hin : forall n, In n dst -> In n names) by (intros n Hx; apply Hset; exact Hx). revert Hin. clear -sz names. induction dst as [|n t IH]; intros Hin; [reflexivity|].
    cbn [map_res map]. unfold sz at 1, dsize. destruct (dget String.eqb (nv_dims v) n) as [k|] eqn:E.
    - cbn [bind]. rewrite IH by (intros m Hm; apply Hin; right; exact Hm). reflexivity.
    - exfalso. apply dget_None in E. apply E. apply Hin. left; reflexivity. }
  assert (Hsnd : map snd (map (fun n => (n, sz n)) dst) = map sz dst) by (rewrite map_map; reflexivity).
  assert (Hfst : map fst (map (fun n => (n, sz n)) dst) = dst) by (rewrite map_map; cbn [fst]; apply map_id).
  assert (Hposd : Forall (fun n => 0 <= n) (map sz dst)).
  { apply Forall_forall. intros x Hx. apply in_map_iff in Hx. destruct Hx as [n [<- Hx]].
    rewrite Hshape in Hpos. rewrite Forall_forall in Hpos. apply Hpos, in_map, Hset; exact Hx. }
  destruct (nv_mask v) as [m|] eqn:Em.
  - destruct (Hb bool m Hmask) as [m' [Em' [Hsm Hatm]]]. rewrite Em'. cbn [bind]. rewrite Hdims. cbn [bind]. unfold check_shape.
    rewrite Hsnd, Hsv, Hsm, !listZ_eqb_refl. cbn [bind].
    eexists. split; [reflexivity|]. cbn [nv_dims nv_value nv_mask]. split; [|split; [reflexivity|split; [exact Hatv|exact Hatm]]].
    unfold GoodVar, nv_names, nv_shape. cbn [nv_dims nv_value nv_mask]. rewrite Hsnd, Hfst. tauto.
  - cbn [bind]. rewrite Hdims. cbn [bind]. unfold check_shape.
    rewrite Hsnd, Hsv, !listZ_eqb_refl. cbn [bind].
    eexists. split; [reflexivity|]. cbn [nv_dims nv_value nv_mask]. split; [|split; [reflexivity|split; [exact Hatv|exact I]]].
    unfold GoodVar, nv_names, nv_shape. cbn [nv_dims nv_value nv_mask]. rewrite Hsnd, Hfst. tauto.
Qed.

Lemma dsize_SameNames (sz : string -> Z) dst n : In n dst -> NoDup dst -> dsize (map (fun n => (n, sz n)) dst) n = sz n.
Proof.
  intros Hin Hnd. unfold dsize. rewrite (dget_In _ n (sz n)); [reflexivity| |].
  - rewrite map_map; cbn [fst]; rewrite map_id. exact Hnd.
  - apply in_map_iff. exists n. split; [reflexivity|exact Hin].
Qed.

Theorem broadcast_scope_spec {A} (v : nvar A) dst body : GoodVar v -> SameNames (nv_names v) dst ->
  (forall v1, nv_names v1 = dst -> GoodVar v1 -> nv_dims (fst (body v1)) = nv_dims v1 /\ GoodVar (fst (body v1))) ->
  exists v1 v2, broadcast_variable v dst = Ok v1 /\ broadcast_scope v dst body = Ok (v2, snd (body v1)) /\
    nv_names v1 = dst /\ nv_dims v2 = nv_dims v /\
    (SameVar (fst (body v1)) v1 -> SameVar v2 v).
Proof.
  intros Hg Hp Hbody. destruct (broadcast_variable_spec v dst Hg Hp) as [v1 [E1 [Hg1 [Hd1 [Hv1 Hm1]]]]].
  pose proof Hp as [Hn [Hnd Hset]].
  assert (Hn1 : nv_names v1 = dst) by (unfold nv_names; rewrite Hd1, map_map; cbn [fst]; apply map_id).
  destruct (Hbody v1 Hn1 Hg1) as [Hdb Hgb]. destruct (body v1) as [vb o] eqn:Eb. cbn [fst snd] in *.
  assert (Hnb : nv_names vb = dst) by (unfold nv_names in *; rewrite Hdb; exact Hn1).
  assert (Hpb : SameNames (nv_names vb) (nv_names v)) by (rewrite Hnb; split; [exact Hnd|split; [exact Hn|intros x; symmetry; apply Hset]]).
  destruct (broadcast_variable_spec vb (nv_names v) Hgb Hpb) as [v2 [E2 [Hg2 [Hd2 [Hv2 Hm2]]]]].
  exists v1, v2. split; [exact E1|]. unfold broadcast_scope. rewrite E1, Eb, E2. cbn [bind]. split; [reflexivity|]. split; [exact Hn1|].
  assert (Hsz : forall n, In n (nv_names v) -> dsize (nv_dims vb) n = dsize (nv_dims v) n).
  { intros n Hx. rewrite Hdb, Hd1. apply dsize_SameNames; [apply Hset; exact Hx|exact Hnd]. }
  assert (Hdims : nv_dims v2 = nv_dims v).
  { rewrite Hd2. rewrite <- (dims_as_map (nv_dims v) Hn). fold (nv_names v). apply map_ext_in. intros n Hx. rewrite (Hsz n Hx). reflexivity. }
  split; [exact Hdims|]. rewrite ?Eb; cbn [fst]. intros [_ [[_ Hsv] Hsm]]. split; [exact Hdims|].
  assert (Hshape2 : nv_shape v2 = nv_shape v) by (unfold nv_shape; rewrite Hdims; reflexivity).
  assert (Hshape : nv_shape v = map (dsize (nv_dims v)) (nv_names v)) by (apply dims_shape; exact Hn).
  assert (Hshape1 : nv_shape v1 = map (dsize (nv_dims v)) dst) by (unfold nv_shape; rewrite Hd1, map_map; reflexivity).
  destruct Hg as [_ [_ [Hgv Hgm]]]. destruct Hg1 as [_ [_ [Hg1v Hg1m]]]. destruct Hg2 as [_ [_ [Hg2v Hg2m]]]. destruct Hgb as [_ [_ [Hgbv Hgbm]]].
  assert (Hshapeb : nv_shape vb = nv_shape v1) by (unfold nv_shape; rewrite Hdb; reflexivity).
  split.
  - split; [congruence|]. intros idx Hidx. rewrite Hg2v, Hshape2, Hshape in Hidx.
    destruct (index_as_map _ _ Hn idx Hidx) as [f [-> Hf]].
    rewrite Hv2 by (intros n Hx; rewrite (Hsz n Hx); apply Hf; exact Hx). rewrite Hnb.
    rewrite Hsv.
    + apply Hv1. intros n Hx. apply Hf, Hset; exact Hx.
    + rewrite Hgbv, Hshapeb, Hshape1. apply index_of_map. intros n Hx. apply Hf, Hset; exact Hx.
  - destruct (nv_mask v) as [m|]; destruct (nv_mask v1) as [m1|]; try tauto; destruct (nv_mask vb) as [mb|]; try tauto; destruct (nv_mask v2) as [m2|]; try tauto.
    destruct Hsm as [_ Hsm]. split; [congruence|]. intros idx Hidx. rewrite Hg2m, Hshape2, Hshape in Hidx.
    destruct (index_as_map _ _ Hn idx Hidx) as [f [-> Hf]].
    rewrite Hm2 by (intros n Hx; rewrite (Hsz n Hx); apply Hf; exact Hx). rewrite Hnb.
    rewrite Hsm.
    + apply Hm1. intros n Hx. apply Hf, Hset; exact Hx.
    + rewrite Hgbm, Hshapeb, Hshape1. apply index_of_map. intros n Hx. apply Hf, Hset; exact Hx.
Qed.
