(** Proofs about the collective part of re-indexing. *)
From Verif Require Import Py Lib Spec PartitionModel DimensionModel DimensionProofs DistModel DistProofs ScatterProofs ReindexModel ReindexSpec ReindexProofs.
Open Scope Z_scope.

(** ** Unique values *)
Definition Unique (arrs us : list (list Z)) : Prop :=
  List.length us = List.length arrs /\
  (forall r a out, nth_error arrs r = Some a -> nth_error us r = Some out -> incl out a) /\
  (forall x, In x (concat arrs) -> ExactlyOne (In x) us) /\ NoDup (concat us) /\
  (forall a u, nth_error arrs 0 = Some a -> nth_error us 0 = Some u -> incl a u).

Definition the_uniques (arrs : list (list Z)) : res (list (list Z)) :=
  match arrs with [a] => Ok [np_unique a] | _ => create_unique_global_array arrs end.

Lemma the_uniques_ok arrs us : the_uniques arrs = Ok us -> Unique arrs us.
Proof.
  intros H. assert (Hgen : create_unique_global_array arrs = Ok us -> Unique arrs us).
  { clear H. intros H. assert (Hne : Forall (fun a => a <> []) arrs).
    { apply Forall_forall. intros a Ha ->. rewrite (create_unique_empty_raises arrs Ha) in H. discriminate. }
    destruct (create_unique_global_array_spec arrs Hne) as [outs [E [HL [Hincl [Hone Hnd]]]]]. rewrite H in E. injection E as <-.
    split; [exact HL|]. split; [intros r a out Ha Ho; exact (proj1 (Hincl r a out Ha Ho))|]. split; [exact Hone|]. split; [exact Hnd|].
    intros a u Ha Hu x Hx. unfold create_unique_global_array in H. cbv zeta in H.
    destruct (map_res _ (map np_unique arrs)) as [bounds|] eqn:Eb; cbn [bind] in H; [|discriminate].
    destruct arrs as [|a0 t]; [discriminate Ha|]. cbn [List.length seq map_res nth_error map] in H, Ha. injection Ha as ->.
    destruct bounds as [|b0 bs]; cbn [bind fold_res seq] in H; [discriminate H|].
    destruct (map_res _ (seq 1 (List.length t))); cbn [bind] in H; [|discriminate]. injection H as <-. cbn [nth_error] in Hu. injection Hu as <-.
    apply in_np_unique. exact Hx. }
  destruct arrs as [|a [|b t]]; try (apply Hgen; exact H). cbn [the_uniques] in H. injection H as <-.
  assert (Hnd : NoDup (np_unique a)) by apply sorted_nodup, np_unique_sorted.
  split; [reflexivity|]. split; [|split; [|split]].
  - intros [|r] a' out Ha Ho; [|destruct r; discriminate]. injection Ha as <-. injection Ho as <-. intros x Hx. rewrite in_np_unique in Hx. exact Hx.
  - intros x Hx. cbn [concat] in Hx. rewrite app_nil_r in Hx. exists 0%nat, (np_unique a). split; [reflexivity|]. split; [apply in_np_unique; exact Hx|].
    intros [|k] x' Hk Hx'; [reflexivity|destruct k; discriminate].
  - cbn [concat]. rewrite app_nil_r. exact Hnd.
  - intros a' u Ha Hu. injection Ha as <-. injection Hu as <-. intros x Hx. apply in_np_unique. exact Hx.
Qed.

(** ** New indices *)
Lemma arange_nth : forall (us : list (list Z)) start r u, nth_error us r = Some u ->
  nth_error (arange_distributed start (map zlen us)) r =
  Some (zrange (start + zlen (concat (firstn r us))) (start + zlen (concat (firstn r us)) + zlen u)).
Proof.
  induction us as [|v us IH]; intros start [|r] u H; try discriminate.
  - injection H as ->. cbn [map arange_distributed nth_error firstn concat]. change (zlen (@nil Z)) with 0. rewrite Z.add_0_r. reflexivity.
  - cbn [map arange_distributed nth_error firstn concat] in *. rewrite (IH _ r u H). rewrite zlen_app. f_equal. f_equal; lia.
Qed.
Lemma arange_len : forall sizes start, List.length (arange_distributed start sizes) = List.length sizes.
Proof. induction sizes as [|n t IH]; intros start; [reflexivity|]. cbn [arange_distributed List.length]. rewrite IH. reflexivity. Qed.

Lemma dget_combine : forall (u : list Z) s x, NoDup u ->
  forall v, dget Z.eqb (combine u (zrange s (s + zlen u))) x = Some v <-> exists j, nth_error u j = Some x /\ v = s + Z.of_nat j.
Proof.
  induction u as [|y u IH]; intros s x N v.
  - cbn [combine dget]. split; [discriminate|intros [[|j] [H _]]; discriminate].
  - inversion N as [|? ? Ny Nu]; subst. rewrite zlen_cons. pose proof (zlen_nonneg u). rewrite (zrange_cons s) by lia. replace (s + (1 + zlen u)) with (s + 1 + zlen u) by lia.
    cbn [combine dget]. destruct (Z.eqb_spec x y) as [->|Nxy].
    + split; [intros E; injection E as <-; exists 0%nat; split; [reflexivity|lia]|].
      intros [[|j] [Hj ->]]; [f_equal; lia|]. cbn [nth_error] in Hj. apply nth_error_In in Hj. contradiction.
    + rewrite (IH (s + 1) x Nu v). split.
      * intros [j [Hj ->]]. exists (S j). split; [exact Hj|lia].
      * intros [[|j] [Hj ->]]; [injection Hj as <-; contradiction|]. exists j. split; [exact Hj|lia].
Qed.

Lemma nth_concat : forall (us : list (list Z)) r u j x, nth_error us r = Some u -> nth_error u j = Some x ->
  nth_error (concat us) (List.length (concat (firstn r us)) + j) = Some x.
Proof.
  induction us as [|v us IH]; intros [|r] u j x H Hj; try discriminate.
  - injection H as ->. cbn [firstn concat List.length Nat.add]. rewrite nth_error_app1; [exact Hj|apply nth_error_Some; congruence].
  - cbn [nth_error firstn concat] in *. rewrite app_length, <- Nat.add_assoc. rewrite nth_error_app2 by lia. rewrite Nat.add_comm, Nat.add_sub. exact (IH r u j x H Hj).
Qed.

Lemma nth_combine {A B} : forall (l : list A) (l' : list B) k, nth_error (combine l l') k =
  match nth_error l k, nth_error l' k with Some a, Some b => Some (a, b) | _, _ => None end.
Proof.
  induction l as [|a l IH]; intros [|b l'] [|k]; try reflexivity; cbn [combine nth_error].
  - destruct (nth_error l k); reflexivity.
  - apply IH.
Qed.

Lemma nth_default {A} (l : list (list A)) k : nth k l [] = match nth_error l k with Some x => x | None => [] end.
Proof. revert k. induction l as [|x l IH]; intros [|k]; try reflexivity. apply IH. Qed.

Section Setup.
  Variables (arrs us : list (list Z)) (start : Z) (c : setup).
  Hypothesis Hus : the_uniques arrs = Ok us.
  Hypothesis Hc : prepare arrs start = Ok c.

  Lemma prepared : u_cindex c = arrs /\ u_unique c = us /\
    u_uidx c = map (fun p : list Z * list Z => combine (fst p) (snd p)) (combine us (arange_distributed start (map zlen us))) /\
    u_overlaps c = map (fun p : nat * list Z => find_overlaps (map local_bounds us) (fst p) (snd p)) (combine (seq 0 (List.length arrs)) arrs) /\
    u_destinations c = map (fun r => filter (fun ii => match nth_error (u_overlaps c) ii with Some l => existsb (Nat.eqb r) l | None => false end)
                                      (seq 0 (List.length arrs))) (seq 0 (List.length arrs)).
  Proof.
    unfold prepare in Hc. fold (the_uniques arrs) in Hc. rewrite Hus in Hc. cbn [bind] in Hc. injection Hc as <-.
    cbn [u_cindex u_unique u_uidx u_overlaps u_destinations]. repeat (split; [reflexivity|]). reflexivity.
  Qed.

  Definition off (r : nat) : Z := start + zlen (concat (firstn r us)).

  Lemma uidx_spec r u : nth_error us r = Some u -> uidx_of c r = combine u (zrange (off r) (off r + zlen u)).
  Proof.
    intros H. unfold uidx_of. destruct prepared as [_ [_ [E _]]]. rewrite E, nth_default, nth_error_map, nth_combine, H.
    rewrite (arange_nth us start r u H). reflexivity.
  Qed.
  Lemma uidx_out r : nth_error us r = None -> uidx_of c r = [].
  Proof.
    intros H. unfold uidx_of. destruct prepared as [_ [_ [E _]]]. rewrite E, nth_default, nth_error_map, nth_combine, H. reflexivity.
  Qed.

  Lemma overlaps_spec r : overlaps_of c r = match nth_error arrs r with Some a => find_overlaps (map local_bounds us) r a | None => [] end.
  Proof.
    unfold overlaps_of. destruct prepared as [_ [_ [_ [E _]]]]. rewrite E, nth_default, nth_error_map, nth_combine.
    destruct (nth_error arrs r) as [a|] eqn:Ea.
    - assert (Hr : (r < List.length arrs)%nat) by (apply nth_error_Some; congruence).
      rewrite (nth_error_nth' (seq 0 (List.length arrs)) 0%nat) by (rewrite seq_length; exact Hr). rewrite seq_nth by exact Hr. reflexivity.
    - destruct (nth_error (seq 0 (List.length arrs)) r); reflexivity.
  Qed.

  Lemma bounds_spec u lo hi : local_bounds u = Some (lo, hi) -> In lo u /\ In hi u /\ forall x, In x u -> lo <= x <= hi.
  Proof.
    unfold local_bounds. destruct u as [|y u]; [discriminate|]. assert (N : y :: u <> []) by discriminate.
    destruct (list_min_ok _ N) as [m [E1 [M1 M2]]]. destruct (list_max_ok _ N) as [M [E2 [M3 M4]]]. rewrite E1, E2. intros E. injection E as <- <-.
    split; [exact M1|]. split; [exact M3|]. intros x Hx. pose proof (M2 x Hx). pose proof (M4 x Hx). lia.
  Qed.
  Lemma bounds_some u x : In x u -> exists lo hi, local_bounds u = Some (lo, hi).
  Proof.
    intros H. unfold local_bounds. assert (N : u <> []) by (intros ->; destruct H).
    destruct (list_min_ok _ N) as [m [E1 _]]. destruct (list_max_ok _ N) as [M [E2 _]]. rewrite E1, E2. exists m, M. reflexivity.
  Qed.

  Lemma asks_spec r o : In o (overlaps_of c r) <-> Asks arrs us r o.
  Proof.
    rewrite overlaps_spec. split.
    - intros H. destruct (nth_error arrs r) as [a|] eqn:Ea; [|destruct H]. unfold find_overlaps in H. apply filter_In in H. destruct H as [_ H].
      apply andb_prop in H. destruct H as [H1 H2]. rewrite nth_error_map in H2. destruct (nth_error us o) as [u|] eqn:Eu; [|discriminate]. cbn [option_map] in H2.
      destruct (local_bounds u) as [[lo hi]|] eqn:Eb; [|discriminate]. apply existsb_exists in H2. destruct H2 as [x [Hx H2]]. cbn [fst snd] in H2.
      destruct (bounds_spec u lo hi Eb) as [B1 [B2 _]].
      split; [intros ->; rewrite Nat.eqb_refl in H1; discriminate|]. exists a, u, x, lo, hi. repeat (split; [assumption|]). lia.
    - intros [N [a [u [x [lo [hi [Ea [Eu [Hx [Hlo [Hhi Hb]]]]]]]]]]]. rewrite Ea. unfold find_overlaps. apply filter_In.
      assert (Ho : (o < List.length us)%nat) by (apply nth_error_Some; congruence). split; [apply in_seq; rewrite map_length; lia|].
      destruct (Nat.eqb_spec o r); [congruence|]. cbn [negb andb]. rewrite nth_error_map, Eu. cbn [option_map].
      destruct (bounds_some u lo Hlo) as [l [h El]]. rewrite El. destruct (bounds_spec u l h El) as [_ [_ B]]. apply existsb_exists. exists x. split; [exact Hx|].
      cbn [fst snd]. pose proof (B lo Hlo). pose proof (B hi Hhi). lia.
  Qed.

  Lemma asks_range r o : Asks arrs us r o -> (r < List.length arrs)%nat /\ (o < List.length us)%nat.
  Proof. intros [_ [a [u [x [lo [hi [Ea [Eu _]]]]]]]]. split; apply nth_error_Some; congruence. Qed.

  Lemma dest_spec r o : In r (destinations_of c o) <-> In o (overlaps_of c r).
  Proof.
    destruct (the_uniques_ok arrs us Hus) as [HL _].
    unfold destinations_of. destruct prepared as [_ [_ [_ [_ E]]]]. rewrite E, nth_default, nth_error_map.
    assert (Ho : overlaps_of c r = match nth_error (u_overlaps c) r with Some l => l | None => [] end) by apply nth_default.
    destruct (nth_error (seq 0 (List.length arrs)) o) as [o'|] eqn:Es.
    - assert (Hlt : (o < List.length arrs)%nat) by (rewrite <- (seq_length (List.length arrs) 0); apply nth_error_Some; congruence).
      rewrite (nth_error_nth' (seq 0 (List.length arrs)) 0%nat), seq_nth in Es by (rewrite ?seq_length; exact Hlt). injection Es as <-.
      cbn [option_map]. rewrite filter_In, in_seq, Ho. split.
      + intros [_ H]. destruct (nth_error (u_overlaps c) r) as [l|]; [|discriminate]. apply existsb_nat in H. exact H.
      + intros H. split; [|destruct (nth_error (u_overlaps c) r) as [l|]; [apply existsb_nat; exact H|destruct H]].
        rewrite <- Ho in H. apply asks_spec in H. apply asks_range in H. lia.
    - cbn [option_map]. split; [intros []|]. intros H. apply asks_spec in H. apply asks_range in H. apply nth_error_None in Es. rewrite seq_length in Es. lia.
  Qed.

  (** The rank that keeps a value and its new index. *)
  Definition owner_of (x : Z) : nat := match find (fun o => zmem x (nth o us [])) (seq 0 (List.length us)) with Some o => o | None => 0%nat end.
  Definition new_of (x : Z) : Z := match dget Z.eqb (uidx_of c (owner_of x)) x with Some v => v | None => 0 end.

  Lemma zmem_spec x l : zmem x l = true <-> In x l.
  Proof. unfold zmem. rewrite existsb_exists. split; [intros [y [Hy E]]; apply Z.eqb_eq in E; subst; exact Hy|intros H; exists x; split; [exact H|apply Z.eqb_refl]]. Qed.

  Lemma owner_spec x : In x (concat arrs) -> exists u, nth_error us (owner_of x) = Some u /\ In x u /\
    forall o u', nth_error us o = Some u' -> In x u' -> o = owner_of x.
  Proof.
    intros Hx. destruct (the_uniques_ok arrs us Hus) as [_ [_ [Hone _]]]. destruct (Hone x Hx) as [k [u [Hk [Hu Huniq]]]].
    unfold owner_of. destruct (find _ (seq 0 (List.length us))) as [o|] eqn:Ef.
    - apply find_some in Ef. destruct Ef as [Ho Hm]. apply zmem_spec in Hm. rewrite nth_default in Hm. destruct (nth_error us o) as [u'|] eqn:Eo; [|destruct Hm].
      exists u'. split; [reflexivity|]. split; [exact Hm|]. intros o' u'' Eo' Hu''. rewrite (Huniq _ _ Eo' Hu''), (Huniq _ _ Eo Hm). reflexivity.
    - exfalso. assert (Hn : zmem x (nth k us []) = false) by (apply (find_none _ _ Ef); apply in_seq; assert (k < List.length us)%nat by (apply nth_error_Some; congruence); lia).
      rewrite nth_default, Hk in Hn. apply zmem_spec in Hu. congruence.
  Qed.

  Lemma nodup_part : forall l : list (list Z), NoDup (concat l) -> forall r u, nth_error l r = Some u -> NoDup u.
  Proof.
    induction l as [|v l IH]; intros N [|r] u H; try discriminate; cbn [concat] in N.
    - injection H as ->. clear IH. revert N. generalize (concat l). induction u as [|y u IHu]; intros w N; [constructor|]. cbn [app] in N. inversion N as [|? ? N1 N2]; subst.
      constructor; [intros H; apply N1; apply in_or_app; left; exact H|exact (IHu w N2)].
    - apply (fun K => IH K r u H). clear -N. induction v as [|y v IHv]; [exact N|]. cbn [app] in N. inversion N; subst. apply IHv. assumption.
  Qed.

  Lemma new_spec x : In x (concat arrs) -> dget Z.eqb (uidx_of c (owner_of x)) x = Some (new_of x) /\ NewIndex us start x (new_of x).
  Proof.
    intros Hx. destruct (owner_spec x Hx) as [u [Hu [Hin _]]]. destruct (the_uniques_ok arrs us Hus) as [_ [_ [_ [Hnd _]]]].
    pose proof (nodup_part us Hnd _ _ Hu) as Nu. apply In_nth_error in Hin. destruct Hin as [j Hj].
    assert (E : dget Z.eqb (uidx_of c (owner_of x)) x = Some (off (owner_of x) + Z.of_nat j)).
    { rewrite (uidx_spec _ u Hu). apply dget_combine; [exact Nu|]. exists j. split; [exact Hj|reflexivity]. }
    assert (Hn : new_of x = off (owner_of x) + Z.of_nat j) by (unfold new_of; rewrite E; reflexivity).
    split; [rewrite Hn; exact E|]. rewrite Hn. unfold NewIndex, off. pose proof (zlen_nonneg (concat (firstn (owner_of x) us))). split; [lia|].
    replace (Z.to_nat (start + zlen (concat (firstn (owner_of x) us)) + Z.of_nat j - start)) with (List.length (concat (firstn (owner_of x) us)) + j)%nat by (unfold zlen; lia).
    exact (nth_concat us _ u j x Hu Hj).
  Qed.

  Lemma good_setup : 0 <= start -> (forall x, In x (concat arrs) -> 0 <= x) -> GoodSetup c owner_of new_of.
  Proof.
    intros Hs Hpos. destruct (the_uniques_ok arrs us Hus) as [HL [Hincl [Hone [Hnd H0]]]]. destruct prepared as [Ecx _].
    assert (Hsize : size c = List.length arrs) by (unfold size; rewrite Ecx; reflexivity).
    split.
    - intros r x Hx. unfold cindex_of in Hx. rewrite Ecx, nth_default in Hx. destruct (nth_error arrs r) as [a|] eqn:Ea; [|destruct Hx].
      assert (Hxc : In x (concat arrs)) by (apply in_concat; exists a; split; [apply nth_error_In with r; exact Ea|exact Hx]).
      destruct (owner_spec x Hxc) as [u [Hu [Hin Huniq]]]. destruct (new_spec x Hxc) as [Hn [Hn1 _]].
      assert (Hol : (owner_of x < List.length us)%nat) by (apply nth_error_Some; congruence).
      split; [exact (Hpos x Hxc)|]. split; [lia|]. split; [exact Hn|]. split; [lia|]. split; [|split].
      + intros o No. destruct (dget Z.eqb (uidx_of c o) x) as [v|] eqn:Ed; [|reflexivity]. exfalso. apply No.
        destruct (nth_error us o) as [u'|] eqn:Eo; [|rewrite (uidx_out o Eo) in Ed; discriminate]. rewrite (uidx_spec o u' Eo) in Ed.
        apply dget_combine in Ed; [|exact (nodup_part us Hnd _ _ Eo)]. destruct Ed as [j [Hj _]]. apply (Huniq o u' Eo). apply nth_error_In with j. exact Hj.
      + destruct (Nat.eq_dec (owner_of x) r) as [E|N]; [left; exact E|right]. apply asks_spec. split; [congruence|]. exists a, u, x, x, x. repeat (split; [assumption|]). lia.
      + intros ->. destruct (nth_error us 0) as [u0|] eqn:E0; [|apply nth_error_None in E0; destruct arrs; [discriminate Ea|cbn in HL; lia]].
        symmetry. apply (Huniq 0%nat u0 E0). exact (H0 a u0 Ea eq_refl x Hx).
    - intros r o H. apply asks_spec in H. pose proof (asks_range r o H) as [_ Ho]. destruct H as [N [a [u [x [lo [hi [Ea [Eu [Hx [Hlo _]]]]]]]]]].
      split; [lia|]. split; [congruence|]. rewrite (uidx_spec o u Eu). intros E. apply In_nth_error in Hlo. destruct Hlo as [j Hj].
      assert (D : dget Z.eqb (combine u (zrange (off o) (off o + zlen u))) lo = Some (off o + Z.of_nat j)) by (apply dget_combine; [exact (nodup_part us Hnd _ _ Eu)|exists j; split; [exact Hj|reflexivity]]).
      rewrite E in D. discriminate.
    - intros r. rewrite overlaps_spec. destruct (nth_error arrs r); [apply NoDup_filter, seq_NoDup|constructor].
    - exact dest_spec.
  Qed.
End Setup.
