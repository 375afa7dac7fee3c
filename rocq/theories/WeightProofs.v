(** Proofs about merging weight files. *)
From Verif Require Import Py Lib Spec PartitionModel NdModel SeasonProofs ChunkModel ChunkSpec SplitProofs.
Open Scope Z_scope.

Lemma zrange_from a b : zrange a b = map (Z.add a) (zrange 0 (b - a)).
Proof. unfold zrange. rewrite map_map. rewrite Z.sub_0_r. apply map_ext. intros k. lia. Qed.

Lemma flat_map_map {A B C} (f : A -> B) (g : B -> list C) l : flat_map g (map f l) = flat_map (fun a => g (f a)) l.
Proof. induction l as [|x t IH]; [reflexivity|]. cbn [map flat_map]. rewrite IH. reflexivity. Qed.

Lemma global_ok ny nx : exists g, global_indices ny nx = Ok g /\ nd_shape g = [ny; nx] /\ forall y x, nd_at g [y; x] = y * nx + x + 1.
Proof.
  unfold global_indices, np_reshape. cbn [nd_shape zprodl fold_right].
  rewrite !Z.mul_1_r, Z.eqb_refl. eexists. split; [reflexivity|]. split; [reflexivity|]. intros y x. cbn [nd_at ravel unravel hd zprodl fold_right].
  rewrite Z.div_1_r, !Z.mul_1_r. lia.
Qed.

Lemma positions a b n : 0 <= a <= b -> b <= n -> slice_positions n (slice_of a b) = zrange a b.
Proof.
  intros H1 H2. unfold slice_positions, slice_bounds, slice_of, clip_end. cbn [sl_start sl_stop].
  replace (a <? 0) with false by lia. replace (b <? 0) with false by lia. rewrite !Z.min_l by lia. reflexivity.
Qed.

Lemma side_spec ny nx g s : nd_shape g = [ny; nx] -> (forall y x, nd_at g [y; x] = y * nx + x + 1) -> SideOf (ny, nx) s ->
  zlen (side_indices g s) = side_size s /\
  forall i x, 1 <= i -> nth_error (side_indices g s) (Z.to_nat (i - 1)) = Some x -> GlobalOf nx s i x.
Proof.
  intros Hs Hat HS. destruct s as [[y0 y1] [x0 x1]|ids]; cbn [SideOf side_indices side_size GlobalOf fst snd] in *.
  2:{ split; [reflexivity|]. intros i x Hi H. split; assumption. }
  unfold box_indices. rewrite Hs. cbn [fst snd]. rewrite !positions by lia. rewrite (zrange_from y0), (zrange_from x0), flat_map_map.
  set (l := flat_map _ _).
  destruct (Z.eq_dec x0 x1) as [->|Hne].
  - assert (El : l = []).
    { unfold l. rewrite (zrange_nil 0 (x1 - x1)) by lia. cbn [map]. induction (zrange 0 (y1 - y0)) as [|a t IH]; [reflexivity|exact IH]. }
    rewrite El. split; [unfold zlen; cbn; lia|]. intros i x _ H. destruct (Z.to_nat (i - 1)); discriminate H.
  - assert (Hw : 0 < x1 - x0) by lia.
    assert (Hn : forall k, nth_error l k = if Z.of_nat k <? (y1 - y0) * (x1 - x0) then Some ((y0 + Z.of_nat k / (x1 - x0)) * nx + (x0 + Z.of_nat k mod (x1 - x0)) + 1) else None).
    { intros k. unfold l. rewrite <- (grid_nth (fun r c => (y0 + r) * nx + (x0 + c) + 1) (x1 - x0) Hw (y1 - y0) k) by lia. f_equal.
      apply flat_map_ext. intros r. rewrite map_map. apply map_ext. intros c. apply Hat. }
    split.
    + assert (0 <= (y1 - y0) * (x1 - x0)) by (apply Z.mul_nonneg_nonneg; lia).
      assert (A : nth_error l (Z.to_nat ((y1 - y0) * (x1 - x0))) = None).
      { rewrite Hn. destruct (Z.ltb_spec (Z.of_nat (Z.to_nat ((y1 - y0) * (x1 - x0)))) ((y1 - y0) * (x1 - x0))); [lia|reflexivity]. }
      apply nth_error_None in A. unfold zlen. destruct (Z.eq_dec ((y1 - y0) * (x1 - x0)) 0) as [E|E]; [rewrite E in *; cbn in A; lia|].
      assert (B : nth_error l (Z.to_nat ((y1 - y0) * (x1 - x0) - 1)) <> None).
      { rewrite Hn. destruct (Z.ltb_spec (Z.of_nat (Z.to_nat ((y1 - y0) * (x1 - x0) - 1))) ((y1 - y0) * (x1 - x0))); [discriminate|lia]. }
      apply nth_error_Some in B. lia.
    + intros i x Hi H. rewrite Hn in H. destruct (Z.ltb_spec (Z.of_nat (Z.to_nat (i - 1))) ((y1 - y0) * (x1 - x0))); [|discriminate].
      injection H as <-. rewrite Z2Nat.id in * by lia. exists ((i - 1) / (x1 - x0)), ((i - 1) mod (x1 - x0)).
      pose proof (Z.mod_pos_bound (i - 1) (x1 - x0) Hw). pose proof (Z.div_mod (i - 1) (x1 - x0) ltac:(lia)).
      split; [split; [apply Z.div_pos; lia|apply Z.div_lt_upper_bound; lia]|]. split; [lia|]. split; [lia|reflexivity].
Qed.

Lemma remap_spec ny nx g s l : nd_shape g = [ny; nx] -> (forall y x, nd_at g [y; x] = y * nx + x + 1) -> SideOf (ny, nx) s ->
  Forall (fun i => 1 <= i <= side_size s) l -> exists r, remap (side_indices g s) l = Ok r /\ Forall2 (GlobalOf nx s) l r.
Proof.
  intros Hs Hat HS Hl. destruct (side_spec ny nx g s Hs Hat HS) as [HL HN]. unfold remap.
  induction Hl as [|i l Hi Hl IH]; [exists []; split; [reflexivity|constructor]|].
  destruct IH as [r [E F]]. destruct (py_index_nat (side_indices g s) (i - 1)) as [x [Ex Nx]]; [lia|].
  exists (x :: r). cbn [map_res]. rewrite Ex. cbn [bind]. rewrite E. cbn [bind]. split; [reflexivity|]. constructor; [apply HN; [lia|exact Nx]|exact F].
Qed.

Lemma write_next {X} (a data : list X) fill n : zlen data <= n ->
  write_at (a ++ repeat fill (Z.to_nat n)) (zlen a) data = Ok ((a ++ data) ++ repeat fill (Z.to_nat (n - zlen data)))%list.
Proof.
  intros H. pose proof (zlen_nonneg data) as Hd. unfold write_at. 
  assert (L : zlen (a ++ repeat fill (Z.to_nat n)) = zlen a + n) by (rewrite zlen_app; unfold zlen at 2; rewrite repeat_length; lia).
  rewrite L. destruct (Z.leb_spec (zlen a + zlen data) (zlen a + n)); [|lia]. f_equal.
  assert (Na : Z.to_nat (zlen a) = List.length a) by (unfold zlen; lia).
  assert (Nd : Z.to_nat (zlen a + zlen data) = (List.length a + List.length data)%nat) by (unfold zlen; lia).
  rewrite Na, Nd. rewrite firstn_app, Nat.sub_diag, firstn_all, firstn_O, app_nil_r.
  rewrite skipn_app, skipn_all2 by lia. cbn [app]. replace (List.length a + List.length data - List.length a)%nat with (List.length data) by lia.
  rewrite <- app_assoc. f_equal. f_equal. replace (Z.to_nat n) with (List.length data + Z.to_nat (n - zlen data))%nat by (unfold zlen in *; lia).
  rewrite repeat_app, skipn_app, repeat_length, Nat.sub_diag. rewrite skipn_all2 by (rewrite repeat_length; lia). reflexivity.
Qed.

Section Merge.
  Context {F : Type}.
  Implicit Types (files : list (option (weights F))) (w : weights F).

  Definition weight_count (l : list (side * side * weights F)) : Z := zlen (concat (map (fun c => w_S (snd c)) l)).

  Lemma merged_size_spec dshape sshape strict sides files : Forall2 (FileOk dshape sshape strict) sides files ->
    merged_size strict files = Ok (weight_count (present sides files)).
  Proof.
    induction 1 as [|ds f sides files Hf H IH]; [reflexivity|]. destruct f as [w|]; cbn [merged_size present FileOk] in *.
    - rewrite IH. cbn [bind]. unfold weight_count. cbn [map concat snd]. rewrite zlen_app. destruct Hf as [_ [_ [_ [_ [[->|[-> ->]] _]]]]]; reflexivity.
    - rewrite Hf in *. exact IH.
  Qed.

  Lemma merge_loop_spec dshape sshape strict dst src fill sides files :
    nd_shape dst = [fst dshape; snd dshape] -> (forall y x, nd_at dst [y; x] = y * snd dshape + x + 1) ->
    nd_shape src = [fst sshape; snd sshape] -> (forall y x, nd_at src [y; x] = y * snd sshape + x + 1) ->
    Forall2 (FileOk dshape sshape strict) sides files ->
    let n := weight_count (present sides files) in
    forall a b c, zlen a = zlen c -> zlen b = zlen c -> exists rs cs,
      merge_loop strict dst src sides files (zlen c) (a ++ repeat 0 (Z.to_nat n), b ++ repeat 0 (Z.to_nat n), c ++ repeat fill (Z.to_nat n))%list =
        Ok ((a ++ concat rs)%list, (b ++ concat cs)%list, (c ++ concat (map (fun ch => w_S (snd ch)) (present sides files)))%list) /\
      Forall2 (fun ch r => Forall2 (GlobalOf (snd dshape) (fst (fst ch))) (w_row (snd ch)) r) (present sides files) rs /\
      Forall2 (fun ch r => Forall2 (GlobalOf (snd sshape) (snd (fst ch))) (w_col (snd ch)) r) (present sides files) cs.
  Proof.
    intros D1 D2 S1 S2 H. induction H as [|[d s] f sides files Hf H IH]; intros n a b c La Lb.
    - exists [], []. cbn [present merge_loop map concat]. subst n. unfold weight_count. cbn. rewrite !app_nil_r. split; [reflexivity|]. split; constructor.
    - destruct f as [w|]; cbn [present FileOk fst snd] in *.
      2:{ subst n. cbn [merge_loop]. rewrite Hf in *. exact (IH a b c La Lb). }
      destruct Hf as [Sd [Ss G]]. destruct G as [G1 [G2 [_ [G4 G5]]]].
      set (k := weight_count (present sides files)) in *.
      assert (En : n = zlen (w_S w) + k) by (unfold n, k, weight_count; cbn [map concat snd]; rewrite zlen_app; reflexivity).
      assert (Hk : 0 <= k) by (unfold k, weight_count; apply zlen_nonneg).
      assert (Sd' : SideOf (fst dshape, snd dshape) d) by (rewrite <- surjective_pairing; exact Sd).
      assert (Ss' : SideOf (fst sshape, snd sshape) s) by (rewrite <- surjective_pairing; exact Ss).
      destruct (remap_spec _ _ dst d (w_row w) D1 D2 Sd' G4) as [r [Er Fr]].
      destruct (remap_spec _ _ src s (w_col w) S1 S2 Ss' G5) as [cl [Ec Fc]].
      assert (Lr : zlen r = zlen (w_S w)) by (rewrite <- G1; unfold zlen; rewrite (Forall2_len _ _ _ Fr); reflexivity).
      assert (Lc : zlen cl = zlen (w_S w)) by (rewrite <- G2; unfold zlen; rewrite (Forall2_len _ _ _ Fc); reflexivity).
      destruct (IH (a ++ r)%list (b ++ cl)%list (c ++ w_S w)%list) as [rs [cs [E [F1 F2]]]]; [rewrite !zlen_app; lia|rewrite !zlen_app; lia|].
      exists (r :: rs), (cl :: cs). cbn [merge_loop]. rewrite Er. cbn [bind].
      rewrite <- La at 1. rewrite write_next by lia. cbn [bind]. rewrite Ec. cbn [bind]. rewrite <- Lb at 1. rewrite write_next by lia. cbn [bind].
      rewrite write_next by lia. cbn [bind].
      replace (n - zlen r) with k by lia. replace (n - zlen cl) with k by lia. replace (n - zlen (w_S w)) with k by lia.
      replace (zlen c + zlen (w_S w)) with (zlen (c ++ w_S w)) by (rewrite zlen_app; reflexivity).
      rewrite E. cbn [map concat snd]. rewrite <- !app_assoc. split; [reflexivity|]. split; constructor; assumption.
  Qed.

  Theorem merged strict fill dshape sshape sides files :
    Forall2 (FileOk dshape sshape strict) sides files ->
    exists rs cs, create_merged_weight_file strict fill dshape sshape sides files =
        Ok (concat rs, concat cs, concat (map (fun ch => w_S (snd ch)) (present sides files))) /\
      Forall2 (fun ch r => Forall2 (GlobalOf (snd dshape) (fst (fst ch))) (w_row (snd ch)) r) (present sides files) rs /\
      Forall2 (fun ch r => Forall2 (GlobalOf (snd sshape) (snd (fst ch))) (w_col (snd ch)) r) (present sides files) cs.
  Proof.
    intros H. unfold create_merged_weight_file. rewrite (merged_size_spec dshape sshape strict sides files H). cbn [bind].
    destruct (global_ok (fst sshape) (snd sshape)) as [src [-> [S1 S2]]]. destruct (global_ok (fst dshape) (snd dshape)) as [dst [-> [D1 D2]]]. cbn [bind]. cbv zeta.
    exact (merge_loop_spec dshape sshape strict dst src fill sides files D1 D2 S1 S2 H [] [] [] eq_refl eq_refl).
  Qed.

  Theorem merged_strict fill dshape sshape sides files : In None files ->
    create_merged_weight_file true fill dshape sshape sides files = Err IOError.
  Proof.
    intros H. unfold create_merged_weight_file.
    assert (E : merged_size true files = Err IOError).
    { induction files as [|[w|] t IH]; [destruct H| |reflexivity]. destruct H as [H|H]; [discriminate|]. cbn [merged_size]. rewrite (IH H). reflexivity. }
    rewrite E. reflexivity.
  Qed.
End Merge.

Lemma global_fun (shape : Z * Z) s i g g' : GlobalOf (snd shape) s i g -> GlobalOf (snd shape) s i g' -> g = g'.
Proof.
  destruct s as [[y0 y1] [x0 x1]|ids]; cbn [GlobalOf].
  - intros [ly [lx [A [B [C D]]]]] [ly' [lx' [A' [B' [C' D']]]]].
    assert (E : ly * (x1 - x0) + lx = ly' * (x1 - x0) + lx') by lia.
    assert (ly = ly' /\ lx = lx').
    { assert (Q : ly = (ly * (x1 - x0) + lx) / (x1 - x0)) by (apply Z.div_unique with lx; lia).
      assert (Q' : ly' = (ly' * (x1 - x0) + lx') / (x1 - x0)) by (apply Z.div_unique with lx'; lia). rewrite <- E, <- Q in Q'. subst ly'. split; [reflexivity|lia]. }
    destruct H; subst. reflexivity.
  - intros [_ H] [_ H']. congruence.
Qed.
Lemma global_inj (shape : Z * Z) s i i' g : SideOf shape s -> GlobalOf (snd shape) s i g -> GlobalOf (snd shape) s i' g -> i = i'.
Proof.
  destruct s as [[y0 y1] [x0 x1]|ids]; cbn [GlobalOf SideOf].
  - intros S [ly [lx [A [B [C D]]]]] [ly' [lx' [A' [B' [C' D']]]]]. set (nx := snd shape) in *.
    assert (E : (y0 + ly) * nx + (x0 + lx) = (y0 + ly') * nx + (x0 + lx')) by lia.
    assert (ly = ly' /\ lx = lx').
    { assert (Q : y0 + ly = ((y0 + ly) * nx + (x0 + lx)) / nx) by (apply Z.div_unique with (x0 + lx); lia).
      assert (Q' : y0 + ly' = ((y0 + ly') * nx + (x0 + lx')) / nx) by (apply Z.div_unique with (x0 + lx'); lia).
      rewrite <- E, <- Q in Q'. assert (ly = ly') by lia. subst ly'. split; [reflexivity|lia]. }
    destruct H; subst. reflexivity.
  - intros N [A H] [A' H']. assert (Z.to_nat (i - 1) = Z.to_nat (i' - 1)); [|lia].
    apply (proj1 (NoDup_nth_error ids) N); [apply nth_error_Some; congruence|congruence].
Qed.

Section Application.
  Context {F X : Type} (add : X -> X -> X) (zero : X) (mul : F -> X -> X).
  Hypothesis add_assoc : forall a b c, add a (add b c) = add (add a b) c.
  Hypothesis add_zero : forall a, add zero a = a.

  Lemma apply_app src r : forall r1 c1 (s1 : list F) r2 c2 s2, List.length r1 = List.length s1 -> List.length c1 = List.length s1 ->
    apply_row add zero mul (r1 ++ r2) (c1 ++ c2) (s1 ++ s2) src r = add (apply_row add zero mul r1 c1 s1 src r) (apply_row add zero mul r2 c2 s2 src r).
  Proof.
    induction r1 as [|a r1 IH]; intros [|c c1] [|s s1] r2 c2 s2 L1 L2; try discriminate.
    - cbn [app apply_row]. rewrite add_zero. reflexivity.
    - cbn [app apply_row List.length] in *. rewrite (IH c1 s1) by lia. destruct (a =? r); [apply add_assoc|reflexivity].
  Qed.

  Lemma apply_in (dshape sshape : Z * Z) d s g i src part : SideOf dshape d -> GlobalOf (snd dshape) d i g ->
    (forall c gc, GlobalOf (snd sshape) s c gc -> part c = src gc) ->
    forall rows cols (S : list F) rs cs, Forall2 (GlobalOf (snd dshape) d) rows rs -> Forall2 (GlobalOf (snd sshape) s) cols cs ->
    apply_row add zero mul rs cs S src g = apply_row add zero mul rows cols S part i.
  Proof.
    intros Hd Hi Hp rows cols S rs cs Hr. revert cols S cs. induction Hr as [|r r' rows rs Hrr Hr IH]; intros cols S cs Hc; [reflexivity|].
    destruct Hc as [|c c' cols cs Hcc Hc]; [reflexivity|]. destruct S as [|x S]; [reflexivity|]. cbn [apply_row].
    rewrite (IH cols S cs Hc). rewrite (Hp c c' Hcc).
    destruct (Z.eqb_spec r' g) as [->|N], (Z.eqb_spec r i) as [->|N']; try reflexivity.
    - exfalso. apply N'. exact (global_inj dshape d r i g Hd Hrr Hi).
    - exfalso. apply N. exact (global_fun dshape d i r' g Hrr Hi).
  Qed.
  Lemma apply_out nx d g src : (forall i, ~ GlobalOf nx d i g) -> forall rows cs (S : list F) rs, Forall2 (GlobalOf nx d) rows rs ->
    apply_row add zero mul rs cs S src g = zero.
  Proof.
    intros Hn rows cs S rs H. revert cs S. induction H as [|r r' rows rs Hr H IH]; intros [|c cs] [|x S]; try reflexivity. cbn [apply_row].
    destruct (Z.eqb_spec r' g) as [->|N]; [exfalso; exact (Hn r Hr)|apply IH].
  Qed.

  Theorem application strict fill dshape sshape sides (files : list (option (weights F))) rows cols S :
    Forall2 (FileOk dshape sshape strict) sides files ->
    create_merged_weight_file strict fill dshape sshape sides files = Ok (rows, cols, S) ->
    forall src g vs, Forall2 (Contribution add zero mul (snd dshape) (snd sshape) g src) (present sides files) vs ->
    apply_row add zero mul rows cols S src g = total add zero vs.
  Proof.
    intros H E src g vs Hv. destruct (merged strict fill dshape sshape sides files H) as [rs [cs [E' [F1 F2]]]]. rewrite E in E'. injection E' as -> -> ->.
    assert (Hp : Forall (fun ch => SideOf dshape (fst (fst ch)) /\ GoodWeights (fst (fst ch)) (snd (fst ch)) (snd ch)) (present sides files)).
    { clear -H. induction H as [|ds f sides files Hf H IH]; [constructor|]. destruct f as [w|]; cbn [present FileOk] in *; [constructor; [cbn [fst snd]; tauto|exact IH]|exact IH]. }
    clear E H. revert rs cs vs F1 F2 Hv. induction (present sides files) as [|[[d s] w] l IH]; intros rs cs vs F1 F2 Hv.
    - inversion F1; inversion F2; inversion Hv; subst. reflexivity.
    - inversion F1 as [|? r ? rs' R1 R2]; inversion F2 as [|? c ? cs' C1 C2]; inversion Hv as [|? v ? vs' V1 V2]; inversion Hp as [|? ? [P1 P2] P3]; subst; clear F1 F2 Hv Hp.
      cbn [fst snd map concat] in *. destruct P2 as [G1 [G2 _]].
      assert (Lr : List.length r = List.length (w_S w)) by (rewrite <- (Forall2_len _ _ _ R1); unfold zlen in G1; lia).
      assert (Lc : List.length c = List.length (w_S w)) by (rewrite <- (Forall2_len _ _ _ C1); unfold zlen in G2; lia).
      rewrite (apply_app src g r c (w_S w)) by assumption. cbn [total fold_right]. fold (total add zero vs'). rewrite (IH P3 rs' cs' vs' R2 C2 V2). f_equal.
      destruct V1 as [[i [part [Hi [Hpart ->]]]]|[Hn ->]].
      + exact (apply_in dshape sshape d s g i src part P1 Hi Hpart _ _ _ _ _ R1 C1).
      + exact (apply_out (snd dshape) d g src Hn _ _ _ _ R1).
  Qed.
End Application.
