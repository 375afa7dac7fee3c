(** Longitude reordering (C33). *)
From Verif Require Import Py Lib Spec PartitionModel PartitionProofs TimeModel TimeProofs NdModel NdSpec NdProofs MaskProofs SeasonProofs CalcModel CalcProofs AggModel AggSpec AggProofs CoordModel CoordSpec CoordProofs.
From Coq Require Import Lqa Permutation.

(** ** Rotation of a list *)
Lemma rotate_list {A} (l : list A) s : 0 <= s <= zlen l -> rotate_view l s = skipn (Z.to_nat s) l ++ firstn (Z.to_nat s) l.
Proof.
  intros H. unfold rotate_view, py_slice, slice_bounds, clip_end, slice_of. cbn [sl_start sl_stop].
  destruct (s <? 0) eqn:E; [lia|]. cbn [Z.ltb Z.compare]. replace (Z.min s (zlen l)) with s by lia. pose proof (zlen_nonneg l). f_equal.
  - rewrite firstn_all2; [reflexivity|]. rewrite skipn_length. unfold zlen in *. lia.
  - replace (Z.min 0 (zlen l)) with 0 by lia. rewrite Z.sub_0_r. reflexivity.
Qed.
Lemma rotate_nth {A} (l : list A) s k : 0 <= s <= zlen l -> 0 <= k < zlen l ->
  nth_error (rotate_view l s) (Z.to_nat k) = nth_error l (Z.to_nat ((k + s) mod zlen l)).
Proof.
  intros Hs Hk. rewrite rotate_list by exact Hs. set (n := zlen l) in *.
  assert (Ln : n = Z.of_nat (List.length l)) by reflexivity.
  destruct (Z_lt_ge_dec (k + s) n) as [L|L].
  - rewrite nth_error_app1 by (rewrite skipn_length; lia). rewrite Z.mod_small by lia.
    rewrite <- (firstn_skipn (Z.to_nat s) l) at 2. rewrite nth_error_app2 by (rewrite firstn_length; lia). rewrite firstn_length. f_equal. lia.
  - rewrite nth_error_app2 by (rewrite skipn_length; lia). rewrite skipn_length.
    assert (M : (k + s) mod n = k + s - n) by (symmetry; apply (Z.mod_unique (k + s) n 1 (k + s - n)); lia). rewrite M.
    rewrite <- (firstn_skipn (Z.to_nat s) l) at 3. rewrite nth_error_app1 by (rewrite firstn_length; lia). f_equal. lia.
Qed.

(** ** Templates *)
Definition tmpl (ri k0 : nat) (idx : list Z) : list (option Z) :=
  map (fun p : nat * Z => if Nat.eqb (fst p) ri then None else Some (snd p)) (enumerate k0 idx).
Definition itrs_of (ri k0 : nat) (shape : list Z) : list (list (option Z)) :=
  map (fun p : nat * Z => if Nat.eqb (fst p) ri then [None] else map Some (zrange 0 (snd p))) (enumerate k0 shape).

Lemma tmpl_in ri : forall shape idx k0, IndexOf shape idx -> In (tmpl ri k0 idx) (list_product (itrs_of ri k0 shape)).
Proof.
  intros shape idx k0 H. apply list_product_in. revert k0. induction H as [|n i shape idx Hi H IH]; intros k0; [constructor|].
  cbn [tmpl itrs_of enumerate map fst snd]. constructor; [|apply (IH (S k0))].
  destruct (Nat.eqb k0 ri); [left; reflexivity|]. apply in_map, in_zrange, Hi.
Qed.
Lemma tmpl_unique ri : forall shape idx k0 t, IndexOf shape idx -> In t (list_product (itrs_of ri k0 shape)) -> matches t idx = true -> t = tmpl ri k0 idx.
Proof.
  intros shape idx k0 t H Hin. apply list_product_in in Hin. revert k0 t Hin. induction H as [|n i shape idx Hi H IH]; intros k0 t Hin M.
  - inversion Hin; subst. reflexivity.
  - cbn [itrs_of enumerate map fst snd] in Hin. inversion Hin as [|? o ? u Ho Hu]; subst. cbn [tmpl enumerate map fst snd].
    destruct (Nat.eqb k0 ri).
    + destruct Ho as [<-|[]]. cbn in M. f_equal. apply (IH (S k0)); assumption.
    + apply in_map_iff in Ho. destruct Ho as [a [<- _]]. cbn in M. apply andb_true_iff in M. destruct M as [Ma M]. assert (i = a) by lia. subst a. f_equal.
      apply (IH (S k0)); assumption.
Qed.
Lemma tmpl_matches ri : forall idx k0, matches (tmpl ri k0 idx) idx = true.
Proof.
  induction idx as [|i idx IH]; intros k0; [reflexivity|]. cbn [tmpl enumerate map fst snd]. destruct (Nat.eqb k0 ri); cbn [matches]; [apply (IH (S k0))|].
  rewrite Z.eqb_refl. apply (IH (S k0)).
Qed.
Lemma tmpl_nth ri : forall idx k0 k, nth k (tmpl ri k0 idx) None = if Nat.eqb (k0 + k) ri then None else nth_error idx k.
Proof.
  induction idx as [|i idx IH]; intros k0 k.
  - destruct k; cbn; destruct (Nat.eqb _ _); reflexivity.
  - cbn [tmpl enumerate map fst snd]. destruct k as [|k]; cbn [nth nth_error].
    + rewrite Nat.add_0_r. destruct (Nat.eqb k0 ri); reflexivity.
    + change (nth k (tmpl ri (S k0) idx) None = if Nat.eqb (k0 + S k) ri then None else nth_error idx k). rewrite IH. replace (S k0 + k)%nat with (k0 + S k)%nat by lia. reflexivity.
Qed.
Lemma tmpl_set ri j : forall idx k0, (k0 <= ri)%nat -> tmpl ri k0 (set_nth idx (ri - k0) j) = tmpl ri k0 idx.
Proof.
  induction idx as [|i idx IH]; intros k0 H; [reflexivity|]. destruct (Nat.eq_dec k0 ri) as [->|Hne].
  - rewrite Nat.sub_diag. cbn. rewrite Nat.eqb_refl. reflexivity.
  - replace (ri - k0)%nat with (S (ri - S k0)) by lia. cbn [set_nth tmpl enumerate map fst snd]. f_equal. apply (IH (S k0)). lia.
Qed.
Lemma list_product_nodup {A} : forall ls : list (list A), Forall (@NoDup A) ls -> NoDup (list_product ls).
Proof.
  induction ls as [|l ls IH]; intros H; cbn [list_product]; [constructor; [intros [] | constructor]|]. inversion H; subst. specialize (IH H3).
  clear H H3. induction H2 as [|x l Hx Hl IHl]; cbn [flat_map]; [constructor|]. apply NoDup_app_intro.
  - apply FinFun.Injective_map_NoDup; [intros a b E; congruence | exact IH].
  - exact IHl.
  - intros y Hy Hy'. apply in_map_iff in Hy. destruct Hy as [u [<- _]]. apply in_flat_map in Hy'. destruct Hy' as [z [Hz Hy']].
    apply in_map_iff in Hy'. destruct Hy' as [w [E _]]. assert (z = x) by congruence. subst z. contradiction.
Qed.
Lemma itrs_nodup ri : forall shape k0, Forall (@NoDup _) (itrs_of ri k0 shape).
Proof.
  induction shape as [|n shape IH]; intros k0; [constructor|]. cbn [itrs_of enumerate map fst snd]. constructor; [|apply (IH (S k0))].
  destruct (Nat.eqb k0 ri); [constructor; [intros [] | constructor]|]. apply FinFun.Injective_map_NoDup; [intros a b E; congruence | apply nodup_zrange].
Qed.
Lemma fold_res_app {A S} (f : S -> A -> res S) : forall l1 l2 s, fold_res f (l1 ++ l2) s = do s' <- fold_res f l1 s; fold_res f l2 s'.
Proof. induction l1 as [|x l1 IH]; intros l2 s; [reflexivity|]. cbn. destruct (f s x); cbn; [apply IH | reflexivity]. Qed.

Lemma set_index shape idx r j : IndexOf shape idx -> (0 <= j < nth r shape 0) -> IndexOf shape (set_nth idx r j).
Proof.
  intros H. revert r. induction H as [|n i shape idx Hi H IH]; intros r Hj; [constructor|]. destruct r; cbn in *; constructor; auto. apply IH, Hj.
Qed.

(** ** One array *)
Section Array.
  Context {A : Type}.
  Variables (shifts : list Z) (arr : nd A) (dims : list string) (rdim vdim : string) (ri vi : nat).
  Hypothesis Hri : str_index dims rdim = Ok ri.
  Hypothesis Hvi : str_index dims vdim = Ok vi.
  Hypothesis Hne : vi <> ri.
  Let shape := nd_shape arr.
  Hypothesis Hrs : (ri < List.length shape)%nat.
  Hypothesis Hvs : (vi < List.length shape)%nat.
  Hypothesis Hshift : forall cv, 0 <= cv < nth vi shape 0 -> exists s, py_index shifts cv = Ok s /\ 0 <= s <= nth ri shape 0.

  Definition step (a : nd A) (yld : list (option Z)) : res (nd A) :=
    match nth vi yld None with
    | None => Err TypeError
    | Some cv =>
      do s <- py_index shifts cv;
      Ok (mknd shape (fun idx =>
        if matches yld idx then
          let view := map (fun j => nd_at a (set_nth idx ri j)) (zrange 0 (nth ri shape 0)) in
          nth (Z.to_nat (nth ri idx 0)) (rotate_view view s) (nd_at a idx)
        else nd_at a idx))
    end.

  Lemma step_ok t a : In t (list_product (itrs_of ri 0 shape)) -> exists a', step a t = Ok a' /\ nd_shape a' = shape.
  Proof.
    intros Ht. apply list_product_in in Ht.
    assert (X : exists cv, nth vi t None = Some cv /\ 0 <= cv < nth vi shape 0).
    { destruct (nth_error shape vi) as [n|] eqn:En; [|apply nth_error_None in En; lia].
      assert (Ei : nth_error (itrs_of ri 0 shape) vi = Some (map Some (zrange 0 n))).
      { unfold itrs_of. assert (Een : nth_error (enumerate 0 shape) vi = Some (vi, n)).
        { assert (G : forall (l : list Z) k j x, nth_error l j = Some x -> nth_error (enumerate k l) j = Some ((k + j)%nat, x)).
          { clear. induction l as [|y l IH]; intros k j x H; [destruct j; discriminate|]. destruct j; cbn in *; [rewrite Nat.add_0_r; congruence|].
            rewrite (IH (S k) j x H). f_equal. f_equal. lia. }
          apply (G shape 0%nat vi n En). }
        rewrite (map_nth_error _ _ _ Een). cbn. destruct (Nat.eqb_spec vi ri); [contradiction | reflexivity]. }
      destruct (nth_error_forall2 _ _ _ Ht vi) as [_ Y]. destruct (Y _ Ei) as [o [Ho Hin]]. apply in_map_iff in Hin. destruct Hin as [cv [<- Hcv]].
      exists cv. split; [apply nth_error_nth; exact Ho|]. apply in_zrange in Hcv. rewrite (nth_error_nth _ _ 0 En). exact Hcv. }
    destruct X as [cv [E Hcv]]. unfold step. rewrite E. destruct (Hshift cv Hcv) as [s [Es _]]. rewrite Es. cbn [bind]. eexists. split; reflexivity.
  Qed.
  Lemma step_other t a a' idx : step a t = Ok a' -> matches t idx = false -> nd_at a' idx = nd_at a idx.
  Proof.
    unfold step. destruct (nth vi t None); [|discriminate]. destruct (py_index shifts z); [|discriminate]. cbn [bind]. intros E M.
    match type of E with Ok ?r = _ => assert (X : a' = r) by congruence end. subst a'. cbn. rewrite M. reflexivity.
  Qed.
  Lemma fold_other : forall L a a' idx, fold_res step L a = Ok a' -> (forall t, In t L -> matches t idx = false) -> nd_at a' idx = nd_at a idx.
  Proof.
    induction L as [|t L IH]; intros a a' idx E M; cbn in E; [congruence|]. destruct (step a t) as [a1|] eqn:E1; [|discriminate]. cbn in E.
    rewrite (IH _ _ _ E) by (intros; apply M; right; assumption). apply (step_other t); [exact E1 | apply M; left; reflexivity].
  Qed.

  Lemma reorder_array_at : exists out, reorder_array shifts arr dims rdim vdim = Ok out /\ nd_shape out = shape /\
    forall idx, IndexOf shape idx -> exists cv s, nth_error idx vi = Some cv /\ py_index shifts cv = Ok s /\
      nd_at out idx = nd_at arr (set_nth idx ri ((nth ri idx 0 + s) mod nth ri shape 0)).
  Proof.
    unfold reorder_array. rewrite Hri, Hvi. cbn [bind]. fold shape. change (map _ (enumerate 0 shape)) with (itrs_of ri 0 shape).
    change (exists out, fold_res step (list_product (itrs_of ri 0 shape)) arr = Ok out /\ nd_shape out = shape /\
      forall idx, IndexOf shape idx -> exists cv s, nth_error idx vi = Some cv /\ py_index shifts cv = Ok s /\
        nd_at out idx = nd_at arr (set_nth idx ri ((nth ri idx 0 + s) mod nth ri shape 0))).
    assert (Sh : forall L a, nd_shape a = shape -> (forall t, In t L -> In t (list_product (itrs_of ri 0 shape))) -> exists out, fold_res step L a = Ok out /\ nd_shape out = shape).
    { induction L as [|t L IH]; intros a Ha HL; cbn; [eauto|]. destruct (step_ok t a (HL t (or_introl eq_refl))) as [a1 [E1 S1]]. rewrite E1. cbn. apply IH; [exact S1|].
      intros; apply HL; right; assumption. }
    destruct (Sh (list_product (itrs_of ri 0 shape)) arr eq_refl (fun _ H => H)) as [out [E So]]. exists out. split; [exact E|]. split; [exact So|].
    intros idx Hidx. pose proof (tmpl_in ri shape idx 0 Hidx) as Hin. set (t0 := tmpl ri 0 idx) in *.
    assert (Lidx : List.length idx = List.length shape) by (symmetry; exact (Forall2_len _ _ _ Hidx)).
    destruct (nth_error idx vi) as [cv|] eqn:Ecv; [|apply nth_error_None in Ecv; lia].
    assert (Hcv : 0 <= cv < nth vi shape 0).
    { destruct (nth_error_forall2 _ _ _ Hidx vi) as [Y _]. destruct (Y _ Ecv) as [n [Hn Hc]]. rewrite (nth_error_nth _ _ 0 Hn). exact Hc. }
    destruct (Hshift cv Hcv) as [s [Es Hs]]. exists cv, s. split; [reflexivity|]. split; [exact Es|].
    destruct (in_split _ _ Hin) as [L1 [L2 EL]]. pose proof (list_product_nodup _ (itrs_nodup ri shape 0)) as ND.
    assert (Hn0 : 0 <= nth ri idx 0 < nth ri shape 0).
    { destruct (nth_error idx ri) as [x|] eqn:Ex; [|apply nth_error_None in Ex; lia]. destruct (nth_error_forall2 _ _ _ Hidx ri) as [Y _]. destruct (Y _ Ex) as [n [Hn Hc]].
      rewrite (nth_error_nth _ _ 0 Hn), (nth_error_nth _ _ 0 Ex). exact Hc. }
    assert (Other : forall t j, In t (L1 ++ L2) -> 0 <= j < nth ri shape 0 -> matches t (set_nth idx ri j) = false).
    { intros t j Ht Hj. destruct (matches t (set_nth idx ri j)) eqn:M; [|reflexivity]. exfalso.
      apply (tmpl_unique ri shape (set_nth idx ri j) 0) in M; [| |rewrite EL; apply in_or_app; apply in_app_or in Ht; cbn; tauto].
      - pose proof (tmpl_set ri j idx 0 ltac:(lia)) as TS. rewrite Nat.sub_0_r in TS. rewrite TS in M. fold t0 in M. subst t. rewrite EL in ND. apply NoDup_remove_2 in ND. contradiction.
      - apply set_index; assumption. }
    assert (Self : forall a : nd A, nd_at a idx = nd_at a (set_nth idx ri (nth ri idx 0))).
    { intros a. f_equal. symmetry. apply nth_error_ext'. intros k. destruct (Nat.eq_dec k ri) as [->|Hk].
      - rewrite nth_error_set_nth_same by lia. symmetry. apply nth_error_nth'. lia.
      - apply nth_error_set_nth_other; assumption. }
    rewrite EL, fold_res_app in E. cbn [fold_res] in E. destruct (fold_res step L1 arr) as [a1|] eqn:E1; [|discriminate]. cbn [bind] in E.
    destruct (step a1 t0) as [a2|] eqn:E2; [|discriminate]. cbn [bind] in E.
    assert (A1 : forall j, 0 <= j < nth ri shape 0 -> nd_at a1 (set_nth idx ri j) = nd_at arr (set_nth idx ri j)).
    { intros j Hj. apply (fold_other L1); [exact E1|]. intros t Ht. apply Other; [apply in_or_app; left; exact Ht | exact Hj]. }
    assert (A3 : nd_at out idx = nd_at a2 idx).
    { rewrite Self, (Self a2). apply (fold_other L2); [exact E|]. intros t Ht. apply Other; [apply in_or_app; right; exact Ht | exact Hn0]. }
    rewrite A3. unfold step in E2. assert (Nv : nth vi t0 None = Some cv).
    { unfold t0. rewrite tmpl_nth. cbn [Nat.add]. destruct (Nat.eqb_spec vi ri); [contradiction | exact Ecv]. }
    rewrite Nv, Es in E2. cbn [bind] in E2. match type of E2 with Ok ?r = _ => assert (X : a2 = r) by congruence end. subst a2. cbn [nd_at].
    unfold t0 at 1. rewrite tmpl_matches. cbv zeta.
    set (view := map (fun j => nd_at a1 (set_nth idx ri j)) (zrange 0 (nth ri shape 0))).
    assert (Lv : zlen view = nth ri shape 0) by (unfold view; rewrite zlen_map, zrange_zlen; lia).
    assert (Hm : 0 <= (nth ri idx 0 + s) mod nth ri shape 0 < nth ri shape 0) by (apply Z.mod_pos_bound; lia).
    apply nth_error_nth. rewrite rotate_nth by lia. rewrite Lv. unfold view.
    assert (Hk : lt (Z.to_nat ((nth ri idx 0 + s) mod nth ri shape 0)) (Z.to_nat (nth ri shape 0 - 0))) by lia.
    rewrite (map_nth_error _ _ _ (nth_error_zrange 0 _ _ Hk)). f_equal. rewrite Z2Nat.id, Z.add_0_l by lia. apply A1. exact Hm.
  Qed.
End Array.

(** In terms of coordinates by name. *)
Lemma pos_spec names n : In n names -> exists k, str_index names n = Ok k /\ nth_error names k = Some n /\ (k < List.length names)%nat.
Proof. intros H. destruct (str_index_ok names n H) as [k [E N]]. exists k. split; [exact E|]. split; [exact N|]. apply nth_error_Some. congruence. Qed.
Lemma set_coord names (c : string -> Z) n k j : NoDup names -> nth_error names k = Some n -> set_nth (map c names) k j = map (with_coord c n j) names.
Proof.
  intros Hn Hk. apply nth_error_ext'. intros i. assert (Lk : (k < List.length names)%nat) by (apply nth_error_Some; congruence).
  destruct (Nat.eq_dec i k) as [->|Hi].
  - rewrite nth_error_set_nth_same by (rewrite map_length; exact Lk). rewrite (map_nth_error _ _ _ Hk). unfold with_coord. rewrite String.eqb_refl. reflexivity.
  - rewrite nth_error_set_nth_other by exact Hi. rewrite !nth_error_map. destruct (nth_error names i) as [m|] eqn:Em; [|reflexivity]. cbn. f_equal. unfold with_coord.
    destruct (String.eqb_spec m n) as [->|]; [|reflexivity]. exfalso. apply Hi. apply (nodup_nth_inj names i k n); assumption.
Qed.

Lemma reorder_array_spec {A} (shifts : list Z) (arr : nd A) names (shape : list Z) rdim vdim ncol :
  NoDup names -> nd_shape arr = shape -> List.length shape = List.length names -> In rdim names -> In vdim names -> rdim <> vdim ->
  (forall k, nth_error names k = Some rdim -> nth k shape 0 = ncol) ->
  (forall k cv, nth_error names k = Some vdim -> 0 <= cv < nth k shape 0 -> exists s, py_index shifts cv = Ok s /\ 0 <= s <= ncol) ->
  exists out, reorder_array shifts arr names rdim vdim = Ok out /\
    forall shift : Z -> Z, (forall cv s, py_index shifts cv = Ok s -> 0 <= cv -> shift cv = s) -> RotatedRows names shape vdim rdim ncol shift arr out.
Proof.
  intros Hn Sh Ln Hr Hv Hne Hncol Hs. destruct (pos_spec names rdim Hr) as [ri [Er [Nr Lr]]]. destruct (pos_spec names vdim Hv) as [vi [Ev [Nv Lv]]].
  destruct (reorder_array_at shifts arr names rdim vdim ri vi Er Ev) as [out [E [So Ho]]].
  - intros ->. congruence.
  - rewrite Sh. lia.
  - rewrite Sh. lia.
  - rewrite Sh. intros cv Hcv. rewrite (Hncol ri Nr). apply (Hs vi cv Nv Hcv).
  - exists out. split; [exact E|]. intros shift Hshift. split; [rewrite So, Sh; reflexivity|]. intros c Hc. rewrite <- Sh in Hc.
    destruct (Ho _ Hc) as [cv [s [Ecv [Es Hat]]]]. rewrite Hat. rewrite Sh in *. rewrite (Hncol ri Nr).
    assert (Cv : cv = c vdim) by (rewrite (map_nth_error c _ _ Nv) in Ecv; congruence).
    assert (Cr : nth ri (map c names) 0 = c rdim) by (apply nth_error_nth; rewrite (map_nth_error c _ _ Nr); reflexivity).
    rewrite Cr. rewrite (set_coord names c rdim ri _ Hn Nr). subst cv. rewrite (Hshift _ _ Es); [reflexivity|].
    destruct (nth_error_forall2 _ _ _ Hc vi) as [Y _]. destruct (Y _ (map_nth_error c _ _ Nv)) as [n [_ Hx]]. lia.
Qed.

(** ** Rows *)
Lemma first_negative_spec : forall row k, (exists x, In x row /\ (x < 0)%Q) ->
  exists s, first_negative k row = Ok s /\ k <= s < k + zlen row /\ exists x, nth_error row (Z.to_nat (s - k)) = Some x /\ (x < 0)%Q /\
    forall j y, (j < Z.to_nat (s - k))%nat -> nth_error row j = Some y -> (0 <= y)%Q.
Proof.
  induction row as [|x row IH]; intros k [z [Hz Lz]]; [destruct Hz|]. cbn [first_negative]. rewrite zlen_cons. pose proof (zlen_nonneg row). destruct (qlt_spec x 0) as [L|L].
  - exists k. split; [reflexivity|]. split; [lia|]. exists x. rewrite Z.sub_diag. split; [reflexivity|]. split; [exact L|]. intros j y Hj. cbn in Hj. lia.
  - destruct (IH (k + 1)) as [s [E [Hs [y [Hy [Ly Hb]]]]]].
    { destruct Hz as [->|Hz]; [contradiction|]. exists z. auto. }
    exists s. split; [exact E|]. split; [lia|]. exists y. replace (Z.to_nat (s - k)) with (S (Z.to_nat (s - (k + 1)))) by lia. split; [exact Hy|]. split; [exact Ly|].
    intros j w Hj Hw. destruct j as [|j]; [cbn in Hw; assert (w = x) by congruence; subst; apply Qnot_lt_le, L|]. apply (Hb j w); [lia | exact Hw].
Qed.
Lemma first_negative_none : forall row k, (forall x, In x row -> (0 <= x)%Q) -> first_negative k row = Err TypeError.
Proof.
  induction row as [|x row IH]; intros k H; [reflexivity|]. cbn. destruct (qlt_spec x 0) as [L|L]; [specialize (H x (or_introl eq_refl)); lra|]. apply IH. intros; apply H; right; assumption.
Qed.
Lemma state_wrapped l : (exists x, In x l /\ (x < 0)%Q) -> (forall x, In x l -> (x <= 180)%Q) -> wrapped_state_from_array l = WRAPPED.
Proof.
  intros [x [Hx Lx]] H. unfold wrapped_state_from_array. destruct (existsb (fun x => qlt MERIDIAN_180TH x) l) eqn:E.
  - exfalso. apply existsb_exists in E. destruct E as [y [Hy E]]. specialize (H y Hy). unfold MERIDIAN_180TH in E. destruct (qlt_spec 180 y); [lra | discriminate].
  - assert (existsb (fun x => qlt x 0) l = true) as ->; [|reflexivity]. apply existsb_exists. exists x. split; [exact Hx|]. destruct (qlt_spec x 0); [reflexivity | contradiction].
Qed.

(** ** Variables *)
Lemma any_true_false m : any_true m = false -> forall idx, IndexOf (nd_shape m) idx -> nd_at m idx = false.
Proof.
  unfold any_true. intros E idx H. destruct (nd_at m idx) eqn:X; [|reflexivity]. exfalso.
  assert (existsb (nd_at m) (indices (nd_shape m)) = true) by (apply existsb_exists; exists idx; split; [apply in_indices, H | exact X]). congruence.
Qed.

Section OneVar.
  Variables (g : grid) (shifts : list Z) (shift : Z -> Z).
  Hypothesis Hne : fst (g_row g) <> fst (g_col g).
  Hypothesis Hcol : 0 < snd (g_col g).
  Hypothesis Hshifts : forall cv, 0 <= cv < snd (g_row g) -> exists s, py_index shifts cv = Ok s /\ 0 <= s <= snd (g_col g).
  Hypothesis Hshift : forall cv s, py_index shifts cv = Ok s -> 0 <= cv -> shift cv = s.

  Lemma reorder_variable_spec v : GoodVar v ->
    (forall n, In (fst (g_row g), n) (nv_dims v) -> n = snd (g_row g)) -> (forall n, In (fst (g_col g), n) (nv_dims v) -> n = snd (g_col g)) ->
    exists v', reorder_variable shifts (fst (g_col g)) (fst (g_row g)) v = Ok v' /\ VarReordered g shift v v'.
  Proof.
    intros [Nd [Pos [Sv Sm]]] Hr Hc. unfold reorder_variable, VarReordered.
    destruct (str_mem (fst (g_col g)) (nv_names v) && str_mem (fst (g_row g)) (nv_names v)) eqn:Eb; [|exists v; split; [reflexivity | split; reflexivity]].
    apply andb_true_iff in Eb. destruct Eb as [Ec Er]. rewrite str_mem_In in Ec, Er.
    assert (Ln : List.length (nv_shape v) = List.length (nv_names v)) by (unfold nv_shape, nv_names; rewrite !map_length; reflexivity).
    assert (At : forall n k size, (forall m, In (n, m) (nv_dims v) -> m = size) -> nth_error (nv_names v) k = Some n -> nth k (nv_shape v) 0 = size).
    { intros n k size H Hk. unfold nv_names, nv_shape in *. rewrite nth_error_map in Hk. destruct (nth_error (nv_dims v) k) as [[n' m]|] eqn:E; [|discriminate].
      cbn in Hk. assert (n' = n) by congruence. subst n'. rewrite (nth_error_nth _ _ 0 (map_nth_error snd _ _ E)). cbn. apply H. eapply nth_error_In; exact E. }
    assert (R : forall B (a : nd B), nd_shape a = nv_shape v -> exists out, reorder_array shifts a (nv_names v) (fst (g_col g)) (fst (g_row g)) = Ok out /\
        RotatedRows (nv_names v) (nv_shape v) (fst (g_row g)) (fst (g_col g)) (snd (g_col g)) shift a out).
    { intros B a Sa. destruct (reorder_array_spec shifts a (nv_names v) (nv_shape v) (fst (g_col g)) (fst (g_row g)) (snd (g_col g))) as [out [E H]]; auto.
      - intros k Hk. apply (At (fst (g_col g))); assumption.
      - intros k cv Hk Hcv. rewrite (At _ k _ Hr Hk) in Hcv. apply Hshifts, Hcv.
      - exists out. split; [exact E|]. apply H, Hshift. }
    destruct (R _ _ Sv) as [val [Ev Hv]]. rewrite Ev. cbn [bind].
    destruct (nv_mask v) as [m|] eqn:Em.
    - destruct (any_true m) eqn:Ea.
      + destruct (R _ _ Sm) as [m' [Em' Hm]]. rewrite Em'. cbn [bind]. eexists. split; [reflexivity|]. cbn. auto.
      + eexists. split; [reflexivity|]. cbn [nv_dims nv_value nv_mask]. split; [reflexivity|]. split; [exact Hv|]. split; [reflexivity|].
        intros c Hi. pose proof (any_true_false m Ea) as F. rewrite Sm in F. rewrite (F _ Hi). symmetry. apply F.
        unfold IndexOf in *.
        clear F Hv Ev. 
        assert (Z : forall j, 0 <= j < snd (g_col g) -> IndexOf (nv_shape v) (map (with_coord c (fst (g_col g)) j) (nv_names v))).
        { intros j Hj. destruct (pos_spec _ _ Ec) as [k [_ [Hk _]]]. rewrite <- (set_coord (nv_names v) c _ k j Nd Hk). apply set_index; [exact Hi|].
          rewrite (At _ k _ Hc Hk). exact Hj. }
        apply Z. apply Z.mod_pos_bound. lia.
    - eexists. split; [reflexivity|]. cbn. auto.
  Qed.
End OneVar.

(** ** The whole grid *)
Lemma dget_nodup {V} : forall (d : list (string * V)) k v, NoDup (map fst d) -> In (k, v) d -> dget String.eqb d k = Some v.
Proof.
  induction d as [|[k' v'] d IH]; intros k v N H; [destruct H|]. cbn in N. inversion N as [|? ? Hn N']; subst. cbn. destruct (String.eqb_spec k k') as [->|Hk].
  - destruct H as [E|H]; [congruence|]. exfalso. apply Hn. apply in_map_iff. exists (k', v). auto.
  - destruct H as [E|H]; [congruence|]. apply IH; assumption.
Qed.
Lemma py_index_in {A} (l : list A) i x : py_index l i = Ok x -> In x l.
Proof.
  unfold py_index. destruct (_ || _); [discriminate|]. destruct (nth_error l _) eqn:E; [|discriminate]. intros X. assert (a = x) by congruence. subst. eapply nth_error_In; exact E.
Qed.
Lemma map_res_vars (f : string * nvar Q -> res (string * nvar Q)) (R : nvar Q -> nvar Q -> Prop) : forall vars,
  (forall kv, In kv vars -> exists v', f kv = Ok (fst kv, v') /\ R (snd kv) v') ->
  exists vars', map_res f vars = Ok vars' /\ map fst vars' = map fst vars /\ forall name v, In (name, v) vars -> exists v', In (name, v') vars' /\ R v v'.
Proof.
  induction vars as [|[k v] vars IH]; intros H; cbn [map_res]; [exists []; repeat split; intros ? ? []|].
  destruct (H (k, v) (or_introl eq_refl)) as [v' [E Rv]]. rewrite E. cbn [bind fst snd] in *. destruct IH as [vars' [E' [F H']]]; [intros; apply H; right; assumption|].
  rewrite E'. cbn [bind]. exists ((k, v') :: vars'). split; [reflexivity|]. split; [cbn; congruence|]. intros name w [X|X].
  - assert (name = k /\ w = v) as [-> ->] by (split; congruence). exists v'. split; [left; reflexivity | exact Rv].
  - destruct (H' _ _ X) as [w' [I R']]. exists w'. split; [right; exact I | exact R'].
Qed.

Lemma zmap_index {A} (f : Z -> A) n i : 0 <= i < n -> py_index (map f (zrange 0 n)) i = Ok (f i).
Proof.
  intros H. assert (zlen (map f (zrange 0 n)) = n) by (rewrite zlen_map, zrange_zlen; lia). destruct (py_index_nat (map f (zrange 0 n)) i) as [y [E N]]; [lia|].
  assert (Hk : (Z.to_nat i < Z.to_nat (n - 0))%nat) by lia. rewrite (map_nth_error _ _ _ (nth_error_zrange 0 n _ Hk)) in N. rewrite E. replace (0 + Z.of_nat (Z.to_nat i)) with i in N by lia. congruence.
Qed.

Lemma map_res_first (f : Z -> list Q) n : (forall i, 0 <= i < n -> exists x, In x (f i) /\ (x < 0)%Q) ->
  exists shift : Z -> Z, map_res (first_negative 0) (map f (zrange 0 n)) = Ok (map shift (zrange 0 n)) /\
    forall i, 0 <= i < n -> FirstNegative (f i) (shift i) /\ 0 <= shift i < zlen (f i).
Proof.
  intros H. set (shift := fun i => match first_negative 0 (f i) with Ok s => s | Err _ => 0 end).
  assert (X : forall i, 0 <= i < n -> first_negative 0 (f i) = Ok (shift i) /\ FirstNegative (f i) (shift i) /\ 0 <= shift i < zlen (f i)).
  { intros i Hi. destruct (first_negative_spec (f i) 0 (H i Hi)) as [s [E [Hs [x [Hx [Lx Hb]]]]]]. unfold shift. rewrite E. split; [reflexivity|]. split; [|lia].
    exists x. rewrite Z.sub_0_r in *. split; [lia|]. auto. }
  exists shift. split; [|intros i Hi; apply X, Hi].
  assert (G : forall l, (forall i, In i l -> 0 <= i < n) -> map_res (first_negative 0) (map f l) = Ok (map shift l)).
  { induction l as [|i l IH]; intros Hl; [reflexivity|]. cbn. destruct (X i (Hl i (or_introl eq_refl))) as [-> _]. cbn. rewrite IH by (intros; apply Hl; right; assumption). reflexivity. }
  apply G. intros i Hi. apply in_zrange in Hi. lia.
Qed.

Lemma reorder_spec g xv : GoodGrid g xv ->
  (forall i, 0 <= i < snd (g_row g) -> exists x, In x (x_row g (nv_value xv) i) /\ (x < 0)%Q) ->
  (forall i x, 0 <= i < snd (g_row g) -> In x (x_row g (nv_value xv) i) -> (x <= 180)%Q) ->
  exists g' shift, grid_reorder g = Ok g' /\
    g_x g' = g_x g /\ g_row g' = g_row g /\ g_col g' = g_col g /\ g_vectorized g' = g_vectorized g /\
    (forall i, 0 <= i < snd (g_row g) -> FirstNegative (x_row g (nv_value xv) i) (shift i)) /\
    map fst (g_vars g') = map fst (g_vars g) /\
    forall name v, In (name, v) (g_vars g) -> exists v', In (name, v') (g_vars g') /\
      if g_vectorized g && String.eqb name (g_x g) then XReordered g shift v v' else VarReordered g shift v v'.
Proof.
  intros (Hne & Hrow & Hcol & Nv & Hx & Dx & Hg) Neg Le. unfold grid_reorder. rewrite (dget_nodup _ _ _ Nv Hx).
  rewrite (surjective_pairing (g_col g)), (surjective_pairing (g_row g)).
  set (rdim := fst (g_col g)) in *. set (ncol := snd (g_col g)) in *. set (vdim := fst (g_row g)) in *. set (nrow := snd (g_row g)) in *.
  assert (Hrows : exists m, 0 < m <= nrow /\ x_rows (g_vectorized g) (nv_value xv) nrow ncol = map (x_row g (nv_value xv)) (zrange 0 m) /\
            (if g_vectorized g then m = 1 else m = nrow)).
  { unfold x_rows, x_row. fold ncol. destruct (g_vectorized g); [exists 1; repeat split; lia | exists nrow; repeat split; lia]. }
  destruct Hrows as [m [Hm [-> Hmv]]].
  rewrite state_wrapped.
  2:{ destruct (Neg 0 ltac:(lia)) as [x [Hxx Lx]]. exists x. split; [|exact Lx]. apply in_concat. exists (x_row g (nv_value xv) 0). split; [|exact Hxx].
      apply in_map, in_zrange. lia. }
  2:{ intros x Hxx. apply in_concat in Hxx. destruct Hxx as [row [Hr Hi]]. apply in_map_iff in Hr. destruct Hr as [i [<- Hr]]. apply in_zrange in Hr. apply (Le i); [lia | exact Hi]. }
  cbn [is_wrapped negb]. destruct (map_res_first (x_row g (nv_value xv)) m) as [shift0 [E Hs0]]; [intros; apply Neg; lia|]. rewrite E. cbn [bind].
  assert (Lr : forall i, zlen (x_row g (nv_value xv) i) = ncol) by (intros; unfold x_row; rewrite zlen_map, zrange_zlen; fold ncol; lia).
  destruct (g_vectorized g) eqn:Evec.
  - subst m. assert (Z1 : zrange 0 1 = [0]) by reflexivity. rewrite Z1 in *. cbn [map hd].
    set (s := shift0 0). destruct (Hs0 0 ltac:(lia)) as [Fs Ls]. rewrite Lr in Ls. fold s in Fs, Ls.
    assert (Same : forall i, x_row g (nv_value xv) i = x_row g (nv_value xv) 0) by (intros; unfold x_row; rewrite Evec; reflexivity).
    assert (Sh : forall cv, 0 <= cv < nrow -> py_index (map (fun _ : Z => s) (zrange 0 nrow)) cv = Ok s) by (intros; apply (zmap_index (fun _ => s)); assumption).
    destruct (reorder_array_spec (map (fun _ : Z => s) (zrange 0 nrow)) (mknd [1; ncol] (fun idx => nd_at (nv_value xv) (tl idx))) [vdim; rdim] [1; ncol] rdim vdim ncol) as [x' [Ex Rx]]; auto.
    { constructor; [intros [X|[]]; congruence | constructor; [intros [] | constructor]]. }
    { right; left; reflexivity. }
    { left; reflexivity. }
    { intros k Hk. destruct k as [|[|k]]; cbn in *; [congruence | reflexivity | destruct k; discriminate]. }
    { intros k cv Hk Hcv. destruct k as [|[|k]]; cbn in Hk, Hcv; [|congruence | destruct k; discriminate]. exists s. split; [apply Sh; lia | lia]. }
    rewrite Ex. cbn [bind]. set (xv' := mknvar (nv_dims xv) (mknd (nd_shape (nv_value xv)) (fun idx => nd_at x' (0 :: idx))) (nv_mask xv)).
    assert (Rx' : RotatedRows [vdim; rdim] [1; ncol] vdim rdim ncol (fun _ => s) (mknd [1; ncol] (fun idx => nd_at (nv_value xv) (tl idx))) x').
    { apply Rx. intros cv s' E' Hcv. apply py_index_in in E'. apply in_map_iff in E'. destruct E' as [? [E' _]]. exact E'. }
    assert (Xr : XReordered g (fun _ => s) xv xv').
    { split; [reflexivity|]. split; [reflexivity|]. split; [reflexivity|]. intros i j Hi Hj. fold nrow in Hi. fold ncol in Hj |- *. destruct Rx' as [_ Rx'].
      specialize (Rx' (fun n => if String.eqb n rdim then j else 0)). cbn [map] in Rx'. unfold with_coord in Rx'.
      destruct (String.eqb_spec vdim rdim) as [X|_]; [congruence|]. rewrite String.eqb_refl in Rx'. cbn [nd_at tl] in Rx'. cbn [xv' nv_value nd_at].
      apply Rx'. constructor; [lia|]. constructor; [lia | constructor]. }
    set (vars1 := dset String.eqb (g_vars g) (g_x g) xv').
    assert (K1 : map fst vars1 = map fst (g_vars g)).
    { unfold vars1. rewrite dset_keys. unfold dmem. rewrite (dget_nodup _ _ _ Nv Hx). reflexivity. }
    assert (V1 : forall name v, In (name, v) vars1 -> (name = g_x g /\ v = xv') \/ (name <> g_x g /\ In (name, v) (g_vars g))).
    { intros name v Hv. assert (D : dget String.eqb vars1 name = Some v) by (apply dget_nodup; [rewrite K1; exact Nv | exact Hv]). unfold vars1 in D.
      destruct (string_dec name (g_x g)) as [->|Hn].
      - rewrite (dget_dset_same _ string_eqb_spec) in D. left. split; congruence.
      - rewrite (dget_dset_other _ string_eqb_spec) in D by exact Hn. right. split; [exact Hn | eapply dget_in; [exact string_eqb_spec | exact D]]. }
    destruct (map_res_vars (fun kv : string * nvar Q => do v <- reorder_variable (map (fun _ : Z => s) (zrange 0 nrow)) rdim vdim (snd kv); Ok (fst kv, v))
                (VarReordered g (fun _ => s)) vars1) as [vars' [E' [K' H']]].
    { intros [name v] Hv. cbn [fst snd].
      destruct (reorder_variable_spec g (map (fun _ : Z => s) (zrange 0 nrow)) (fun _ => s) Hne Hcol) with (v := v) as [v' [Ev Hv']].
      - fold nrow. intros cv Hcv. exists s. split; [apply Sh; exact Hcv | fold ncol; lia].
      - intros cv s' E' Hcv. apply py_index_in in E'. apply in_map_iff in E'. destruct E' as [? [E' _]]. exact E'.
      - destruct (V1 _ _ Hv) as [[_ ->]|[_ Hv0]]; [|apply (Hg _ _ Hv0)]. destruct (Hg _ _ Hx) as [Gx _]. exact Gx.
      - destruct (V1 _ _ Hv) as [[_ ->]|[_ Hv0]]; [|apply (Hg _ _ Hv0)]. apply (Hg _ _ Hx).
      - destruct (V1 _ _ Hv) as [[_ ->]|[_ Hv0]]; [|apply (Hg _ _ Hv0)]. apply (Hg _ _ Hx).
      - exists v'. fold rdim vdim in Ev. rewrite Ev. split; [reflexivity | exact Hv']. }
    rewrite E'. cbn [bind]. eexists. exists (fun _ => s). split; [reflexivity|]. cbn [g_x g_row g_col g_vectorized g_vars].
    split; [reflexivity|]. split; [unfold vdim, nrow; symmetry; apply surjective_pairing || reflexivity|]. split; [unfold rdim, ncol; symmetry; apply surjective_pairing || reflexivity|].
    split; [congruence|]. split; [intros i Hi; rewrite Same; exact Fs|]. split; [congruence|].
    intros name v Hv. cbn [andb]. destruct (String.eqb_spec name (g_x g)) as [->|Hn].
    + assert (v = xv) by (pose proof (dget_nodup _ _ _ Nv Hv); pose proof (dget_nodup _ _ _ Nv Hx); congruence). subst v.
      assert (I1 : In (g_x g, xv') vars1) by (eapply dget_in; [exact string_eqb_spec | apply (dget_dset_same _ string_eqb_spec)]).
      destruct (H' _ _ I1) as [w [Iw [_ Hw]]]. exists w. split; [exact Iw|].
      assert (Nn : nv_names xv' = [rdim]) by (unfold nv_names; cbn [xv' nv_dims]; rewrite Dx; reflexivity).
      rewrite Nn in Hw. fold rdim vdim in Hw. assert (str_mem vdim [rdim] = false) as F.
      { cbn. destruct (String.eqb_spec vdim rdim); [congruence | reflexivity]. }
      rewrite F, andb_false_r in Hw. subst w. exact Xr.
    + assert (I1 : In (name, v) vars1).
      { eapply dget_in; [exact string_eqb_spec|]. unfold vars1. rewrite (dget_dset_other _ string_eqb_spec) by exact Hn. apply dget_nodup; assumption. }
      apply (H' _ _ I1).
  - subst m. cbn [bind].
    assert (Sh : forall cv s, 0 <= cv -> py_index (map shift0 (zrange 0 nrow)) cv = Ok s -> shift0 cv = s).
    { intros cv s Hcv Es. destruct (Z_lt_ge_dec cv nrow) as [L|L]; [rewrite zmap_index in Es by lia; congruence|]. exfalso.
      unfold py_index in Es. rewrite zlen_map, zrange_zlen in Es. destruct (Z.ltb_spec cv 0); [lia|]. destruct (Z.leb_spec (Z.max 0 (nrow - 0)) cv); [|lia].
      rewrite orb_true_r in Es. discriminate. }
    destruct (map_res_vars (fun kv : string * nvar Q => do v <- reorder_variable (map shift0 (zrange 0 nrow)) rdim vdim (snd kv); Ok (fst kv, v))
                (VarReordered g shift0) (g_vars g)) as [vars' [E' [K' H']]].
    { intros [name v] Hv. cbn [fst snd].
      destruct (reorder_variable_spec g (map shift0 (zrange 0 nrow)) shift0 Hne Hcol) with (v := v) as [v' [Ev Hv']].
      - fold nrow ncol. intros cv Hcv. exists (shift0 cv). split; [apply zmap_index; exact Hcv|]. destruct (Hs0 cv Hcv) as [_ L]. rewrite Lr in L. lia.
      - intros cv s' Es Hcv. apply Sh; assumption.
      - apply (Hg _ _ Hv).
      - apply (Hg _ _ Hv).
      - apply (Hg _ _ Hv).
      - exists v'. fold rdim vdim in Ev. rewrite Ev. split; [reflexivity | exact Hv']. }
    rewrite E'. cbn [bind]. eexists. exists shift0. split; [reflexivity|]. cbn [g_x g_row g_col g_vectorized g_vars].
    split; [reflexivity|]. split; [unfold vdim, nrow; symmetry; apply surjective_pairing || reflexivity|]. split; [unfold rdim, ncol; symmetry; apply surjective_pairing || reflexivity|].
    split; [congruence|]. split; [intros i Hi; apply Hs0; exact Hi|]. split; [exact K'|]. intros name v Hv. cbn [andb]. apply (H' _ _ Hv).
Qed.

(** ** The new rows *)
Lemma rotated_row_values g g' xv x' shift i : GoodGrid g xv -> g_row g' = g_row g -> g_col g' = g_col g -> g_vectorized g' = g_vectorized g ->
  0 <= i < snd (g_row g) ->
  (if g_vectorized g && String.eqb (g_x g) (g_x g) then XReordered g shift xv x' else VarReordered g shift xv x') ->
  forall j, 0 <= j < snd (g_col g) ->
    nth_error (x_row g' (nv_value x') i) (Z.to_nat j) = nth_error (x_row g (nv_value xv) i) (Z.to_nat ((j + shift i) mod snd (g_col g))).
Proof.
  intros (Hne & Hrow & Hcol & Nv & Hx & Dx & Hg) Er Ec Ev Hi HR j Hj. rewrite String.eqb_refl, andb_true_r in HR. unfold x_row. rewrite Ev, Ec.
  assert (Hm : 0 <= (j + shift i) mod snd (g_col g) < snd (g_col g)) by (apply Z.mod_pos_bound; lia).
  assert (N : forall (f : Z -> Q) k, 0 <= k < snd (g_col g) -> nth_error (map f (zrange 0 (snd (g_col g)))) (Z.to_nat k) = Some (f k)).
  { intros f k Hk. assert (Hk' : lt (Z.to_nat k) (Z.to_nat (snd (g_col g) - 0))) by lia. rewrite (map_nth_error _ _ _ (nth_error_zrange 0 _ _ Hk')). f_equal. f_equal. lia. }
  rewrite !N by assumption. f_equal. destruct (g_vectorized g).
  - destruct HR as (_ & _ & _ & H). apply H; assumption.
  - destruct HR as [_ HR]. assert (Nn : nv_names xv = [fst (g_row g); fst (g_col g)]) by (unfold nv_names; rewrite Dx; reflexivity).
    assert (Ns : nv_shape xv = [snd (g_row g); snd (g_col g)]) by (unfold nv_shape; rewrite Dx; reflexivity). rewrite Nn, Ns in HR.
    cbn [str_mem existsb] in HR. unfold str_mem in HR. cbn [existsb] in HR. rewrite !String.eqb_refl, !orb_true_r in HR. cbn [andb orb] in HR.
    destruct HR as [[_ H] _]. specialize (H (fun n => if String.eqb n (fst (g_col g)) then j else i)). cbn [map] in H. unfold with_coord in H.
    destruct (String.eqb_spec (fst (g_row g)) (fst (g_col g))) as [X|_]; [congruence|]. rewrite String.eqb_refl in H. apply H.
    constructor; [lia|]. constructor; [lia | constructor].
Qed.

Lemma rotated_ascending (row row' : list Q) s :
  (forall x, In x row -> (-(180) <= x <= 180)%Q) -> Ascending (map eastward row) -> FirstNegative row s -> zlen row' = zlen row ->
  (forall j, 0 <= j < zlen row -> nth_error row' (Z.to_nat j) = nth_error row (Z.to_nat ((j + s) mod zlen row))) -> Ascending row'.
Proof.
  intros Hr Asc [x0 (Hs & Hx0 & Lx0 & Hb)] L' Hrot i j x y Hij Hx Hy.
  set (n := zlen row) in *. assert (Ln : n = Z.of_nat (List.length row)) by reflexivity.
  assert (Sn : s < n). { assert (lt (Z.to_nat s) (List.length row)) by (apply nth_error_Some; congruence). lia. }
  assert (Ll : lt j (List.length row')) by (apply nth_error_Some; congruence). assert (Z.of_nat (List.length row') = n) by (unfold zlen in L'; lia).
  assert (Un : forall k v, nth_error row k = Some v -> nth_error (map eastward row) k = Some (eastward v)).
  { intros k v Hk. rewrite (map_nth_error _ _ _ Hk). reflexivity. }
  assert (Neg : forall k v, le (Z.to_nat s) k -> nth_error row k = Some v -> (v < 0)%Q).
  { intros k v Hk Hv. destruct (Nat.eq_dec k (Z.to_nat s)) as [->|Hne]; [congruence|]. assert (Hl : lt (Z.to_nat s) k) by lia.
    pose proof (Asc _ _ _ _ Hl (Un _ _ Hx0) (Un _ _ Hv)) as A; unfold eastward in A. pose proof (Hr _ (nth_error_In _ _ Hx0)). pose proof (Hr _ (nth_error_In _ _ Hv)).
    destruct (Qlt_le_dec x0 0); [|lra]. destruct (Qlt_le_dec v 0); [assumption|]. lra. }
  assert (Row : forall k v, lt k (List.length row') -> nth_error row' k = Some v -> nth_error row (Z.to_nat ((Z.of_nat k + s) mod n)) = Some v).
  { intros k v Hk Hv. rewrite <- Hrot by lia. rewrite Nat2Z.id. exact Hv. }
  assert (Lk : lt i (List.length row')) by lia. pose proof (Row _ _ Lk Hx) as Rx. pose proof (Row _ _ Ll Hy) as Ry.
  assert (Md : forall k, lt k (List.length row') -> (Z.of_nat k + s) mod n = if Z_lt_ge_dec (Z.of_nat k + s) n then Z.of_nat k + s else Z.of_nat k + s - n).
  { intros k Hk. destruct (Z_lt_ge_dec (Z.of_nat k + s) n); [apply Z.mod_small; lia|]. symmetry. apply (Z.mod_unique _ n 1); lia. }
  rewrite (Md _ Lk) in Rx. rewrite (Md _ Ll) in Ry.
  destruct (Z_lt_ge_dec (Z.of_nat j + s) n) as [Jl|Jl].
  - destruct (Z_lt_ge_dec (Z.of_nat i + s) n) as [Il|Il]; [|lia].
    assert (Hlt : lt (Z.to_nat (Z.of_nat i + s)) (Z.to_nat (Z.of_nat j + s))) by lia.
    pose proof (Asc _ _ _ _ Hlt (Un _ _ Rx) (Un _ _ Ry)) as A; unfold eastward in A.
    assert (X : (x < 0)%Q) by (apply (Neg (Z.to_nat (Z.of_nat i + s))); [lia | exact Rx]). assert (Y : (y < 0)%Q) by (apply (Neg (Z.to_nat (Z.of_nat j + s))); [lia | exact Ry]).
    destruct (Qlt_le_dec x 0); [|lra]. destruct (Qlt_le_dec y 0); [|lra]. lra.
  - assert (Y : (0 <= y)%Q) by (apply (Hb (Z.to_nat (Z.of_nat j + s - n))); [lia | exact Ry]).
    destruct (Z_lt_ge_dec (Z.of_nat i + s) n) as [Il|Il].
    + assert (X : (x < 0)%Q) by (apply (Neg (Z.to_nat (Z.of_nat i + s))); [lia | exact Rx]). lra.
    + assert (X : (0 <= x)%Q) by (apply (Hb (Z.to_nat (Z.of_nat i + s - n))); [lia | exact Rx]).
      assert (Hlt : lt (Z.to_nat (Z.of_nat i + s - n)) (Z.to_nat (Z.of_nat j + s - n))) by lia.
      pose proof (Asc _ _ _ _ Hlt (Un _ _ Rx) (Un _ _ Ry)) as A; unfold eastward in A. destruct (Qlt_le_dec x 0); [lra|]. destruct (Qlt_le_dec y 0); [lra|]. exact A.
Qed.

Lemma reorder_ascending g xv g' : GoodGrid g xv ->
  (forall i, 0 <= i < snd (g_row g) -> exists x, In x (x_row g (nv_value xv) i) /\ (x < 0)%Q) ->
  (forall i x, 0 <= i < snd (g_row g) -> In x (x_row g (nv_value xv) i) -> (-(180) <= x <= 180)%Q) ->
  grid_reorder g = Ok g' ->
  exists xv', In (g_x g, xv') (g_vars g') /\
    forall i, 0 <= i < snd (g_row g) -> Ascending (map eastward (x_row g (nv_value xv) i)) -> Ascending (x_row g' (nv_value xv') i).
Proof.
  intros G Neg Le E. destruct (reorder_spec g xv G Neg) as (g2 & shift & E2 & X & R & C & V & F & _ & H); [intros i x Hi Hx; apply (Le i x Hi Hx)|].
  assert (g2 = g') by congruence. subst g2. pose proof G as (Hne & Hrow & Hcol & Nv & Hx & Dx & Hg).
  destruct (H _ _ Hx) as [xv' [I HR]]. exists xv'. split; [exact I|]. intros i Hi Asc.
  assert (L : zlen (x_row g (nv_value xv) i) = snd (g_col g)) by (unfold x_row; rewrite zlen_map, zrange_zlen; lia).
  apply (rotated_ascending (x_row g (nv_value xv) i) _ (shift i)).
  - intros x Hxx. apply (Le i x Hi Hxx).
  - exact Asc.
  - apply F, Hi.
  - rewrite L. unfold x_row. rewrite zlen_map, zrange_zlen, C. lia.
  - rewrite L. intros j Hj. apply (rotated_row_values g g' xv xv' shift i G R C V Hi HR j Hj).
Qed.
