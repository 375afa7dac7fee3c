From Verif Require Import Lib Py PartitionModel NdModel CoordModel EsmfModel CellModel CoordSpec CellSpec CoordProofs BoundsProofs NdProofs SelectProofs CellProofs.
From Coq Require Import Lqa Sorting.Sorted Qabs.
Local Open Scope Z_scope.

Lemma incell_eq a a' b b' x : (a == a')%Q -> (b == b')%Q -> InCell (a, b) x <-> InCell (a', b') x.
Proof. intros A B. unfold InCell. cbn [fst snd]. rewrite A, B. reflexivity. Qed.

(** ** The corners of one cell *)
Definition Corners (o e : nd Q) (m n : Z) : Prop :=
  nd_shape o = [m; n; 4] /\
  forall i j, 0 <= i < m -> 0 <= j < n ->
    nd_at o [i; j; 0] = at2 (nd_at e) i j /\ nd_at o [i; j; 1] = at2 (nd_at e) i (j + 1) /\
    nd_at o [i; j; 2] = at2 (nd_at e) (i + 1) (j + 1) /\ nd_at o [i; j; 3] = at2 (nd_at e) (i + 1) j.

Lemma extrapolated_array t arr e m n : extrapolated_corners t arr = Ok e -> nd_shape e = [m + 1; n + 1] ->
  exists o, set_extrapolated_bounds t false (Some (C2 arr)) = Ok (Some (B2 o)) /\ Corners o e m n.
Proof.
  intros E Sh. destruct (ocgis_cell 0%Q e (m + 1) (n + 1) Sh) as [o [O [So V]]].
  exists o. unfold set_extrapolated_bounds. rewrite E. cbn [bind]. rewrite O. cbn [bind]. split; [reflexivity|].
  split; [rewrite So; f_equal; [lia|f_equal; lia]|]. intros i j Hi Hj. destruct (V i j ltac:(lia) ltac:(lia)) as [V0 [V1 [V2 V3]]]. unfold at2. auto.
Qed.

Lemma array_defined t arr m n : nd_shape arr = [m; n] -> 1 <= m -> 1 <= n ->
  (m = 1 /\ n = 1 -> set_extrapolated_bounds t false (Some (C2 arr)) = Err SingleElementError) /\
  (2 <= m \/ 2 <= n -> exists o, set_extrapolated_bounds t false (Some (C2 arr)) = Ok (Some (B2 o)) /\ nd_shape o = [m; n; 4]) /\
  set_extrapolated_bounds t true (Some (C2 arr)) = Err BoundsAlreadyAvailableError.
Proof.
  intros H Hm Hn. split; [|split; [|reflexivity]].
  - intros [-> ->]. unfold set_extrapolated_bounds, extrapolated_corners. rewrite H. reflexivity.
  - intros G. destruct (Z.eq_dec m 1) as [M1|M1]; [|destruct (Z.eq_dec n 1) as [N1|N1]].
    + assert (E : exists e, extrapolated_corners t arr = Ok e /\ nd_shape e = [m + 1; n + 1]).
      { unfold extrapolated_corners. rewrite H. bool_cases. unfold corners_vector, bounds_vector.
        assert (Z' : zlen (map (fun k => nd_at arr (unravel [m; n] k)) (zrange 0 (m * n))) = n).
        { unfold zlen. rewrite map_length, zrange_length. subst m. lia. }
        rewrite Z'. bool_cases. cbn [bind]. eexists. split; [reflexivity|]. cbn [nd_shape]. subst m. reflexivity. }
      destruct E as [e [E Sh]]. destruct (extrapolated_array t arr e m n E Sh) as [o [O [So _]]]. exists o; auto.
    + assert (E : exists e, extrapolated_corners t arr = Ok e /\ nd_shape e = [m + 1; n + 1]).
      { unfold extrapolated_corners. rewrite H. bool_cases. unfold corners_vector, bounds_vector.
        assert (Z' : zlen (map (fun k => nd_at arr (unravel [m; n] k)) (zrange 0 (m * n))) = m).
        { unfold zlen. rewrite map_length, zrange_length. subst n. lia. }
        rewrite Z'. bool_cases. cbn [bind]. eexists. split; [reflexivity|]. cbn [nd_shape np_swapaxes]. subst n. reflexivity. }
      destruct E as [e [E Sh]]. destruct (extrapolated_array t arr e m n E Sh) as [o [O [So _]]]. exists o; auto.
    + destruct (corners_ok t arr m n H ltac:(lia) ltac:(lia)) as [e [E [Sh _]]].
      destruct (extrapolated_array t arr e m n E Sh) as [o [O [So _]]]. exists o; auto.
Qed.

Lemma corners_agree o e m n : Corners o e m n -> CornersAgree m n o.
Proof.
  intros [_ C]. split; intros i j A B D.
  - destruct (C i j ltac:(lia) ltac:(lia)) as [_ [C1 [C2 _]]]. destruct (C i (j + 1) ltac:(lia) ltac:(lia)) as [D0 [_ [_ D3]]].
    split; [congruence|]. rewrite C2, D3. reflexivity.
  - destruct (C i j ltac:(lia) ltac:(lia)) as [_ [_ [C2 C3]]]. destruct (C (i + 1) j ltac:(lia) ltac:(lia)) as [D0 [D1 _]].
    split; [congruence|]. rewrite C2, D1. reflexivity.
Qed.

Lemma array_inner t arr m n o : nd_shape arr = [m; n] -> 2 <= m -> 2 <= n -> set_extrapolated_bounds t false (Some (C2 arr)) = Ok (Some (B2 o)) ->
  nd_shape o = [m; n; 4] /\ CornersAgree m n o /\
  forall i j, 0 <= i -> i + 1 < m -> 0 <= j -> j + 1 < n ->
    nd_at o [i; j; 2] = store t ((nd_at arr [i; j] + nd_at arr [i; (j + 1)%Z] + nd_at arr [(i + 1)%Z; j] + nd_at arr [(i + 1)%Z; (j + 1)%Z]) / 4)%Q.
Proof.
  intros H Hm Hn O. destruct (corners_ok t arr m n H Hm Hn) as [e [E [Sh [I _]]]].
  destruct (extrapolated_array t arr e m n E Sh) as [o' [O' C]]. assert (o' = o) by congruence. subst o'.
  split; [apply C|]. split; [eapply corners_agree, C|]. intros i j I1 I2 J1 J2. destruct C as [_ C].
  destruct (C i j ltac:(lia) ltac:(lia)) as [_ [_ [C2 _]]]. rewrite C2. unfold at2. rewrite I by lia. unfold window, at2.
  replace (i + 1 - 1) with i by lia. replace (j + 1 - 1) with j by lia. reflexivity.
Qed.

Lemma seq_sorted (f : Z -> Q) (R : Q -> Q -> Prop) (H : forall k, R (f k) (f (k + 1))) : forall n lo, Sorted R (map f (zrange lo (lo + Z.of_nat n))).
Proof.
  induction n as [|n IH]; intros lo; [rewrite zrange_nil by lia; constructor|].
  rewrite zrange_cons by lia. cbn [map]. replace (lo + Z.of_nat (S n)) with (lo + 1 + Z.of_nat n) by lia. constructor; [apply IH|].
  destruct n; [rewrite zrange_nil by lia; constructor|]. rewrite zrange_cons by lia. constructor. apply H.
Qed.
Lemma even_signed l (a p : Q) m : 2 <= m -> Forall2 Qeq l (map (fun i => a + inject_Z i * p)%Q (zrange 0 m)) -> (signed l == p)%Q.
Proof.
  intros Hm F. set (c := map _ _) in *.
  assert (L : List.length c = Z.to_nat m) by (unfold c; rewrite map_length, zrange_length; f_equal; lia).
  assert (M : monotone c).
  { unfold c. replace m with (0 + Z.of_nat (Z.to_nat m)) by lia. destruct (Qlt_le_dec p 0); [right|left]; apply seq_sorted; intros k; rewrite inject_Z_plus; change (inject_Z 1) with 1%Q; lra. }
  assert (S' := signed_eq l c F ltac:(lia) M).
  assert (Hd : (hd 0 c == a)%Q) by (unfold c; rewrite zrange_cons by lia; cbn [map hd]; change (inject_Z 0) with 0%Q; lra).
  assert (La : (last c 0 == a + inject_Z (m - 1) * p)%Q).
  { unfold c. rewrite (zrange_app 0 (m - 1) m) by lia. rewrite (zrange_cons (m - 1) m) by lia. rewrite (zrange_nil (m - 1 + 1) m) by lia. rewrite map_app. cbn [map]. rewrite last_last. reflexivity. }
  rewrite Hd, La in S'. unfold zlen in S'. rewrite L, Z2Nat.id in S' by lia.
  apply (Qmult_inj_r _ _ (inject_Z (m - 1))); [apply inject_nonzero; lia|]. rewrite S'. lra.
Qed.

Lemma array_even arr m n a p q o : Even arr m n a p q -> 2 <= m -> 2 <= n -> set_extrapolated_bounds Float false (Some (C2 arr)) = Ok (Some (B2 o)) ->
  forall i j, 0 <= i < m -> 0 <= j < n ->
    let y k := (a + (inject_Z i + k) * p)%Q in let x k := ((inject_Z j + k) * q)%Q in
    (nd_at o [i; j; 0%Z] == y (- (1#2)) + x (- (1#2)))%Q /\ (nd_at o [i; j; 1%Z] == y (- (1#2)) + x (1#2))%Q /\
    (nd_at o [i; j; 2%Z] == y (1#2) + x (1#2))%Q /\ (nd_at o [i; j; 3%Z] == y (1#2) + x (- (1#2)))%Q.
Proof.
  intros [H A] Hm Hn O. destruct (corners_ok Float arr m n H Hm Hn) as [e [E [Sh [_ C]]]]. specialize (C eq_refl).
  destruct (extrapolated_array Float arr e m n E Sh) as [o' [O' K]]. assert (o' = o) by congruence. subst o'. destruct K as [_ K].
  assert (P : (signed (first_column arr m) == p)%Q).
  { apply (even_signed _ a p m Hm). unfold first_column. assert (G : forall l, (forall x, In x l -> 0 <= x < m) -> Forall2 Qeq (map (fun i => nd_at arr [i; 0]) l) (map (fun i => a + inject_Z i * p)%Q l)).
    { induction l as [|x l IH]; intros G; constructor; [|apply IH; intros; apply G; right; assumption]. rewrite A by (try lia; apply G; left; reflexivity). change (inject_Z 0) with 0%Q. lra. }
    apply G. intros x X. apply in_zrange in X. lia. }
  assert (Q' : (signed (first_row arr n) == q)%Q).
  { apply (even_signed _ a q n Hn). unfold first_row. assert (G : forall l, (forall x, In x l -> 0 <= x < n) -> Forall2 Qeq (map (fun i => nd_at arr [0; i]) l) (map (fun i => a + inject_Z i * q)%Q l)).
    { induction l as [|x l IH]; intros G; constructor; [|apply IH; intros; apply G; right; assumption]. rewrite A by (try lia; apply G; left; reflexivity). change (inject_Z 0) with 0%Q. lra. }
    apply G. intros x X. apply in_zrange in X. lia. }
  assert (V : forall i j, 0 <= i <= m -> 0 <= j <= n -> (at2 (nd_at e) i j == a + (inject_Z i - (1#2)) * p + (inject_Z j - (1#2)) * q)%Q).
  { intros i j Hi Hj. rewrite (C i j Hi Hj), P, Q'.
    assert (Ci : 1 <= clamp m i <= m - 1) by (unfold clamp; lia). assert (Cj : 1 <= clamp n j <= n - 1) by (unfold clamp; lia).
    assert (Oi : (inject_Z i == inject_Z (clamp m i) + outward m i)%Q).
    { unfold outward, clamp. destruct (Z.eqb_spec i 0); [subst; replace (Z.max 1 (Z.min 0 (m - 1))) with 1 by lia; reflexivity|].
      destruct (Z.eqb_spec i m); [replace (Z.max 1 (Z.min i (m - 1))) with (m + (-1)) by lia; subst; rewrite inject_Z_plus; change (inject_Z (-1)) with (-1)%Q; lra|].
      replace (Z.max 1 (Z.min i (m - 1))) with i by lia. lra. }
    assert (Oj : (inject_Z j == inject_Z (clamp n j) + outward n j)%Q).
    { unfold outward, clamp. destruct (Z.eqb_spec j 0); [subst; replace (Z.max 1 (Z.min 0 (n - 1))) with 1 by lia; reflexivity|].
      destruct (Z.eqb_spec j n); [replace (Z.max 1 (Z.min j (n - 1))) with (n + (-1)) by lia; subst; rewrite inject_Z_plus; change (inject_Z (-1)) with (-1)%Q; lra|].
      replace (Z.max 1 (Z.min j (n - 1))) with j by lia. lra. }
    unfold window, at2. rewrite !A by lia. rewrite Oi, Oj. unfold Z.sub. rewrite !inject_Z_plus. change (inject_Z (- (1))) with (-1)%Q. field. }
  intros i j Hi Hj y x. destruct (K i j Hi Hj) as [K0 [K1 [K2 K3]]]. rewrite K0, K1, K2, K3, !V by lia. unfold x, y. rewrite !inject_Z_plus.
  change (inject_Z 1) with 1%Q. repeat split; field.
Qed.

(** ** Coordinates that depend on one index *)
Lemma rows_cells arr c n o : AlongRows arr c n -> (2 <= List.length c)%nat -> 2 <= n -> Ascending c \/ Descending c ->
  set_extrapolated_bounds Float false (Some (C2 arr)) = Ok (Some (B2 o)) ->
  exists s, (s * inject_Z (zlen c - 1) == last c 0 - hd 0 c)%Q /\
  forall i j, 0 <= i < zlen c -> 0 <= j < n ->
    (nd_at o [i; j; 0%Z] == edge c s i)%Q /\ (nd_at o [i; j; 1%Z] == edge c s i)%Q /\ (nd_at o [i; j; 2%Z] == edge c s (i + 1))%Q /\ (nd_at o [i; j; 3%Z] == edge c s (i + 1))%Q.
Proof.
  intros A L Hn M O. destruct (rows_closed arr c n A L Hn (strict_monotone c M)) as [e [s [E [Sh [S' V]]]]].
  destruct (extrapolated_array Float arr e (zlen c) n E Sh) as [o' [O' K]]. assert (o' = o) by congruence. subst o'. destruct K as [_ K].
  exists s. split; [exact S'|]. intros i j Hi Hj. destruct (K i j Hi Hj) as [K0 [K1 [K2 K3]]]. rewrite K0, K1, K2, K3, !V by lia. repeat split; reflexivity.
Qed.
Lemma columns_cells arr c m o : AlongColumns arr c m -> (2 <= List.length c)%nat -> 2 <= m -> Ascending c \/ Descending c ->
  set_extrapolated_bounds Float false (Some (C2 arr)) = Ok (Some (B2 o)) ->
  exists s, (s * inject_Z (zlen c - 1) == last c 0 - hd 0 c)%Q /\
  forall i j, 0 <= i < m -> 0 <= j < zlen c ->
    (nd_at o [i; j; 0%Z] == edge c s j)%Q /\ (nd_at o [i; j; 3%Z] == edge c s j)%Q /\ (nd_at o [i; j; 1%Z] == edge c s (j + 1))%Q /\ (nd_at o [i; j; 2%Z] == edge c s (j + 1))%Q.
Proof.
  intros A L Hn M O. destruct (columns_closed arr c m A L Hn (strict_monotone c M)) as [e [s [E [Sh [S' V]]]]].
  destruct (extrapolated_array Float arr e m (zlen c) E Sh) as [o' [O' K]]. assert (o' = o) by congruence. subst o'. destruct K as [_ K].
  exists s. split; [exact S'|]. intros i j Hi Hj. destruct (K i j Hi Hj) as [K0 [K1 [K2 K3]]]. rewrite K0, K1, K2, K3, !V by lia. repeat split; reflexivity.
Qed.

Lemma edge_low c s : (2 <= List.length c)%nat -> (edge c s 0 == (nth 0 c 0 + nth 1 c 0) / 2 - s)%Q /\ (edge c s 1 == (nth 0 c 0 + nth 1 c 0) / 2)%Q.
Proof.
  intros L. unfold edge, outward. replace (clamp (zlen c) 0) with 1 by (unfold clamp, zlen; lia). replace (clamp (zlen c) 1) with 1 by (unfold clamp, zlen; lia).
  change (0 =? 0) with true. change (1 =? 0) with false. cbv match. destruct (Z.eqb_spec 1 (zlen c)) as [e|]; [unfold zlen in e; lia|].
  replace (Z.to_nat (1 - 1)) with 0%nat by lia. replace (Z.to_nat 1) with 1%nat by lia. split; field.
Qed.
Lemma edge_high c s : (2 <= List.length c)%nat -> let m := List.length c in
  (edge c s (zlen c - 1) == (nth (m - 2) c 0 + nth (m - 1) c 0) / 2)%Q /\ (edge c s (zlen c) == (nth (m - 2) c 0 + nth (m - 1) c 0) / 2 + s)%Q.
Proof.
  intros L m. unfold edge, outward. replace (clamp (zlen c) (zlen c - 1)) with (zlen c - 1) by (unfold clamp, zlen; lia).
  replace (clamp (zlen c) (zlen c)) with (zlen c - 1) by (unfold clamp, zlen; lia).
  destruct (Z.eqb_spec (zlen c) 0) as [e|]; [unfold zlen in e; lia|]. destruct (Z.eqb_spec (zlen c - 1) 0) as [e|]; [unfold zlen in e; lia|].
  destruct (Z.eqb_spec (zlen c - 1) (zlen c)) as [e|]; [lia|]. rewrite Z.eqb_refl.
  replace (Z.to_nat (zlen c - 1 - 1)) with (m - 2)%nat by (unfold m, zlen; lia). replace (Z.to_nat (zlen c - 1)) with (m - 1)%nat by (unfold m, zlen; lia). split; field.
Qed.

Lemma last_nth (c : list Q) : last c 0%Q = nth (List.length c - 1) c 0%Q.
Proof. induction c as [|a [|b c] IH]; [reflexivity | reflexivity|]. change (last (a :: b :: c) 0%Q) with (last (b :: c) 0%Q). rewrite IH. cbn [List.length]. replace (S (S (List.length c)) - 1)%nat with (S (S (List.length c) - 1)) by lia. reflexivity. Qed.

Lemma outer_criterion c s : (2 <= List.length c)%nat -> Ascending c \/ Descending c -> (s * inject_Z (zlen c - 1) == last c 0 - hd 0 c)%Q ->
  let m := List.length c in
  (InCell (edge c s 0, edge c s 1) (nth 0 c 0%Q) <-> (Qabs (nth 1 c 0 - nth 0 c 0) / 2 <= mean_gap c)%Q) /\
  (InCell (edge c s (zlen c - 1), edge c s (zlen c)) (nth (m - 1) c 0%Q) <-> (Qabs (nth (m - 1) c 0 - nth (m - 2) c 0) / 2 <= mean_gap c)%Q).
Proof.
  intros L M S' m. destruct (edge_low c s L) as [E0 E1]. destruct (edge_high c s L) as [E2 E3]. fold m in E2, E3.
  rewrite (incell_eq _ _ _ _ _ E0 E1), (incell_eq _ _ _ _ _ E2 E3).
  assert (N0 : nth_error c 0 = Some (nth 0 c 0%Q)) by (apply nth_error_nth'; lia). assert (N1 : nth_error c 1 = Some (nth 1 c 0%Q)) by (apply nth_error_nth'; lia).
  assert (Nm : nth_error c (m - 2) = Some (nth (m - 2) c 0%Q)) by (apply nth_error_nth'; lia). assert (Nl : nth_error c (m - 1) = Some (nth (m - 1) c 0%Q)) by (apply nth_error_nth'; lia).
  assert (P : (0 < inject_Z (zlen c - 1))%Q) by (change 0%Q with (inject_Z 0); rewrite <- Zlt_Qlt; unfold zlen; lia).
  assert (Hd : hd 0%Q c = nth 0 c 0%Q) by (destruct c; reflexivity).
  assert (G : (mean_gap c == Qabs s)%Q).
  { unfold mean_gap. rewrite <- S', Qabs_Qmult. rewrite (Qabs_pos (inject_Z (zlen c - 1))) by lra. field. lra. }
  rewrite G. rewrite last_nth, Hd in S'. fold m in S'. unfold InCell. cbn [fst snd]. rewrite !half.
  assert (D : forall a, (Qabs a / 2 == (1#2) * Qabs a)%Q) by (intros; field). rewrite !D.
  set (u := nth 0 c 0%Q) in *. set (v := nth 1 c 0%Q) in *. set (w := nth (m - 2) c 0%Q) in *. set (z := nth (m - 1) c 0%Q) in *. clearbody u v w z.
  destruct M as [M|M].
  - assert (A1 := M 0%nat 1%nat _ _ ltac:(lia) N0 N1). assert (A2 := M (m - 2)%nat (m - 1)%nat _ _ ltac:(lia) Nm Nl). assert (A3 := M 0%nat (m - 1)%nat _ _ ltac:(lia) N0 Nl).
    assert (Sp : (0 < s)%Q). { apply Qnot_le_lt. intros B. assert (s * inject_Z (zlen c - 1) <= 0)%Q by (apply (Qmult_le_compat_r _ 0 (inject_Z (zlen c - 1))) in B; lra). lra. }
    rewrite !Qabs_pos by lra. split; split; intros; try (left; lra); lra.
  - assert (A1 := M 0%nat 1%nat _ _ ltac:(lia) N0 N1). assert (A2 := M (m - 2)%nat (m - 1)%nat _ _ ltac:(lia) Nm Nl). assert (A3 := M 0%nat (m - 1)%nat _ _ ltac:(lia) N0 Nl).
    assert (Sp : (s < 0)%Q). { apply Qnot_le_lt. intros B. assert (0 <= s * inject_Z (zlen c - 1))%Q by (apply (Qmult_le_compat_r 0 _ (inject_Z (zlen c - 1))) in B; lra). lra. }
    rewrite !Qabs_neg by lra. split; split; intros; try (right; lra); lra.
Qed.
