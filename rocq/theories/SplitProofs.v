(** Proofs about the decomposition of an extent. *)
From Verif Require Import Py Lib Spec ChunkModel ChunkSpec.
From Coq Require Import QArith Qround Lqa.
Open Scope Z_scope.

Lemma grid_nth {A} (g : Z -> Z -> A) m : 0 < m -> forall n k, 0 <= n ->
  nth_error (flat_map (fun r => map (g r) (zrange 0 m)) (zrange 0 n)) k =
  if Z.of_nat k <? n * m then Some (g (Z.of_nat k / m) (Z.of_nat k mod m)) else None.
Proof.
  intros Hm.
  assert (H : forall cnt lo n k, Z.to_nat (n - lo) = cnt -> lo <= n ->
    nth_error (flat_map (fun r => map (g r) (zrange 0 m)) (zrange lo n)) k =
    if Z.of_nat k <? (n - lo) * m then Some (g (lo + Z.of_nat k / m) (Z.of_nat k mod m)) else None).
  { induction cnt as [|cnt IH]; intros lo n k Hc Hl.
    - rewrite (zrange_nil lo n) by lia. cbn [flat_map]. replace (n - lo) with 0 by lia. rewrite Z.mul_0_l.
      destruct (Z.ltb_spec (Z.of_nat k) 0); [lia|]. destruct k; reflexivity.
    - rewrite (zrange_cons lo n) by lia. cbn [flat_map].
      assert (Hlen : List.length (map (g lo) (zrange 0 m)) = Z.to_nat m) by (rewrite map_length, zrange_length; f_equal; lia).
      assert (Hmul : (n - lo) * m = m + (n - (lo + 1)) * m) by ring.
      destruct (Nat.lt_ge_cases k (Z.to_nat m)) as [Hk|Hk].
      + rewrite nth_error_app1 by lia. rewrite nth_error_map.
        rewrite (Lib.nth_error_zrange 0 m k) by lia. cbn [option_map].
        assert (0 <= (n - (lo + 1)) * m) by (apply Z.mul_nonneg_nonneg; lia).
        destruct (Z.ltb_spec (Z.of_nat k) ((n - lo) * m)); [|lia].
        rewrite Z.div_small, Z.mod_small by lia. f_equal. f_equal; lia.
      + rewrite nth_error_app2 by lia. rewrite Hlen. rewrite (IH (lo + 1) n) by lia.
        replace (Z.of_nat (k - Z.to_nat m)) with (Z.of_nat k - m) by lia.
        replace (Z.of_nat k - m <? (n - (lo + 1)) * m) with (Z.of_nat k <? (n - lo) * m) by (destruct (Z.ltb_spec (Z.of_nat k) ((n - lo) * m)), (Z.ltb_spec (Z.of_nat k - m) ((n - (lo + 1)) * m)); lia || reflexivity).
        destruct (Z.of_nat k <? (n - lo) * m); [|reflexivity].
        replace (Z.of_nat k - m) with (Z.of_nat k + (-1) * m) by ring. rewrite Z.div_add, Z.mod_add by lia. f_equal. f_equal; lia. }
  intros n k Hn. rewrite (H (Z.to_nat (n - 0)) 0 n k eq_refl Hn). rewrite Z.sub_0_r. destruct (Z.of_nat k <? n * m); reflexivity.
Qed.

Definition edge (a b : Q) (n i : Z) : Q := (a + inject_Z i * ((b - a) / inject_Z n))%Q.

Lemma linspace_len a b n : 0 <= n -> zlen (linspace a b n) - 1 = n.
Proof. intros H. unfold linspace. rewrite zlen_map, zrange_zlen. lia. Qed.
Lemma linspace_at a b n i : 0 <= i <= n -> nth (Z.to_nat i) (linspace a b n) 0%Q = edge a b n i.
Proof.
  intros H. unfold linspace. erewrite nth_error_nth; [reflexivity|]. rewrite nth_error_map, (nth_error_zrange 0 (n + 1)) by lia.
  cbn [option_map]. rewrite Z.add_0_l, Z2Nat.id by lia. reflexivity.
Qed.

Lemma inject_pos n : 0 < n -> (0 < inject_Z n)%Q.
Proof. intros H. change 0%Q with (inject_Z 0). rewrite <- Zlt_Qlt. exact H. Qed.

Lemma width_pos a b n : (a < b)%Q -> 0 < n -> (0 < (b - a) / inject_Z n)%Q.
Proof. intros H Hn. apply Qlt_shift_div_l; [apply inject_pos; exact Hn|lra]. Qed.

Lemma edge_first a b n : (edge a b n 0 == a)%Q.
Proof. unfold edge. change (inject_Z 0) with 0%Q. ring. Qed.
Lemma edge_last a b n : 0 < n -> (edge a b n n == b)%Q.
Proof. intros H. unfold edge. pose proof (inject_pos n H). field. lra. Qed.

(** Every point from [a] to [b] is in exactly one of the intervals. *)
Lemma interval_unique a b n p : (a < b)%Q -> 0 < n -> (a <= p < b)%Q ->
  exists i, 0 <= i < n /\ (edge a b n i <= p < edge a b n (i + 1))%Q /\
    forall i', (edge a b n i' <= p < edge a b n (i' + 1))%Q -> i' = i.
Proof.
  intros Hab Hn Hp. pose proof (width_pos a b n Hab Hn) as Hh. pose proof (inject_pos n Hn) as Hi. unfold edge.
  set (h := ((b - a) / inject_Z n)%Q) in *. assert (Hnh : (inject_Z n * h == b - a)%Q) by (unfold h; field; lra).
  set (q := ((p - a) / h)%Q). assert (Hq : (q * h == p - a)%Q) by (unfold q; field; lra).
  pose proof (Qfloor_le q) as F1. pose proof (Qlt_floor q) as F2. rewrite inject_Z_plus in F2. change (inject_Z 1) with 1%Q in F2.
  exists (Qfloor q).
  assert (G1 : (inject_Z (Qfloor q) * h <= q * h)%Q) by (apply Qmult_le_compat_r; [exact F1|lra]).
  assert (G2 : (q * h < (inject_Z (Qfloor q) + 1) * h)%Q) by (apply Qmult_lt_compat_r; [exact Hh|exact F2]).
  split.
  - split.
    + assert (0 <= q)%Q by (apply Qle_shift_div_l; [exact Hh|lra]). pose proof (Qfloor_resp_le 0 q H). exact H0.
    + assert (Hlt : (inject_Z (Qfloor q) < inject_Z n)%Q).
      { apply Qmult_lt_r with h; [exact Hh|]. lra. }
      rewrite <- Zlt_Qlt in Hlt. exact Hlt.
  - split; [rewrite inject_Z_plus; change (inject_Z 1) with 1%Q; split; lra|].
    intros i' [A B]. rewrite inject_Z_plus in B. change (inject_Z 1) with 1%Q in B.
    assert (L1 : (inject_Z i' < inject_Z (Qfloor q) + 1)%Q) by (apply Qmult_lt_r with h; [exact Hh|]; lra).
    assert (L2 : (inject_Z (Qfloor q) < inject_Z i' + 1)%Q) by (apply Qmult_lt_r with h; [exact Hh|]; lra).
    change 1%Q with (inject_Z 1) in L1, L2. rewrite <- inject_Z_plus, <- Zlt_Qlt in L1, L2. lia.
Qed.

Lemma split_nth minx miny maxx maxy n m j0 j1 j2 j3 k : 0 < n -> 0 < m ->
  nth_error (create_split_polygons (minx, miny, maxx, maxy) (n, m) (j0, j1, j2, j3)) k =
  if Z.of_nat k <? n * m then
    let r := Z.of_nat k / m in let c := Z.of_nat k mod m in
    let ex := edge (minx + j2) (maxx + j3) m in let ey := edge (miny + j0) (maxy + j1) n in
    Some (ex c, ey r, ex (c + 1), ey (r + 1))
  else None.
Proof.
  intros Hn Hm. unfold create_split_polygons, split_from_vectors. cbn [fst snd]. cbv zeta. rewrite !linspace_len by lia.
  rewrite (grid_nth _ m Hm n k) by lia. destruct (Z.ltb_spec (Z.of_nat k) (n * m)); [|reflexivity].
  assert (0 <= Z.of_nat k / m < n) by (split; [apply Z.div_pos; lia|apply Z.div_lt_upper_bound; lia]).
  pose proof (Z.mod_pos_bound (Z.of_nat k) m Hm). rewrite !linspace_at by lia. reflexivity.
Qed.

Lemma split_length minx miny maxx maxy n m j0 j1 j2 j3 : 0 < n -> 0 < m ->
  zlen (create_split_polygons (minx, miny, maxx, maxy) (n, m) (j0, j1, j2, j3)) = n * m.
Proof.
  intros Hn Hm. set (l := create_split_polygons _ _ _).
  assert (H1 : nth_error l (Z.to_nat (n * m)) = None) by (unfold l; rewrite split_nth by assumption; destruct (Z.ltb_spec (Z.of_nat (Z.to_nat (n * m))) (n * m)); [lia|reflexivity]).
  assert (H2 : nth_error l (Z.to_nat (n * m - 1)) <> None) by (unfold l; rewrite split_nth by assumption; assert (0 < n * m) by (apply Z.mul_pos_pos; assumption); destruct (Z.ltb_spec (Z.of_nat (Z.to_nat (n * m - 1))) (n * m)); [discriminate|lia]).
  apply nth_error_None in H1. apply nth_error_Some in H2. unfold zlen. assert (0 < n * m) by (apply Z.mul_pos_pos; assumption). lia.
Qed.

Lemma split_unique minx miny maxx maxy n m j0 j1 j2 j3 px py : 0 < n -> 0 < m ->
  (minx + j2 <= px < maxx + j3)%Q -> (miny + j0 <= py < maxy + j1)%Q ->
  ExactlyOne (InQBox px py) (create_split_polygons (minx, miny, maxx, maxy) (n, m) (j0, j1, j2, j3)).
Proof.
  intros Hn Hm Hx Hy. 
  destruct (interval_unique (minx + j2) (maxx + j3) m px) as [c [Hc [Hc1 Hc2]]]; [lra|exact Hm|exact Hx|].
  destruct (interval_unique (miny + j0) (maxy + j1) n py) as [r [Hr [Hr1 Hr2]]]; [lra|exact Hn|exact Hy|].
  assert (B0 : 0 <= r * m + c) by (assert (0 <= r * m) by (apply Z.mul_nonneg_nonneg; lia); lia).
  assert (B1 : r * m + c < n * m) by (assert (r * m <= (n - 1) * m) by (apply Z.mul_le_mono_nonneg_r; lia); lia).
  assert (D : (r * m + c) / m = r) by (symmetry; apply Z.div_unique with c; lia).
  assert (M : (r * m + c) mod m = c) by (symmetry; apply Z.mod_unique with r; lia).
  exists (Z.to_nat (r * m + c)). eexists. rewrite split_nth by assumption. rewrite Z2Nat.id by exact B0.
  destruct (Z.ltb_spec (r * m + c) (n * m)); [|lia]. cbv zeta. rewrite D, M. split; [reflexivity|]. split; [split; assumption|].
  intros k' b' Hk' Hin. rewrite split_nth in Hk' by assumption. destruct (Z.ltb_spec (Z.of_nat k') (n * m)); [|discriminate]. cbv zeta in Hk'.
  injection Hk' as <-. destruct Hin as [I1 I2]. apply Hc2 in I1. apply Hr2 in I2. 
  pose proof (Z.div_mod (Z.of_nat k') m ltac:(lia)). rewrite I1, I2 in H1. lia.
Qed.

Lemma loop_all {R} (f : qbox -> R) : forall l c, decomposition_loop f None c l = map f l.
Proof. induction l as [|x t IH]; intros c; [reflexivity|]. cbn [decomposition_loop map]. rewrite IH. reflexivity. Qed.
Lemma loop_none {R} (f : qbox -> R) i : forall l c, decomposition_loop f (Some i) c l = [].
Proof. induction l as [|x t IH]; intros c; [reflexivity|]. cbn [decomposition_loop]. destruct (c <? i); [apply IH|reflexivity]. Qed.

Theorem decomposition {R} (f : qbox -> R) minx miny maxx maxy buffer j0 j1 j2 j3 n m :
  1 <= n -> 1 <= m -> (minx <= maxx)%Q -> (miny <= maxy)%Q ->
  (0 <= j0 < buffer)%Q -> (0 <= j1 < buffer)%Q -> (0 <= j2 < buffer)%Q -> (0 <= j3 < buffer)%Q ->
  exists boxes, iter_spatial_decomposition f (minx, miny, maxx, maxy) buffer (j0, j1, j2, j3) [n; m] None = Ok (map f boxes) /\
    zlen boxes = n * m /\
    (forall px py, InExtent px py (minx, miny, maxx, maxy) -> ExactlyOne (InQBox px py) boxes) /\
    (forall k b r c, nth_error boxes k = Some b -> Z.of_nat k = r * m + c -> 0 <= c < m ->
       let w := ((maxx + buffer + j3 - (minx - buffer + j2)) / inject_Z m)%Q in
       let h := ((maxy + buffer + j1 - (miny - buffer + j0)) / inject_Z n)%Q in
       b = (minx - buffer + j2 + inject_Z c * w, miny - buffer + j0 + inject_Z r * h,
            minx - buffer + j2 + inject_Z (c + 1) * w, miny - buffer + j0 + inject_Z (r + 1) * h)%Q).
Proof.
  intros Hn Hm Hx Hy J0 J1 J2 J3. unfold iter_spatial_decomposition. cbn [bind]. cbv zeta. eexists. split; [rewrite loop_all; reflexivity|].
  split; [apply split_length; lia|]. split.
  - intros px py [Px Py]. apply split_unique; [lia|lia| |]; lra.
  - intros k b r c Hk Hrc Hc. rewrite split_nth in Hk by lia. destruct (Z.of_nat k <? n * m); [|discriminate]. cbv zeta in Hk.
    assert (D : Z.of_nat k / m = r) by (symmetry; apply Z.div_unique with c; lia).
    assert (M : Z.of_nat k mod m = c) by (symmetry; apply Z.mod_unique with r; lia).
    rewrite D, M in Hk. injection Hk as <-. unfold edge. reflexivity.
Qed.

Theorem decomposition_one_split {R} (f : qbox -> R) extent buffer jitter n y :
  iter_spatial_decomposition f extent buffer jitter [n] y = iter_spatial_decomposition f extent buffer jitter [n; 1] y.
Proof. destruct extent as [[[? ?] ?] ?]. reflexivity. Qed.

Theorem decomposition_index_nothing {R} (f : qbox -> R) extent buffer jitter n m i :
  iter_spatial_decomposition f extent buffer jitter [n; m] (Some i) = Ok [].
Proof. destruct extent as [[[? ?] ?] ?]. unfold iter_spatial_decomposition. cbn [bind]. rewrite loop_none. reflexivity. Qed.

Theorem decomposition_refused {R} (f : qbox -> R) extent buffer jitter splits y : 3 <= zlen splits ->
  iter_spatial_decomposition f extent buffer jitter splits y = Err AssertionError.
Proof.
  intros H. destruct extent as [[[? ?] ?] ?]. destruct splits as [|a [|b [|c t]]]; try (unfold zlen in H; cbn in H; lia). reflexivity.
Qed.
