From Verif Require Import Lib Py PartitionModel NdModel CoordModel EsmfModel CellModel CoordSpec CellSpec CoordProofs BoundsProofs NdProofs SelectProofs CellProofs CellMore.
From Coq Require Import Lqa Sorting.Sorted Qabs.
Local Open Scope Z_scope.

(** ** Bounds of vectors and of arrays *)
Lemma vector_edges c b : set_extrapolated_bounds Float false (Some (C1 c)) = Ok (Some (B1 b)) ->
  (2 <= List.length c)%nat /\ List.length b = List.length c /\
  forall s i lo hi, nth_error b i = Some (lo, hi) ->
    ((0 < i)%nat -> (lo == edge c s (Z.of_nat i))%Q) /\ ((S i < List.length c)%nat -> (hi == edge c s (Z.of_nat i + 1))%Q).
Proof.
  unfold set_extrapolated_bounds. intros H. assert (E : get_bounds_from_1d Float c = Ok b) by (destruct (get_bounds_from_1d Float c); cbn in H; [congruence | discriminate]).
  assert (L : (2 <= List.length c)%nat) by (destruct (Nat.lt_ge_cases (List.length c) 2); [rewrite bounds_short in E by lia; discriminate | lia]).
  destruct (bounds_closed Float c L) as [D [b' [E' [Lb [_ [_ N]]]]]]. assert (b' = b) by congruence. subst b'.
  split; [exact L|]. split; [exact Lb|]. intros s i lo hi X.
  assert (Hi : (i < List.length c)%nat) by (rewrite <- Lb; apply nth_error_Some; congruence). rewrite N in X by exact Hi. injection X as <- <-. cbn [store].
  split; intros G; unfold edge, outward.
  - destruct i as [|k]; [lia|]. cbn [low_edge]. unfold mid. cbn [store]. replace (clamp (zlen c) (Z.of_nat (S k))) with (Z.of_nat (S k)) by (unfold clamp, zlen; lia).
    destruct (Z.eqb_spec (Z.of_nat (S k)) 0); [lia|]. destruct (Z.eqb_spec (Z.of_nat (S k)) (zlen c)) as [e|]; [unfold zlen in e; lia|].
    replace (Z.to_nat (Z.of_nat (S k) - 1)) with k by lia. rewrite Nat2Z.id. lra.
  - unfold high_edge. destruct (Nat.eqb_spec (S i) (List.length c)); [lia|]. unfold mid. cbn [store]. replace (clamp (zlen c) (Z.of_nat i + 1)) with (Z.of_nat i + 1) by (unfold clamp, zlen; lia).
    destruct (Z.eqb_spec (Z.of_nat i + 1) 0); [lia|]. destruct (Z.eqb_spec (Z.of_nat i + 1) (zlen c)) as [e|]; [unfold zlen in e; lia|].
    replace (Z.to_nat (Z.of_nat i + 1 - 1)) with i by lia. replace (Z.to_nat (Z.of_nat i + 1)) with (S i) by lia. lra.
Qed.

Lemma same_inner_rows arr c n o b : AlongRows arr c n -> 2 <= n -> Ascending c \/ Descending c ->
  set_extrapolated_bounds Float false (Some (C2 arr)) = Ok (Some (B2 o)) -> set_extrapolated_bounds Float false (Some (C1 c)) = Ok (Some (B1 b)) ->
  forall i j lo hi, 0 <= j < n -> nth_error b i = Some (lo, hi) ->
    ((0 < i)%nat -> nd_at o [Z.of_nat i; j; 0%Z] == lo /\ nd_at o [Z.of_nat i; j; 1%Z] == lo)%Q /\
    ((S i < List.length c)%nat -> nd_at o [Z.of_nat i; j; 2%Z] == hi /\ nd_at o [Z.of_nat i; j; 3%Z] == hi)%Q.
Proof.
  intros A Hn M O B i j lo hi Hj X. destruct (vector_edges c b B) as [L [Lb V]]. destruct (rows_cells arr c n o A L Hn M O) as [s [_ R]].
  assert (Hi : (i < List.length c)%nat) by (rewrite <- Lb; apply nth_error_Some; congruence).
  destruct (R (Z.of_nat i) j ltac:(unfold zlen; lia) Hj) as [R0 [R1 [R2 R3]]]. destruct (V s i lo hi X) as [V1 V2].
  split; intros G; [specialize (V1 G) | specialize (V2 G)]; split; lra.
Qed.
Lemma same_inner_columns arr c m o b : AlongColumns arr c m -> 2 <= m -> Ascending c \/ Descending c ->
  set_extrapolated_bounds Float false (Some (C2 arr)) = Ok (Some (B2 o)) -> set_extrapolated_bounds Float false (Some (C1 c)) = Ok (Some (B1 b)) ->
  forall i j lo hi, 0 <= i < m -> nth_error b j = Some (lo, hi) ->
    ((0 < j)%nat -> nd_at o [i; Z.of_nat j; 0%Z] == lo /\ nd_at o [i; Z.of_nat j; 3%Z] == lo)%Q /\
    ((S j < List.length c)%nat -> nd_at o [i; Z.of_nat j; 1%Z] == hi /\ nd_at o [i; Z.of_nat j; 2%Z] == hi)%Q.
Proof.
  intros A Hn M O B i j lo hi Hi X. destruct (vector_edges c b B) as [L [Lb V]]. destruct (columns_cells arr c m o A L Hn M O) as [s [_ R]].
  assert (Hj : (j < List.length c)%nat) by (rewrite <- Lb; apply nth_error_Some; congruence).
  destruct (R i (Z.of_nat j) Hi ltac:(unfold zlen; lia)) as [R0 [R1 [R2 R3]]]. destruct (V s j lo hi X) as [V1 V2].
  split; intros G; [specialize (V1 G) | specialize (V2 G)]; split; lra.
Qed.

Lemma vector_ok t c b : set_extrapolated_bounds t false (Some (C1 c)) = Ok (Some (B1 b)) <-> get_bounds_from_1d t c = Ok b.
Proof. unfold set_extrapolated_bounds. destruct (get_bounds_from_1d t c); cbn; split; congruence. Qed.
Lemma ok_long t c b : get_bounds_from_1d t c = Ok b -> (2 <= List.length c)%nat.
Proof. intros E. destruct (Nat.lt_ge_cases (List.length c) 2); [rewrite bounds_short in E by lia; discriminate | lia]. Qed.

Lemma even_pairs c a d b : EvenVector c a d -> get_bounds_from_1d Float c = Ok b -> SamePairs b (map (fun x => (x - d / 2, x + d / 2)%Q) c).
Proof.
  intros H E. assert (R := regular_cells a d c b (ok_long _ _ _ E) H E). destruct (bounds_shared _ _ _ E) as [L _].
  unfold SamePairs. clear E H. revert b L R. induction c as [|x c IH]; intros [|y b] L R; cbn in L; try lia; constructor.
  - apply (R 0%nat); reflexivity.
  - apply IH; [lia|]. intros k x' cell X Y. apply (R (S k)); assumption.
Qed.
Lemma pairs_sym a b : SamePairs a b -> SamePairs b a.
Proof. induction 1 as [|? ? ? ? [H1 H2]]; constructor; [split; symmetry; assumption | assumption]. Qed.
Lemma pairs_trans : forall a b c, SamePairs a b -> SamePairs b c -> SamePairs a c.
Proof.
  intros a b c H. revert c. induction H as [|? ? ? ? [H1 H2] F IH]; intros c G; inversion G as [|? ? ? ? [G1 G2]]; subst; constructor; [|apply IH; assumption].
  split; [rewrite H1; exact G1 | rewrite H2; exact G2].
Qed.
Lemma pairs_app a b c d : SamePairs a b -> SamePairs c d -> SamePairs (a ++ c) (b ++ d).
Proof. apply Forall2_app. Qed.

Lemma even_columns_agree c a d arr n o b : AlongRows arr c n -> 2 <= n -> EvenVector c a d ->
  set_extrapolated_bounds Float false (Some (C2 arr)) = Ok (Some (B2 o)) -> set_extrapolated_bounds Float false (Some (C1 c)) = Ok (Some (B1 b)) ->
  forall i j lo hi, 0 <= j < n -> nth_error b i = Some (lo, hi) ->
    (nd_at o [Z.of_nat i; j; 0%Z] == lo /\ nd_at o [Z.of_nat i; j; 1%Z] == lo /\ nd_at o [Z.of_nat i; j; 2%Z] == hi /\ nd_at o [Z.of_nat i; j; 3%Z] == hi)%Q.
Proof.
  intros [Sh A] Hn E O B i j lo hi Hj X. apply vector_ok in B. assert (L := ok_long _ _ _ B). destruct (bounds_shared _ _ _ B) as [Lb _].
  assert (Hi : (i < List.length c)%nat) by (rewrite <- Lb; apply nth_error_Some; congruence).
  assert (Ev : Even arr (zlen c) n a d 0%Q).
  { split; [exact Sh|]. intros i' j' Hi' Hj'. assert (N := at_nth c i' Hi'). assert (V := A (Z.to_nat i') j' _ Hj' N). rewrite Z2Nat.id in V by lia.
    rewrite V, (E _ _ N), Z2Nat.id by lia. lra. }
  destruct (array_even arr (zlen c) n a d 0%Q o Ev ltac:(unfold zlen; lia) Hn O (Z.of_nat i) j ltac:(unfold zlen; lia) Hj) as [K0 [K1 [K2 K3]]].
  assert (N : nth_error c i = Some (nth i c 0%Q)) by (apply nth_error_nth'; lia).
  destruct (regular_cells a d c b L E B i _ _ N X) as [R1 R2]. cbn [fst snd] in R1, R2. rewrite (E _ _ N) in R1, R2.
  assert (Hd : (d / 2 == (1#2) * d)%Q) by field. rewrite Hd in R1, R2. rewrite K0, K1, K2, K3, R1, R2. repeat split; lra.
Qed.

(** ** Vectors distributed over ranks *)
Lemma even_tail x c a d : EvenVector (x :: c) a d -> EvenVector c (a + d) d.
Proof. intros H k y Y. rewrite (H (S k) y Y). rewrite Nat2Z.inj_succ. unfold Z.succ. rewrite inject_Z_plus. change (inject_Z 1) with 1%Q. lra. Qed.
Lemma even_split : forall p q a d, EvenVector (p ++ q) a d -> EvenVector p a d /\ exists a', EvenVector q a' d.
Proof.
  induction p as [|x p IH]; intros q a d H.
  - split; [intros k y Y; destruct k; discriminate | exists a; exact H].
  - destruct (IH q (a + d)%Q d (even_tail x (p ++ q) a d H)) as [H1 H2]. split; [|exact H2].
    intros k y Y. apply (H k). rewrite nth_error_app1; [exact Y|]. apply nth_error_Some. congruence.
Qed.

Lemma even_ranks d : forall parts a, EvenVector (concat parts) a d -> Forall (fun p => List.length p <> 1%nat) parts ->
  exists b, gathered (set_extrapolated_bounds_ranks Float parts) = Some b /\ SamePairs b (map (fun x => (x - d / 2, x + d / 2)%Q) (concat parts)).
Proof.
  induction parts as [|p parts IH]; intros a H F; [exists []; split; [reflexivity | constructor]|].
  inversion F as [|? ? F1 F2]; subst. cbn [concat] in H. destruct (even_split p (concat parts) a d H) as [Hp [a' Hq]].
  destruct (IH a' Hq F2) as [b [B S']]. unfold gathered, set_extrapolated_bounds_ranks in *. cbn [map fold_right concat]. rewrite B.
  destruct p as [|x p].
  - exists b. split; [reflexivity|]. exact S'.
  - destruct (bounds_closed Float (x :: p)) as [D [b0 [E [Lb _]]]]; [cbn [List.length] in *; lia|].
    rewrite (proj2 (vector_ok Float (x :: p) b0) E). exists (b0 ++ b). split; [reflexivity|].
    rewrite map_app. apply pairs_app; [apply (even_pairs _ a); assumption | exact S'].
Qed.

Lemma even_distributed parts a d b : EvenVector (concat parts) a d -> Forall (fun p => List.length p <> 1%nat) parts ->
  set_extrapolated_bounds Float false (Some (C1 (concat parts))) = Ok (Some (B1 b)) ->
  exists b', gathered (set_extrapolated_bounds_ranks Float parts) = Some b' /\ SamePairs b' b.
Proof.
  intros H F B. apply vector_ok in B. destruct (even_ranks d parts a H F) as [b' [G S']]. exists b'. split; [exact G|].
  eapply pairs_trans; [exact S'|]. apply pairs_sym, (even_pairs _ a); assumption.
Qed.

Lemma single_rank t parts x : In [x] parts -> In (Err ValueError) (set_extrapolated_bounds_ranks t parts).
Proof. intros H. unfold set_extrapolated_bounds_ranks. apply in_map_iff. exists [x]. split; [reflexivity | exact H]. Qed.

Lemma inner_ranks t pre p post b bp k lo hi lo' hi' :
  set_extrapolated_bounds t false (Some (C1 (concat pre ++ p ++ concat post))) = Ok (Some (B1 b)) ->
  set_extrapolated_bounds t false (Some (C1 p)) = Ok (Some (B1 bp)) ->
  nth_error bp k = Some (lo, hi) -> nth_error b (List.length (concat pre) + k) = Some (lo', hi') ->
  ((0 < k)%nat -> lo = lo') /\ ((S k < List.length p)%nat -> hi = hi').
Proof.
  intros B Bp X X'. apply vector_ok in B, Bp. set (c := concat pre ++ p ++ concat post) in *. set (off := List.length (concat pre)) in *.
  assert (L := ok_long _ _ _ B). assert (Lp := ok_long _ _ _ Bp).
  destruct (bounds_closed t c L) as [D [b1 [E1 [L1 [_ [_ N1]]]]]]. assert (b1 = b) by congruence. subst b1.
  destruct (bounds_closed t p Lp) as [D' [b2 [E2 [L2 [_ [_ N2]]]]]]. assert (b2 = bp) by congruence. subst b2.
  assert (Hk : (k < List.length p)%nat) by (rewrite <- L2; apply nth_error_Some; congruence).
  assert (Lc : List.length c = (off + List.length p + List.length (concat post))%nat) by (unfold c; rewrite !app_length; unfold off; lia).
  rewrite N2 in X by exact Hk. rewrite N1 in X' by lia. injection X as <- <-. injection X' as <- <-.
  assert (Nth : forall i, (i < List.length p)%nat -> nth (off + i) c 0%Q = nth i p 0%Q).
  { intros i Hi. unfold c. rewrite app_nth2 by (unfold off; lia). replace (off + i - List.length (concat pre))%nat with i by (unfold off; lia). apply app_nth1. exact Hi. }
  assert (M : forall i, (S i < List.length p)%nat -> mid t c (off + i) = mid t p i).
  { intros i Hi. unfold mid. rewrite Nth by lia. replace (S (off + i)) with (off + S i)%nat by lia. rewrite Nth by lia. reflexivity. }
  split; intros G.
  - destruct k as [|k]; [lia|]. replace (off + S k)%nat with (S (off + k)) by lia. cbn [low_edge]. rewrite M by lia. reflexivity.
  - unfold high_edge. destruct (Nat.eqb_spec (S k) (List.length p)); [lia|]. destruct (Nat.eqb_spec (S (off + k)) (List.length c)); [lia|].
    rewrite M by lia. reflexivity.
Qed.

(** ** Geometries *)
Lemma map_res_in {A B} (f : A -> res B) : forall l r, map_res f l = Ok r -> Forall2 (fun x y => f x = Ok y) l r.
Proof.
  induction l as [|x l IH]; intros r H; cbn in H; [injection H as <-; constructor|].
  destruct (f x) as [y|] eqn:E; [|discriminate]. cbn in H. destruct (map_res f l) as [ys|] eqn:E'; [|discriminate]. injection H as <-.
  constructor; [exact E | apply IH; reflexivity].
Qed.

Lemma iterable_cells g ub hint l m n : grid_shape (sg_coords g) = (m, n) -> geometry_iterable g ub hint = Ok l ->
  map fst l = list_prod (zrange 0 m) (zrange 0 n) /\
  (forall i j gm, In ((i, j), gm) l -> (gm = None <-> exists h, hint = Some h /\ nd_at h [i; j] = true)).
Proof.
  intros Sh H. unfold geometry_iterable in H. rewrite Sh in H.
  assert (Hint : forall i j, (match hint with Some h => nd_at h [i; j] | None => false end) = true <-> exists h, hint = Some h /\ nd_at h [i; j] = true).
  { intros i j. destruct hint as [h|]; split; [intros E; exists h; auto | intros [h' [[= <-] E]]; exact E | discriminate | intros [h' [E _]]; discriminate]. }
  destruct (if ub then grid_abstraction g else APoint); [| |discriminate].
  - injection H as <-. rewrite map_map. split; [rewrite map_id; reflexivity|]. intros i j gm I. apply in_map_iff in I. destruct I as [[i' j'] [E _]].
    injection E as -> -> <-. cbn [fst snd]. rewrite <- Hint. destruct (match hint with Some h => nd_at h [i; j] | None => false end); split; congruence.
  - destruct (has_bounds (sg_coords g)); [|discriminate]. apply map_res_in in H. split.
    + clear Sh. induction H as [|ij y l r E F IH]; [reflexivity|]. cbn [map]. rewrite IH. f_equal.
      destruct (match hint with Some h => nd_at h [fst ij; snd ij] | None => false end); [injection E as <-; reflexivity|].
      destruct (cell_polygon (sg_coords g) (fst ij) (snd ij)); [injection E as <-; reflexivity | discriminate].
    + intros i j gm I. clear Sh. induction H as [|ij y l r E F IH]; [destruct I|]. destruct I as [->|I]; [|apply IH, I].
      rewrite <- Hint. destruct ij as [i' j']. cbn [fst snd] in E.
      destruct (match hint with Some h => nd_at h [i'; j'] | None => false end) eqn:Q.
      * injection E as <- <- <-. rewrite Q. split; reflexivity.
      * destruct (cell_polygon (sg_coords g) i' j'); [|discriminate]. injection E as <- <- <-. rewrite Q. split; discriminate.
Qed.

Lemma iterable_geometry g ub hint l i j gm : geometry_iterable g ub hint = Ok l -> In ((i, j), Some gm) l ->
  match (if ub then grid_abstraction g else APoint) with
  | APoint => gm = cell_point (sg_coords g) i j
  | APolygon => cell_polygon (sg_coords g) i j = Ok gm
  | ALine => False
  end.
Proof.
  intros H I. unfold geometry_iterable in H. destruct (grid_shape (sg_coords g)) as [m n].
  destruct (if ub then grid_abstraction g else APoint); [| |discriminate].
  - injection H as <-. apply in_map_iff in I. destruct I as [[i' j'] [E _]]. cbn [fst snd] in E.
    destruct (match hint with Some h => nd_at h [i'; j'] | None => false end); injection E as -> -> E; [discriminate | congruence].
  - destruct (has_bounds (sg_coords g)); [|discriminate]. apply map_res_in in H. induction H as [|ij y l r E F IH]; [destruct I|].
    destruct I as [->|I]; [|apply IH, I]. destruct (match hint with Some h => nd_at h [fst ij; snd ij] | None => false end); [discriminate|].
    destruct ij as [i' j']. cbn [fst snd] in E. destruct (cell_polygon (sg_coords g) i' j') eqn:Q; [|discriminate]. injection E as <- <- <-. exact Q.
Qed.

Lemma in_pair p x : (qmin2 p <= x <= qmax2 p)%Q <-> InCell p x.
Proof. unfold qmin2, qmax2, InCell. destruct (qle_spec (fst p) (snd p)) as [|G]; [|apply Qnot_le_lt in G]; split; intros H; try tauto; try (destruct H; [|]); lra. Qed.

Lemma box_region ys xs yb xb i j gm px py : cell_polygon (Vectors ys xs (Some (yb, xb))) i j = Ok gm ->
  nth_error yb (Z.to_nat i) = Some py -> nth_error xb (Z.to_nat j) = Some px ->
  forall x y, InGeom gm x y <-> InCell px x /\ InCell py y.
Proof.
  intros H Y X x y. cbn in H. injection H as <-. rewrite (nth_error_nth _ _ (0, 0)%Q Y), (nth_error_nth _ _ (0, 0)%Q X). cbn [InGeom]. rewrite !in_pair. reflexivity.
Qed.

Lemma expanded_ring ys xs yb xb i j px py : 0 <= i -> 0 <= j ->
  nth_error yb (Z.to_nat i) = Some py -> nth_error xb (Z.to_nat j) = Some px ->
  cell_polygon (expand_bounds Float (Vectors ys xs (Some (yb, xb)))) i j =
  Ok (GPolygon [(fst px, fst py); (snd px, fst py); (snd px, snd py); (fst px, snd py)]).
Proof.
  intros Hi Hj Y X. cbn [expand_bounds expand stacked cell_polygon nd_at nd_shape store]. unfold expand_bounds.
  cbn [expand stacked cell_polygon nd_at nd_shape store]. change (zrange 0 4) with [0; 1; 2; 3]. cbn [map nth Z.ltb Z.eqb orb Z.compare Pos.compare Pos.compare_cont Pos.eqb].
  rewrite (nth_error_nth _ _ (0, 0)%Q Y), (nth_error_nth _ _ (0, 0)%Q X). reflexivity.
Qed.

(** ** Assignment *)
Lemma in_box_spec : forall box idx, List.length idx = List.length box -> in_box box idx = true <-> Forall2 (fun ab i => fst ab <= i < snd ab) box idx.
Proof.
  unfold in_box. induction box as [|[a b] box IH]; intros [|i idx] L; cbn in L; try lia; [split; [constructor | reflexivity]|].
  cbn [combine forallb fst snd]. rewrite andb_true_iff, IH by lia. split.
  - intros [H1 H2]. constructor; [cbn; lia | exact H2].
  - intros H. inversion H as [|? ? ? ? H1 H2]; subst. cbn in H1. split; [lia | exact H2].
Qed.
Lemma assign_spec {A} (dst : nd A) slc src a : assign dst slc src = Ok a -> Assigned dst (ranges (nd_shape dst) slc) src a.
Proof.
  unfold assign. intros H. destruct (listZ_eqb _ _); [|discriminate]. injection H as <-. split; [reflexivity|]. intros idx L. cbn [nd_at].
  change (slice_box (nd_shape dst) slc) with (ranges (nd_shape dst) slc). assert (S' := in_box_spec (ranges (nd_shape dst) slc) idx L).
  destruct (in_box (ranges (nd_shape dst) slc) idx); split; intros G; [reflexivity | exfalso; apply G, S'; reflexivity | apply S' in G; discriminate | reflexivity].
Qed.
Lemma assign_ok {A} (dst : nd A) slc src :
  (exists a, assign dst slc src = Ok a) <-> nd_shape src = map (fun ab => Z.max 0 (snd ab - fst ab)) (ranges (nd_shape dst) slc).
Proof.
  unfold assign. change (box_shape (slice_box (nd_shape dst) slc)) with (map (fun ab => Z.max 0 (snd ab - fst ab)) (ranges (nd_shape dst) slc)).
  destruct (listZ_eqb _ _) eqn:E.
  - apply listZ_eqb_eq in E. split; [intros _; exact E | intros _; eexists; reflexivity].
  - split; [intros [a H]; discriminate|]. intros H. apply listZ_eqb_eq in H. congruence.
Qed.

Lemma variable_assigned self slc v r : var_setitem self slc v = Ok r ->
  Assigned (cv_value self) (ranges (nd_shape (cv_value self)) slc) (cv_value v) (cv_value r) /\
  (cv_mask v = None -> cv_mask r = cv_mask self) /\
  (forall m, cv_mask v = Some m -> exists m', cv_mask r = Some m' /\
     let old := match cv_mask self with Some o => o | None => mknd (nd_shape (cv_value self)) (fun _ => false) end in
     Assigned old (ranges (nd_shape old) slc) m m') /\
  (cv_bounds self = None -> cv_bounds r = None) /\
  (forall b, cv_bounds self = Some b -> exists vb b', cv_bounds v = Some vb /\ cv_bounds r = Some b' /\
     Assigned b (ranges (nd_shape b) (slc ++ [slice_none])) vb b').
Proof.
  unfold var_setitem. intros H. destruct (assign (cv_value self) slc (cv_value v)) as [value|] eqn:E1; [|discriminate]. cbn [bind] in H.
  destruct (cv_mask v) as [mv|] eqn:Ev.
  - destruct (assign (create_mask _ _) slc mv) as [mm|] eqn:E2; [|discriminate]. cbn [bind] in H.
    assert (B : (cv_bounds self = None /\ r = mkcvar value (Some mm) None) \/
                exists b vb b', cv_bounds self = Some b /\ cv_bounds v = Some vb /\ assign b (slc ++ [slice_none]) vb = Ok b' /\ r = mkcvar value (Some mm) (Some b')).
    { destruct (cv_bounds self) as [b|]; [|left; cbn in H; split; congruence]. destruct (cv_bounds v) as [vb|]; [|discriminate].
      destruct (assign b (slc ++ [slice_none]) vb) as [b'|] eqn:E3; [|discriminate]. cbn in H. right. exists b, vb, b'. repeat split; congruence. }
    split; [destruct B as [[_ ->]|[b [vb [b' [_ [_ [_ ->]]]]]]]; apply assign_spec, E1|]. split; [discriminate|]. split.
    + intros m [= <-]. exists mm. split; [destruct B as [[_ ->]|[b [vb [b' [_ [_ [_ ->]]]]]]]; reflexivity|]. apply assign_spec, E2.
    + destruct B as [[B ->]|[b [vb [b' [Bb [Bv [B ->]]]]]]]; split; intros; try congruence; [reflexivity|].
      assert (b0 = b) by congruence. subst b0. exists vb, b'. split; [exact Bv|]. split; [reflexivity|]. apply assign_spec, B.
  - cbn [bind] in H.
    assert (B : (cv_bounds self = None /\ r = mkcvar value (cv_mask self) None) \/
                exists b vb b', cv_bounds self = Some b /\ cv_bounds v = Some vb /\ assign b (slc ++ [slice_none]) vb = Ok b' /\ r = mkcvar value (cv_mask self) (Some b')).
    { destruct (cv_bounds self) as [b|]; [|left; cbn in H; split; congruence]. destruct (cv_bounds v) as [vb|]; [|discriminate].
      destruct (assign b (slc ++ [slice_none]) vb) as [b'|] eqn:E3; [|discriminate]. cbn in H. right. exists b, vb, b'. repeat split; congruence. }
    split; [destruct B as [[_ ->]|[b [vb [b' [_ [_ [_ ->]]]]]]]; apply assign_spec, E1|].
    split; [intros _; destruct B as [[_ ->]|[b [vb [b' [_ [_ [_ ->]]]]]]]; reflexivity|]. split; [discriminate|].
    destruct B as [[B ->]|[b [vb [b' [Bb [Bv [B ->]]]]]]]; split; intros; try congruence; [reflexivity|].
    assert (b0 = b) by congruence. subst b0. exists vb, b'. split; [exact Bv|]. split; [reflexivity|]. apply assign_spec, B.
Qed.

Lemma grid_assigned self ys xs g r : grid_setitem self ys xs g = Ok r ->
  (exists sx sy, (vectorized self = true -> sx = [xs] /\ sy = [ys]) /\ (vectorized self = false -> sx = [ys; xs] /\ sy = [ys; xs]) /\
     var_setitem (vg_x self) sx (vg_x g) = Ok (vg_x r) /\ var_setitem (vg_y self) sy (vg_y g) = Ok (vg_y r)) /\
  (vg_mask g = None -> vg_mask r = vg_mask self) /\
  (forall m, vg_mask g = Some m -> exists m', vg_mask r = Some m' /\
     let old := match vg_mask self with Some o => o | None => mknd (vg_shape self) (fun _ => false) end in
     Assigned old (ranges (nd_shape old) [ys; xs]) m m').
Proof.
  unfold grid_setitem. intros H. destruct (var_setitem (vg_x self) _ _) as [x|] eqn:E1; [|discriminate]. cbn [bind] in H.
  destruct (var_setitem (vg_y self) _ _) as [y|] eqn:E2; [|discriminate]. cbn [bind] in H.
  assert (V : vg_x r = x /\ vg_y r = y).
  { destruct (vg_mask g) as [m|]; [destruct (assign _ _ m); [|discriminate]|]; cbn in H; injection H as <-; split; reflexivity. }
  destruct V as [-> ->]. split.
  - destruct (vectorized self); do 2 eexists; (split; [|split; [|split; [exact E1 | exact E2]]]); intros; try discriminate; split; reflexivity.
  - split; intros; destruct (vg_mask g) as [m0|]; try discriminate.
    + cbn in H. injection H as <-. reflexivity.
    + injection H0 as ->. destruct (assign _ _ m) as [mm|] eqn:E3; [|discriminate]. cbn in H. injection H as <-. exists mm. split; [reflexivity|]. apply assign_spec, E3.
Qed.
