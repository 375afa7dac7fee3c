From Verif Require Import Py Lib Spec PartitionModel PartitionSpec.

(** Closed form of [get_rank_bounds]. *)
Definition rb_lo (n s r : Z) : Z := r * (n / s) + Z.min r (n mod s).

Lemma grb_split_exact fuel n s r e :
  0 < s -> 0 <= r < s -> 0 < n -> n = s * e -> 1 <= e ->
  get_rank_bounds_fuel (S fuel) n s r (Some e) = Ok (Some (r * e, r * e + e)).
Proof.
  intros Hs Hr Hn He He1.
  cbn [get_rank_bounds_fuel].
  replace (n =? 0) with false by lia.
  replace (r >=? s) with false by lia.
  assert (Hle : r * e + e <= n) by nia.
  assert (Hl : (if r =? 0 then 0 else r * e) = r * e)
    by (destruct (Z.eqb_spec r 0); [subst; reflexivity|reflexivity]).
  assert (Hu : (if r * e + e >=? n then n else r * e + e) = r * e + e)
    by (destruct (r * e + e >=? n) eqn:E; lia).
  destruct (n >? s); cbn [bind]; rewrite Hl, Hu;
  replace (r * e >=? r * e + e) with false by lia; reflexivity.
Qed.

Lemma grb_divisible fuel n s r :
  0 < s -> 0 <= r < s -> 0 < n -> n mod s = 0 ->
  get_rank_bounds_fuel (S (S fuel)) n s r None
  = Ok (Some (r * (n / s), r * (n / s) + n / s)).
Proof.
  intros Hs Hr Hn Hm.
  assert (Hq : n = s * (n / s)) by (rewrite (Z.div_mod n s) at 1 by lia; lia).
  assert (H1 : 1 <= n / s) by nia.
  set (q := n / s) in *.
  destruct (Z.eq_dec n s) as [->|Hne].
  - assert (q = 1) by nia.
    cbn [get_rank_bounds_fuel].
    replace (s =? 0) with false by lia.
    replace (r >=? s) with false by lia.
    replace (s >? s) with false by lia.
    replace (s <? s) with false by lia.
    replace (s =? s) with true by lia. cbn [bind].
    replace (if r =? 0 then 0 else r * 1) with r by (destruct (r =? 0) eqn:E; lia).
    replace (if r + 1 >=? s then s else r + 1) with (r + 1) by (destruct (r + 1 >=? s) eqn:E; lia).
    replace (r >=? r + 1) with false by lia. rewrite H; do 3 f_equal; lia.
  - assert (n > s) by nia.
    set (f1 := S fuel). cbn [get_rank_bounds_fuel].
    replace (n =? 0) with false by lia.
    replace (r >=? s) with false by lia.
    replace (n >? s) with true by lia.
    replace (s =? 0) with false by lia.
    fold q. rewrite Hm. cbn [Z.gtb Z.compare]. cbn [Z.eqb].
    apply grb_split_exact; lia.
Qed.

Lemma get_rank_bounds_closed n s r :
  0 < s -> 0 <= r < s -> 0 <= n ->
  get_rank_bounds n s r
  = Ok (if rb_lo n s r <? rb_lo n s (r + 1) then Some (rb_lo n s r, rb_lo n s (r + 1)) else None).
Proof.
  intros Hs Hr Hn; unfold get_rank_bounds, rb_lo.
  pose proof (Z.div_mod n s ltac:(lia)) as Hdm.
  pose proof (Z.mod_pos_bound n s ltac:(lia)) as Hmb.
  assert (Hq0 : 0 <= n / s) by (apply Z.div_pos; lia).
  destruct (Z.eq_dec n 0) as [->|Hn0].
  { cbn [get_rank_bounds_fuel]. change (0 =? 0) with true. cbv iota.
    rewrite Zdiv_0_l, Zmod_0_l by lia.
    replace (r * 0 + Z.min r 0 <? (r + 1) * 0 + Z.min (r + 1) 0) with false by lia. reflexivity. }
  destruct (Z.ltb_spec n s) as [Hlt|Hge].
  { rewrite (Z.div_small n s) by lia. rewrite (Z.mod_small n s) by lia.
    cbn [get_rank_bounds_fuel].
    replace (n =? 0) with false by lia.
    replace (r >=? s) with false by lia.
    replace (n >? s) with false by lia.
    replace (n <? s) with true by lia.
    replace (s =? 0) with false by lia.
    assert (Hc : - (- n / s) = 1).
    { assert (- n / s = -1); [|lia]. symmetry; apply Z.div_unique with (r := s - n); lia. }
    rewrite Hc. cbn [bind].
    replace (if r =? 0 then 0 else r * 1) with r by (destruct (r =? 0) eqn:E; lia).
    destruct (r + 1 >=? n) eqn:E1.
    - destruct (r >=? n) eqn:E2.
      + replace (r * 0 + Z.min r n <? (r + 1) * 0 + Z.min (r + 1) n) with false by lia. reflexivity.
      + replace (r * 0 + Z.min r n <? (r + 1) * 0 + Z.min (r + 1) n) with true by lia.
        do 3 f_equal; lia.
    - replace (r >=? r + 1) with false by lia.
      replace (r * 0 + Z.min r n <? (r + 1) * 0 + Z.min (r + 1) n) with true by lia.
      do 3 f_equal; lia. }
  set (q := n / s) in *. set (m := n mod s) in *.
  assert (Hq : 1 <= q) by nia.
  replace (r * q + Z.min r m <? (r + 1) * q + Z.min (r + 1) m) with true by nia.
  destruct (Z.eq_dec m 0) as [Hm0|Hm0].
  { rewrite grb_divisible by (assumption || lia). fold q. rewrite Hm0. do 3 f_equal; nia. }
  set (f2 := 2%nat). change 3%nat with (S f2). cbn [get_rank_bounds_fuel].
  replace (n =? 0) with false by lia.
  replace (r >=? s) with false by lia.
  assert (Hns : n > s) by nia.
  replace (n >? s) with true by lia.
  replace (s =? 0) with false by lia.
  fold m. replace (m >? 0) with true by lia.
  unfold f2. rewrite grb_divisible; [|lia|lia|nia|].
  - assert (Hdiv : (n - m) / s = q) by (symmetry; apply Z.div_unique with (r := 0); lia).
    rewrite Hdiv. cbn [bind].
    destruct (r + 1 <=? m) eqn:E; do 3 f_equal; nia.
  - symmetry; apply Z.mod_unique with (q := q); lia.
Qed.

Definition rb_fun (n s r : Z) : option (Z * Z) :=
  match get_rank_bounds n s r with Ok b => b | Err _ => None end.

Lemma rb_lo_mono n s r1 r2 : 0 < s -> 0 <= n -> r1 <= r2 -> rb_lo n s r1 <= rb_lo n s r2.
Proof.
  intros Hs Hn H; unfold rb_lo.
  assert (0 <= n / s) by (apply Z.div_pos; lia). nia.
Qed.

Lemma rb_lo_0 n s : 0 < s -> rb_lo n s 0 = 0.
Proof. intros; unfold rb_lo. pose proof (Z.mod_pos_bound n s ltac:(lia)). lia. Qed.

Lemma rb_lo_s n s : 0 < s -> rb_lo n s s = n.
Proof.
  intros; unfold rb_lo. pose proof (Z.mod_pos_bound n s ltac:(lia)).
  pose proof (Z.div_mod n s ltac:(lia)). lia.
Qed.

(** A monotone step function hits every value between its ends. *)
Lemma step_function_cover (g : Z -> Z) : forall k, (0 <= k) ->
  (forall r, 0 <= r < k -> g r <= g (r + 1)) ->
  forall i, g 0 <= i < g k -> exists r, 0 <= r < k /\ g r <= i < g (r + 1).
Proof.
  apply (natlike_ind (fun k => (forall r, 0 <= r < k -> g r <= g (r + 1)) ->
    forall i, g 0 <= i < g k -> exists r, 0 <= r < k /\ g r <= i < g (r + 1))).
  - intros _ i H; lia.
  - intros k Hk IH Hm i Hi. unfold Z.succ in *.
    destruct (Z_lt_ge_dec i (g k)) as [Hlt|Hge].
    + destruct IH with (i := i) as [r [Hr Hri]]; [intros; apply Hm; lia|lia|].
      exists r; split; [lia|exact Hri].
    + exists k; split; [lia|lia].
Qed.

Theorem get_rank_bounds_total n s r :
  1 <= s -> 0 <= n -> 0 <= r -> exists b, get_rank_bounds n s r = Ok b /\ (s <= r -> b = None).
Proof.
  intros Hs Hn Hr. destruct (Z_lt_ge_dec r s) as [H|H].
  - rewrite get_rank_bounds_closed by lia. eexists; split; [reflexivity|lia].
  - exists None; split; [|reflexivity].
    unfold get_rank_bounds; cbn [get_rank_bounds_fuel].
    destruct (n =? 0); [reflexivity|]. replace (r >=? s) with true by lia. reflexivity.
Qed.

Lemma rb_fun_closed n s r : 1 <= s -> 0 <= n -> 0 <= r < s ->
  rb_fun n s r = if rb_lo n s r <? rb_lo n s (r + 1) then Some (rb_lo n s r, rb_lo n s (r + 1)) else None.
Proof. intros; unfold rb_fun; rewrite get_rank_bounds_closed by lia; reflexivity. Qed.

Lemma rb_owns n s r i : 1 <= s -> 0 <= n -> 0 <= r < s ->
  Owns (rb_fun n s r) i <-> rb_lo n s r <= i < rb_lo n s (r + 1).
Proof.
  intros Hs Hn Hr; rewrite rb_fun_closed by assumption.
  destruct (rb_lo n s r <? rb_lo n s (r + 1)) eqn:E; cbn [Owns]; lia.
Qed.

Lemma rb_share n s r : 1 <= s -> 0 <= n -> 0 <= r < s ->
  share (rb_fun n s r) = rb_lo n s (r + 1) - rb_lo n s r.
Proof.
  intros Hs Hn Hr; rewrite rb_fun_closed by assumption.
  pose proof (rb_lo_mono n s r (r + 1) ltac:(lia) Hn ltac:(lia)).
  destruct (rb_lo n s r <? rb_lo n s (r + 1)) eqn:E; cbn [share]; lia.
Qed.

Theorem even_split n s : 1 <= s -> 0 <= n -> EvenSplit n s (rb_fun n s).
Proof.
  intros Hs Hn; constructor.
  - intros r lo hi Hr H. rewrite rb_fun_closed in H by assumption.
    destruct (rb_lo n s r <? rb_lo n s (r + 1)) eqn:E; [|discriminate].
    injection H as <- <-.
    pose proof (rb_lo_mono n s 0 r ltac:(lia) Hn ltac:(lia)).
    pose proof (rb_lo_mono n s (r + 1) s ltac:(lia) Hn ltac:(lia)).
    rewrite rb_lo_0 in * by lia. rewrite rb_lo_s in * by lia. lia.
  - intros i Hi.
    destruct (step_function_cover (rb_lo n s) s ltac:(lia)) with (i := i) as [r [Hr Hri]].
    + intros r Hr; apply rb_lo_mono; lia.
    + rewrite rb_lo_0, rb_lo_s by lia; exact Hi.
    + exists r; split; [exact Hr|]; split; [apply rb_owns; assumption|].
      intros r' Hr' Ho. apply rb_owns in Ho; [|assumption..].
      destruct (Z.lt_trichotomy r r') as [H|[H|H]]; [|symmetry; exact H|].
      * pose proof (rb_lo_mono n s (r + 1) r' ltac:(lia) Hn ltac:(lia)). lia.
      * pose proof (rb_lo_mono n s (r' + 1) r ltac:(lia) Hn ltac:(lia)). lia.
  - intros r1 r2 i j H1 H2 Hlt O1 O2. apply rb_owns in O1; [|assumption..]. apply rb_owns in O2; [|assumption..].
    pose proof (rb_lo_mono n s (r1 + 1) r2 ltac:(lia) Hn ltac:(lia)). lia.
  - intros r1 r2 H1 H2. rewrite !rb_share by assumption. unfold rb_lo.
    pose proof (Z.mod_pos_bound n s ltac:(lia)). lia.
Qed.

Lemma rb_none_iff n s r : 1 <= s -> 0 <= n -> 0 <= r < s ->
  (get_rank_bounds n s r = Ok None <-> n <= r).
Proof.
  intros Hs Hn Hr. rewrite get_rank_bounds_closed by lia. unfold rb_lo.
  pose proof (Z.div_mod n s ltac:(lia)) as Hdm.
  pose proof (Z.mod_pos_bound n s ltac:(lia)) as Hmb.
  assert (Hq0 : 0 <= n / s) by (apply Z.div_pos; lia).
  destruct (Z_lt_ge_dec n s) as [H|H].
  - rewrite (Z.div_small n s) by lia; rewrite (Z.mod_small n s) by lia.
    destruct (r * 0 + Z.min r n <? (r + 1) * 0 + Z.min (r + 1) n) eqn:E; split; intros; try discriminate; try reflexivity; lia.
  - assert (1 <= n / s) by nia.
    replace (r * (n / s) + Z.min r (n mod s) <? (r + 1) * (n / s) + Z.min (r + 1) (n mod s)) with true by nia.
    split; [discriminate|lia].
Qed.

(** create_slices *)
Lemma cut_sections_zrange : forall sizes lo hi,
  (forall x, In x sizes -> 0 <= x) -> lo + zsum sizes = hi ->
  cut_sections sizes (zrange lo hi)
  = map (fun b => zrange (fst b) (snd b))
      ((fix go lo (l : list Z) := match l with [] => [] | x :: t => (lo, lo + x) :: go (lo + x) t end) lo sizes).
Proof.
  induction sizes as [|x t IH]; intros lo hi Hp Hs; [reflexivity|].
  rewrite zsum_cons in Hs.
  assert (Hx : 0 <= x) by (apply Hp; left; reflexivity).
  assert (Ht : 0 <= zsum t) by (apply zsum_nonneg; intros; apply Hp; right; assumption).
  cbn [cut_sections map fst snd].
  rewrite (zrange_app lo (lo + x) hi) by lia.
  assert (L : List.length (zrange lo (lo + x)) = Z.to_nat x) by (rewrite zrange_length; f_equal; lia).
  rewrite firstn_app, skipn_app, L, Nat.sub_diag, firstn_all2, skipn_all2 by lia.
  cbn [firstn skipn app]. rewrite app_nil_r. f_equal.
  apply IH; [intros; apply Hp; right; assumption|lia].
Qed.

Fixpoint runs (lo : Z) (sizes : list Z) : list (Z * Z) :=
  match sizes with [] => [] | x :: t => (lo, lo + x) :: runs (lo + x) t end.

Lemma fold_min_zrange : forall l x, (forall y, In y l -> x <= y) -> fold_left Z.min l x = x.
Proof.
  induction l as [|y t IH]; intros x H; [reflexivity|].
  cbn [fold_left]. rewrite Z.min_l by (apply H; left; reflexivity).
  apply IH; intros; apply H; right; assumption.
Qed.

Lemma fold_max_app l1 l2 x : fold_left Z.max (l1 ++ l2) x = fold_left Z.max l2 (fold_left Z.max l1 x).
Proof. apply fold_left_app. Qed.

Lemma fold_max_le : forall l x m, x <= m -> (forall y, In y l -> y <= m) -> fold_left Z.max l x <= m.
Proof.
  induction l as [|y t IH]; intros x m Hx H; [exact Hx|].
  cbn [fold_left]. apply IH; [pose proof (H y (or_introl eq_refl)); lia|intros; apply H; right; assumption].
Qed.

Lemma optimal_zrange a b : a < b -> get_optimal_slice_nocheck (zrange a b) = Ok (slice_of a b).
Proof.
  intros H; unfold get_optimal_slice_nocheck, list_min, list_max.
  rewrite zrange_cons by lia. cbn [bind].
  rewrite fold_min_zrange by (intros y Hy; apply in_zrange in Hy; lia).
  assert (E : fold_left Z.max (zrange (a + 1) b) a = b - 1).
  { destruct (Z.eq_dec (a + 1) b) as [<-|Hne].
    - rewrite zrange_nil by lia; cbn [fold_left]; lia.
    - rewrite (zrange_app (a + 1) (b - 1) b) by lia.
      rewrite fold_max_app.
      replace (zrange (b - 1) b) with [b - 1]
        by (rewrite zrange_cons, zrange_nil by lia; reflexivity).
      cbn [fold_left].
      pose proof (fold_max_le (zrange (a + 1) (b - 1)) a (b - 1) ltac:(lia)
        ltac:(intros y Hy; apply in_zrange in Hy; lia)). lia. }
  rewrite E. f_equal. f_equal. lia.
Qed.

Definition section_sizes (len size : Z) : list Z :=
  repeat (len / size + 1) (Z.to_nat (len mod size)) ++ repeat (len / size) (Z.to_nat (size - len mod size)).

Lemma zsum_repeat x k : zsum (repeat x k) = x * Z.of_nat k.
Proof. induction k as [|k IH]; [cbn; lia|cbn [repeat]; rewrite zsum_cons, IH; lia]. Qed.

Lemma section_sizes_sum len size : 0 < size -> 0 <= len -> zsum (section_sizes len size) = len.
Proof.
  intros Hs Hl; unfold section_sizes. rewrite zsum_app, !zsum_repeat.
  pose proof (Z.div_mod len size ltac:(lia)). pose proof (Z.mod_pos_bound len size ltac:(lia)).
  rewrite !Z2Nat.id by lia. nia.
Qed.

Lemma in_section_sizes len size x : In x (section_sizes len size) -> x = len / size + 1 \/ x = len / size.
Proof.
  unfold section_sizes; intros H; apply in_app_or in H; destruct H as [H|H];
  apply repeat_spec in H; auto.
Qed.

Lemma section_sizes_length len size : 0 < size -> List.length (section_sizes len size) = Z.to_nat size.
Proof.
  intros Hs; unfold section_sizes. rewrite app_length, !repeat_length.
  pose proof (Z.mod_pos_bound len size ltac:(lia)). lia.
Qed.

Lemma create_slices_closed len size :
  1 <= size <= len ->
  create_slices len size
  = Ok (map (fun b => slice_of (fst b) (snd b)) (runs 0 (section_sizes len size))).
Proof.
  intros H. unfold create_slices, array_split.
  replace (size <=? 0) with false by lia. cbn [bind].
  rewrite zrange_zlen. replace (Z.max 0 (len - 0)) with len by lia.
  fold (section_sizes len size).
  assert (Hpos : forall x, In x (section_sizes len size) -> 1 <= x).
  { intros x Hx. apply in_section_sizes in Hx.
    assert (1 <= len / size) by (apply Z.div_le_lower_bound; lia). lia. }
  rewrite (cut_sections_zrange _ 0 len)
    by (try (intros x Hx; specialize (Hpos x Hx); lia); rewrite section_sizes_sum; lia).
  change ((fix go lo (l : list Z) := match l with [] => [] | x :: t => (lo, lo + x) :: go (lo + x) t end) 0 (section_sizes len size))
    with (runs 0 (section_sizes len size)).
  rewrite (map_res_all _ (fun l => match get_optimal_slice_nocheck l with Ok s => s | Err _ => slice_none end)).
  - f_equal. rewrite map_map. apply map_ext_in. intros [a b] Hin. cbn [fst snd].
    rewrite optimal_zrange; [reflexivity|].
    clear -Hin Hpos. revert Hin. generalize 0 as lo. induction (section_sizes len size) as [|x t IH]; intros lo Hin; [destruct Hin|].
    destruct Hin as [E|Hin]; [injection E as <- <-; specialize (Hpos x (or_introl eq_refl)); lia|].
    apply (IH ltac:(intros; apply Hpos; right; assumption)) in Hin. exact Hin.
  - intros l Hl. apply in_map_iff in Hl. destruct Hl as [[a b] [<- Hin]]. cbn [fst snd].
    assert (a < b).
    { revert Hin. generalize 0 as lo. induction (section_sizes len size) as [|x t IH]; intros lo Hin; [destruct Hin|].
      destruct Hin as [E|Hin]; [injection E as <- <-; specialize (Hpos x (or_introl eq_refl)); lia|].
      apply (IH ltac:(intros; apply Hpos; right; assumption)) in Hin. exact Hin. }
    rewrite optimal_zrange by assumption. reflexivity.
Qed.

Lemma runs_tiles : forall sizes lo, (forall x, In x sizes -> 0 <= x) -> Tiles lo (lo + zsum sizes) (runs lo sizes).
Proof.
  induction sizes as [|x t IH]; intros lo H; cbn [runs Tiles].
  - unfold zsum; cbn; lia.
  - rewrite zsum_cons. pose proof (H x (or_introl eq_refl)). split; [reflexivity|]. split; [lia|].
    replace (lo + (x + zsum t)) with ((lo + x) + zsum t) by lia.
    apply IH; intros; apply H; right; assumption.
Qed.

Lemma runs_length sizes : forall lo, List.length (runs lo sizes) = List.length sizes.
Proof. induction sizes as [|x t IH]; intros lo; cbn [runs List.length]; [reflexivity|rewrite IH; reflexivity]. Qed.

Lemma tiles_le : forall l lo hi, Tiles lo hi l -> lo <= hi.
Proof.
  induction l as [|[a b] t IH]; intros lo hi H; cbn [Tiles] in H; [lia|].
  destruct H as [-> [H1 H2]]; apply IH in H2; lia.
Qed.

Lemma tiles_in : forall l lo hi b, Tiles lo hi l -> In b l -> lo <= fst b <= snd b /\ snd b <= hi.
Proof.
  induction l as [|[a b] t IH]; intros lo hi c H Hin; cbn [Tiles] in H; [destruct Hin|].
  destruct H as [-> [H1 H2]]. pose proof (tiles_le _ _ _ H2).
  destruct Hin as [<-|Hin]; [cbn [fst snd]; lia|].
  apply (IH _ _ _ H2) in Hin; lia.
Qed.

Lemma tiles_exactly_one : forall l lo hi i, Tiles lo hi l -> lo <= i < hi ->
  ExactlyOne (InIval i) l.
Proof.
  induction l as [|[a b] t IH]; intros lo hi i H Hi; cbn [Tiles] in H; [lia|].
  destruct H as [-> [H1 H2]].
  destruct (Z_lt_ge_dec i b) as [Hlt|Hge].
  - exists 0%nat, (lo, b); split; [reflexivity|]; split; [unfold InIval; cbn [fst snd]; lia|].
    intros [|k'] x' Hk Hx; [reflexivity|exfalso].
    cbn [nth_error] in Hk. apply nth_error_In in Hk.
    apply (tiles_in _ _ _ _ H2) in Hk. unfold InIval in Hx. lia.
  - destruct (IH _ _ i H2 ltac:(lia)) as [k [x [Hk [Hx Hu]]]].
    exists (S k), x; split; [exact Hk|]; split; [exact Hx|].
    intros [|k'] x' Hk' Hx'.
    + cbn [nth_error] in Hk'. injection Hk' as <-. unfold InIval in Hx'; cbn [fst snd] in Hx'; lia.
    + f_equal. eapply Hu; [exact Hk'|exact Hx'].
Qed.

Lemma slice_positions_inner n a b i : 0 <= a -> 0 <= b <= n ->
  (In i (slice_positions n (slice_of a b)) <-> a <= i < b).
Proof.
  intros Ha Hb. unfold slice_positions, slice_bounds, slice_of, clip_end; cbn [sl_start sl_stop].
  replace (a <? 0) with false by lia.
  replace (b <? 0) with false by lia. rewrite in_zrange; lia.
Qed.

Theorem create_slices_spec len size :
  1 <= size <= len ->
  exists sl, create_slices len size = Ok sl /\ zlen sl = size /\
    Forall (fun s => slice_positions len s <> []) sl /\
    flat_map (slice_positions len) sl = zrange 0 len /\
    forall i, 0 <= i < len -> ExactlyOne (fun s => In i (slice_positions len s)) sl.
Proof.
  intros H. rewrite create_slices_closed by exact H. eexists; split; [reflexivity|].
  set (sz := section_sizes len size).
  assert (Hpos : forall x, In x sz -> 1 <= x).
  { intros x Hx. apply in_section_sizes in Hx.
    assert (1 <= len / size) by (apply Z.div_le_lower_bound; lia). lia. }
  assert (Hsum : zsum sz = len) by (apply section_sizes_sum; lia).
  assert (HT : Tiles 0 len (runs 0 sz)).
  { rewrite <- Hsum. apply (runs_tiles sz 0). intros x Hx; specialize (Hpos x Hx); lia. }
  split; [|split; [|split]].
  - unfold zlen. rewrite map_length, runs_length. unfold sz. rewrite section_sizes_length by lia. lia.
  - apply Forall_forall. intros s Hs. apply in_map_iff in Hs. destruct Hs as [[a b] [<- Hin]].
    pose proof (tiles_in _ _ _ _ HT Hin) as Hb; cbn [fst snd] in *.
    assert (a < b).
    { revert Hin. generalize 0 as lo. clear -Hpos. induction sz as [|x t IH]; intros lo Hin; [destruct Hin|].
      destruct Hin as [E|Hin]; [injection E as <- <-; specialize (Hpos x (or_introl eq_refl)); lia|].
      apply (IH ltac:(intros; apply Hpos; right; assumption)) in Hin. exact Hin. }
    intros Hnil. assert (In a (slice_positions len (slice_of a b))) by (apply slice_positions_inner; lia).
    rewrite Hnil in *; assumption.
  - clear Hpos. clearbody sz. revert HT. clear.
    assert (G : forall l lo hi, Tiles lo hi l -> 0 <= lo -> hi <= len ->
      flat_map (slice_positions len) (map (fun b => slice_of (fst b) (snd b)) l) = zrange lo hi).
    { induction l as [|[a b] t IH]; intros lo hi HT Hlo Hhi; cbn [Tiles] in HT.
      - subst; rewrite zrange_nil by lia; reflexivity.
      - destruct HT as [-> [H1 H2]]. cbn [map flat_map fst snd].
        pose proof (tiles_le _ _ _ H2).
        rewrite (IH b hi H2) by lia.
        rewrite (zrange_app lo b hi) by lia. f_equal.
        unfold slice_positions, slice_bounds, slice_of, clip_end; cbn [sl_start sl_stop].
        replace (lo <? 0) with false by lia. replace (b <? 0) with false by lia.
        f_equal; lia. }
    intros HT. apply G; [exact HT|lia|lia].
  - intros i Hi. destruct (tiles_exactly_one _ _ _ i HT Hi) as [k [[a b] [Hk [Hx Hu]]]].
    exists k, (slice_of a b). split; [rewrite nth_error_map, Hk; reflexivity|].
    pose proof (tiles_in _ _ _ _ HT (nth_error_In _ _ Hk)) as Hb; cbn [fst snd] in Hb.
    split; [apply slice_positions_inner; [lia|lia|exact Hx]|].
    intros k' s' Hk' Hs'. rewrite nth_error_map in Hk'.
    destruct (nth_error (runs 0 sz) k') as [[a' b']|] eqn:E; [|discriminate].
    cbn [option_map fst snd] in Hk'. injection Hk' as <-.
    pose proof (tiles_in _ _ _ _ HT (nth_error_In _ _ E)) as Hb'; cbn [fst snd] in Hb'.
    apply slice_positions_inner in Hs'; [|lia|lia].
    eapply Hu; [exact E|exact Hs'].
Qed.

Lemma cut_sections_has_empty : forall sizes (l : list Z), (zlen l < zlen sizes) -> (forall x, In x sizes -> 0 <= x) ->
  zsum sizes = zlen l -> In [] (cut_sections sizes l).
Proof.
  induction sizes as [|x t IH]; intros l Hlen Hp Hs.
  - unfold zlen in Hlen; cbn in Hlen; lia.
  - cbn [cut_sections]. rewrite zsum_cons in Hs. pose proof (Hp x (or_introl eq_refl)) as Hx.
    destruct (Z.eq_dec x 0) as [->|Hne]; [left; reflexivity|right].
    assert (Hl : zlen (skipn (Z.to_nat x) l) = zlen l - x).
    { unfold zlen; rewrite skipn_length.
      pose proof (zsum_nonneg t ltac:(intros; apply Hp; right; assumption)). unfold zlen in *; lia. }
    apply IH; [rewrite zlen_cons in Hlen; lia|intros; apply Hp; right; assumption|lia].
Qed.

Lemma map_res_err {A B} (f : A -> res B) l x e :
  In x l -> f x = Err e -> exists e', map_res f l = Err e'.
Proof.
  induction l as [|y t IH]; intros Hin Hf; [destruct Hin|].
  cbn [map_res]. destruct (f y) as [z|e1] eqn:Hy; cbn [bind]; [|eexists; reflexivity].
  destruct Hin as [->|Hin]; [congruence|].
  destruct (IH Hin Hf) as [e' ->]; eexists; reflexivity.
Qed.

Theorem create_slices_raises len size : 0 <= len -> size <= 0 \/ len < size ->
  exists e, create_slices len size = Err e.
Proof.
  intros Hl [H|H]; unfold create_slices, array_split.
  - replace (size <=? 0) with true by lia. eexists; reflexivity.
  - destruct (size <=? 0) eqn:E; [eexists; reflexivity|]. cbn [bind].
    rewrite zrange_zlen. replace (Z.max 0 (len - 0)) with len by lia.
    fold (section_sizes len size).
    apply map_res_err with (x := []) (e := ValueError); [|reflexivity].
    apply cut_sections_has_empty.
    + rewrite zrange_zlen. unfold zlen; rewrite section_sizes_length by lia. lia.
    + intros x Hx. apply in_section_sizes in Hx. pose proof (Z.div_pos len size); lia.
    + rewrite section_sizes_sum, zrange_zlen by lia; lia.
Qed.

Lemma exactly_one_app_l {A} (P : A -> Prop) l1 l2 :
  ExactlyOne P l1 -> (forall x, In x l2 -> ~ P x) -> ExactlyOne P (l1 ++ l2).
Proof.
  intros [k [x [Hk [Hx Hu]]]] Hn. exists k, x.
  assert (Hlt : (k < List.length l1)%nat) by (apply nth_error_Some; rewrite Hk; discriminate).
  split; [rewrite nth_error_app1; assumption|]. split; [exact Hx|].
  intros k' x' Hk' Hx'. destruct (Nat.lt_ge_cases k' (List.length l1)) as [H|H].
  - rewrite nth_error_app1 in Hk' by exact H. eapply Hu; eassumption.
  - rewrite nth_error_app2 in Hk' by exact H. apply nth_error_In in Hk'. exfalso; eapply Hn; eassumption.
Qed.

Lemma exactly_one_app_r {A} (P : A -> Prop) l1 l2 :
  ExactlyOne P l2 -> (forall x, In x l1 -> ~ P x) -> ExactlyOne P (l1 ++ l2).
Proof.
  intros [k [x [Hk [Hx Hu]]]] Hn. exists (List.length l1 + k)%nat, x.
  split; [rewrite nth_error_app2, Nat.add_comm, Nat.add_sub by lia; exact Hk|]. split; [exact Hx|].
  intros k' x' Hk' Hx'. destruct (Nat.lt_ge_cases k' (List.length l1)) as [H|H].
  - rewrite nth_error_app1 in Hk' by exact H. apply nth_error_In in Hk'. exfalso; eapply Hn; eassumption.
  - rewrite nth_error_app2 in Hk' by exact H. specialize (Hu _ _ Hk' Hx'). lia.
Qed.

Lemma exactly_one_map {A B} (f : A -> B) (P : B -> Prop) l :
  ExactlyOne (fun x => P (f x)) l -> ExactlyOne P (map f l).
Proof.
  intros [k [x [Hk [Hx Hu]]]]. exists k, (f x). split; [rewrite nth_error_map, Hk; reflexivity|].
  split; [exact Hx|]. intros k' x' Hk' Hx'. rewrite nth_error_map in Hk'.
  destruct (nth_error l k') as [y|] eqn:E; [|discriminate]. injection Hk' as <-. eapply Hu; eassumption.
Qed.

(** A product of two exactly-one decompositions. *)
Lemma exactly_one_flat_map {A B} (P : A -> Prop) (R : B -> Prop) (l : list A)
  (g : A -> list B) :
  ExactlyOne P l ->
  (forall x, In x l -> P x -> ExactlyOne R (g x)) ->
  (forall x y, In x l -> ~ P x -> In y (g x) -> ~ R y) ->
  ExactlyOne R (flat_map g l).
Proof.
  intros [k [x [Hk [Hx Hu]]]] Hin Hout.
  revert k Hk Hu. induction l as [|y t IH]; intros k Hk Hu; [destruct k; discriminate|].
  cbn [flat_map]. destruct k as [|k].
  - injection Hk as ->. apply exactly_one_app_l; [apply Hin; [left; reflexivity|exact Hx]|].
    intros z Hz HR. apply in_flat_map in Hz. destruct Hz as [w [Hw Hz]].
    apply (Hout w z); [right; exact Hw| |exact Hz|exact HR].
    intros HP. apply In_nth_error in Hw. destruct Hw as [m Hm]. specialize (Hu (S m) w Hm HP). discriminate.
  - apply exactly_one_app_r.
    + apply IH with (k := k).
      * intros z Hz; apply Hin; right; exact Hz.
      * intros z w Hz; apply Hout; right; exact Hz.
      * exact Hk.
      * intros k' x' Hk' Hx'. specialize (Hu (S k') x' Hk' Hx'). congruence.
    + intros z Hz HR. apply (Hout y z); [left; reflexivity| |exact Hz|exact HR].
      intros HP. specialize (Hu 0%nat y eq_refl HP). discriminate.
Qed.

Lemma list_product_cells : forall shape ls idx,
  Forall2 (fun n sl => forall i, 0 <= i < n -> ExactlyOne (fun s => In i (slice_positions n s)) sl) shape ls ->
  IndexOf shape idx ->
  ExactlyOne (fun cell => CellSelects shape cell idx) (list_product ls).
Proof.
  induction shape as [|n shape IH]; intros ls idx HF Hidx.
  - inversion HF; subst. inversion Hidx; subst. cbn [list_product].
    exists 0%nat, []. split; [reflexivity|]. split; [exact I|].
    intros [|k'] x' Hk' _; [reflexivity|destruct k'; discriminate].
  - inversion HF as [|? sl ? ls' Hsl HF']; subst. inversion Hidx as [|? i ? idx' Hi Hidx']; subst.
    cbn [list_product].
    apply exactly_one_flat_map with (P := fun s => In i (slice_positions n s)).
    + apply Hsl; exact Hi.
    + intros s _ Hs. apply exactly_one_map. cbn [CellSelects].
      destruct (IH ls' idx' HF' Hidx') as [k [c [Hk [Hc Hu]]]].
      exists k, c. split; [exact Hk|]. split; [split; [exact Hs|exact Hc]|].
      intros k' c' Hk' [_ Hc']. eapply Hu; eassumption.
    + intros s c Hin Hn Hc HR. apply in_map_iff in Hc. destruct Hc as [c' [<- _]].
      cbn [CellSelects] in HR. apply Hn; apply HR.
Qed.

Lemma list_product_length {A} : forall (ls : list (list A)),
  zlen (list_product ls) = zprod (map zlen ls).
Proof.
  induction ls as [|l t IH]; [reflexivity|]. cbn [list_product map zprod]. rewrite <- IH.
  induction l as [|x l' IHl]; [reflexivity|].
  cbn [flat_map]. rewrite zlen_app, zlen_map, IHl, zlen_cons. lia.
Qed.

Lemma nd_slice_lists_spec : forall shape splits,
  Forall2 (fun n s => 1 <= s <= n) shape splits ->
  exists ls, nd_slice_lists splits shape = Ok ls /\
    Forall2 (fun n sl => forall i, 0 <= i < n -> ExactlyOne (fun s => In i (slice_positions n s)) sl) shape ls /\
    map zlen ls = splits.
Proof.
  induction shape as [|n shape IH]; intros splits HF; inversion HF as [|? s ? splits' Hs HF']; subst.
  - exists []; split; [reflexivity|]; split; [constructor|reflexivity].
  - destruct (IH _ HF') as [ls [E [HF2 Hm]]].
    destruct (create_slices_spec n s Hs) as [sl [Es [Hlen [_ [_ Hone]]]]].
    cbn [nd_slice_lists]. rewrite Es; cbn [bind]. rewrite E; cbn [bind].
    eexists; split; [reflexivity|]. split; [constructor; assumption|]. cbn [map]. congruence.
Qed.

Theorem create_nd_slices_spec shape splits :
  Forall2 (fun n s => 1 <= s <= n) shape splits ->
  exists cells, create_nd_slices splits shape = Ok cells /\
    zlen cells = zprod splits /\
    forall idx, IndexOf shape idx -> ExactlyOne (fun cell => CellSelects shape cell idx) cells.
Proof.
  intros HF. destruct (nd_slice_lists_spec _ _ HF) as [ls [E [HF2 Hm]]].
  unfold create_nd_slices. rewrite E; cbn [bind]. eexists; split; [reflexivity|].
  split; [rewrite list_product_length, Hm; reflexivity|].
  intros idx Hidx. apply list_product_cells; assumption.
Qed.

Theorem create_nd_slices_raises : forall shape splits,
  (exists k n s, nth_error shape k = Some n /\ nth_error splits k = Some s /\ 0 <= n /\ (s <= 0 \/ n < s)) ->
  exists e, create_nd_slices splits shape = Err e.
Proof.
  intros shape splits [k [n [s [Hn [Hs [Hpos Hbad]]]]]].
  unfold create_nd_slices.
  assert (exists e, nd_slice_lists splits shape = Err e) as [e ->]; [|eexists; reflexivity].
  revert splits k Hn Hs. induction shape as [|n0 shape IH]; intros [|s0 splits] k Hn Hs;
    try (destruct k; discriminate).
  cbn [nd_slice_lists]. destruct k as [|k].
  - injection Hn as ->; injection Hs as ->.
    destruct (create_slices_raises n s Hpos Hbad) as [e ->]. eexists; reflexivity.
  - destruct (create_slices n0 s0) as [sl|e]; cbn [bind]; [|eexists; reflexivity].
    destruct (IH splits k Hn Hs) as [e ->]. eexists; reflexivity.
Qed.

(** get_global_to_local_slice *)
Theorem global_to_local_spec start stop lower upper :
  start < stop -> lower < upper ->
  match get_global_to_local_slice (Some start) (Some stop) (lower, upper) with
  | Ok (Some (a, b)) =>
      0 <= a < b /\ b <= upper - lower /\
      forall i, (a <= i < b) <-> (start <= lower + i < stop /\ lower <= lower + i < upper)
  | Ok None => forall g, ~ (start <= g < stop /\ lower <= g < upper)
  | Err _ => False
  end.
Proof.
  intros H1 H2. unfold get_global_to_local_slice.
  destruct (start >=? upper) eqn:E1; destruct (stop <=? lower) eqn:E2.
  - intros g; lia.
  - destruct (upper <? stop); intros g; lia.
  - intros g; lia.
  - destruct (start <? lower) eqn:E3; destruct (upper <? stop) eqn:E4;
      (split; [lia|split; [lia|intros i; lia]]).
Qed.

(** hgather *)
Lemma write_at_app {A} (done : list (option A)) e rest :
  (List.length e <= List.length rest)%nat ->
  write_at (done ++ rest) (zlen done) e = (done ++ map Some e) ++ skipn (List.length e) rest.
Proof.
  intros H. unfold write_at, zlen. rewrite Nat2Z.id.
  rewrite firstn_app, Nat.sub_diag, firstn_all, firstn_O, app_nil_r.
  rewrite skipn_app, skipn_all2 by lia.
  replace (List.length done + List.length e - List.length done)%nat with (List.length e) by lia.
  rewrite app_nil_l, app_assoc. reflexivity.
Qed.

Lemma skipn_repeat {A} (x : A) : forall k m, skipn k (repeat x m) = repeat x (m - k).
Proof.
  induction k as [|k IH]; intros m; [rewrite Nat.sub_0_r; reflexivity|].
  destruct m as [|m]; [reflexivity|]. cbn [repeat skipn]. rewrite IH. reflexivity.
Qed.

Lemma hgather_loop_spec {A} : forall (elements : list (list A)) (done : list (option A)) m,
  Z.of_nat m = zsum (map zlen elements) ->
  hgather_loop elements (zlen done) (done ++ repeat None m) = done ++ map Some (concat elements).
Proof.
  induction elements as [|e t IH]; intros done m Hm; cbn [hgather_loop concat map].
  - cbn in Hm. replace m with 0%nat by lia. reflexivity.
  - cbn [map] in Hm. rewrite zsum_cons in Hm.
    assert (Ht : 0 <= zsum (map zlen t)).
    { apply zsum_nonneg. intros x Hx. apply in_map_iff in Hx. destruct Hx as [l [<- _]]. apply zlen_nonneg. }
    destruct (Z.eqb_spec (zlen e) 0) as [E|E].
    + destruct e as [|x e']; [|rewrite zlen_cons in E; pose proof (zlen_nonneg e'); lia].
      cbn [app]. apply IH. unfold zlen in Hm at 1. cbn in Hm. lia.
    + rewrite write_at_app by (rewrite repeat_length; unfold zlen in Hm at 1; lia).
      rewrite skipn_repeat.
      replace (zlen done + zlen e) with (zlen (done ++ map Some e)) by (rewrite zlen_app, zlen_map; reflexivity).
      rewrite IH by (unfold zlen in Hm at 1; lia).
      rewrite map_app, app_assoc. reflexivity.
Qed.

Theorem hgather_spec {A} (elements : list (list A)) :
  elements <> [] -> hgather elements = Ok (map Some (concat elements)).
Proof.
  intros H. unfold hgather. destruct elements as [|e t]; [congruence|].
  f_equal. apply (hgather_loop_spec (e :: t) []).
  rewrite Z2Nat.id; [reflexivity|].
  apply zsum_nonneg. intros x Hx. apply in_map_iff in Hx. destruct Hx as [l [<- _]]. apply zlen_nonneg.
Qed.

Lemma rank_bounds_partition n s : 0 <= n -> 1 <= s ->
  exists f : Z -> option (Z * Z),
    (forall r, 0 <= r -> get_rank_bounds n s r = Ok (f r)) /\
    EvenSplit n s f /\
    (forall r, 0 <= r < s -> (f r = None <-> n <= r)) /\
    (forall r, s <= r -> f r = None).
Proof.
  intros Hn Hs. exists (rb_fun n s).
  assert (Hok : forall r, 0 <= r -> get_rank_bounds n s r = Ok (rb_fun n s r)).
  { intros r Hr. unfold rb_fun. destruct (get_rank_bounds_total n s r Hs Hn Hr) as [b [-> _]]. reflexivity. }
  split; [exact Hok|]. split; [apply even_split; assumption|]. split.
  - intros r Hr. rewrite <- (rb_none_iff n s r Hs Hn Hr). rewrite Hok by lia.
    split; [intros ->; reflexivity|congruence].
  - intros r Hr. destruct (get_rank_bounds_total n s r Hs Hn ltac:(lia)) as [b [E Hb]].
    rewrite Hok in E by lia. injection E as ->. apply Hb; exact Hr.
Qed.

Lemma global_to_local_none start stop b :
  start = None \/ stop = None -> get_global_to_local_slice start stop b = Err ValueError.
Proof. intros [->| ->]; [reflexivity|destruct start; reflexivity]. Qed.
