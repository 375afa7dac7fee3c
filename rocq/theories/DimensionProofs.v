From Verif Require Import Py Lib Spec PartitionModel PartitionSpec PartitionProofs DimensionModel DimensionSpec.

Lemma list_min_ok l : l <> [] -> exists m, list_min l = Ok m /\ In m l /\ forall x, In x l -> m <= x.
Proof.
  destruct l as [|x t]; [congruence|intros _].
  cbn [list_min]. exists (fold_left Z.min t x). split; [reflexivity|].
  revert x. induction t as [|y t IH]; intros x; cbn [fold_left].
  - split; [left; reflexivity|intros z [<-|[]]; lia].
  - destruct (IH (Z.min x y)) as [H1 H2]. split.
    + destruct H1 as [H1|H1]; [|right; right; exact H1].
      destruct (Z.min_spec x y) as [[_ E]|[_ E]]; rewrite E in H1 at 1; [left|right; left]; exact H1.
    + intros z [<-|[<-|Hz]].
      * pose proof (H2 _ (or_introl eq_refl)); lia.
      * pose proof (H2 _ (or_introl eq_refl)); lia.
      * apply H2; right; exact Hz.
Qed.

Lemma list_max_ok l : l <> [] -> exists m, list_max l = Ok m /\ In m l /\ forall x, In x l -> x <= m.
Proof.
  destruct l as [|x t]; [congruence|intros _].
  cbn [list_max]. exists (fold_left Z.max t x). split; [reflexivity|].
  revert x. induction t as [|y t IH]; intros x; cbn [fold_left].
  - split; [left; reflexivity|intros z [<-|[]]; lia].
  - destruct (IH (Z.max x y)) as [H1 H2]. split.
    + destruct H1 as [H1|H1]; [|right; right; exact H1].
      destruct (Z.max_spec x y) as [[_ E]|[_ E]]; rewrite E in H1 at 1; [right; left|left]; exact H1.
    + intros z [<-|[<-|Hz]].
      * pose proof (H2 _ (or_introl eq_refl)); lia.
      * pose proof (H2 _ (or_introl eq_refl)); lia.
      * apply H2; right; exact Hz.
Qed.

Lemma increasing_tail x l : Increasing (x :: l) -> Increasing l /\ forall y, In y l -> x < y.
Proof.
  revert x; induction l as [|y t IH]; intros x H; [split; [exact I|intros y []]|].
  cbn [Increasing] in H. destruct H as [H1 H2]. split; [exact H2|].
  intros z [<-|Hz]; [exact H1|]. apply IH in H2. destruct H2 as [_ H2]. specialize (H2 z Hz). lia.
Qed.

Lemma contiguous_zrange : forall l x, Increasing (x :: l) -> any_diff_gt1 (x :: l) = false ->
  exists b, x :: l = zrange x b /\ x < b.
Proof.
  induction l as [|y t IH]; intros x Hi Hd.
  - exists (x + 1). split; [|lia]. rewrite zrange_cons, zrange_nil by lia. reflexivity.
  - cbn [any_diff_gt1] in Hd. apply orb_false_iff in Hd. destruct Hd as [Hd1 Hd2].
    cbn [Increasing] in Hi. destruct Hi as [Hi1 Hi2].
    destruct (IH y Hi2 Hd2) as [b [E Hb]].
    exists b. assert (y = x + 1) by lia. subst y. split; [|lia].
    rewrite E. rewrite (zrange_cons x b) by lia. reflexivity.
Qed.

Lemma list_min_max_zrange a b : a < b ->
  list_min (zrange a b) = Ok a /\ list_max (zrange a b) = Ok (b - 1).
Proof.
  intros H. pose proof (optimal_zrange a b H) as E. unfold get_optimal_slice_nocheck in E.
  destruct (list_min (zrange a b)) as [m|]; cbn [bind] in E; [|discriminate].
  destruct (list_max (zrange a b)) as [m'|]; cbn [bind] in E; [|discriminate].
  unfold slice_of in E. injection E as -> E. split; [reflexivity|f_equal; lia].
Qed.

Lemma firstn_skipn_nth {A} (l : list A) a k :
  firstn (S k) (skipn a l) = match nth_error l a with Some x => x :: firstn k (skipn (S a) l) | None => [] end.
Proof.
  revert l; induction a as [|a IH]; intros [|x t]; cbn [skipn nth_error firstn]; try reflexivity.
  apply IH.
Qed.

Lemma map_res_index_zrange {A} (l : list A) : forall k a, 0 <= a -> a + Z.of_nat k <= zlen l ->
  map_res (py_index l) (zrange a (a + Z.of_nat k)) = Ok (firstn k (skipn (Z.to_nat a) l)).
Proof.
  induction k as [|k IH]; intros a Ha Hk.
  - rewrite zrange_nil by lia. reflexivity.
  - rewrite zrange_cons by lia. cbn [map_res].
    rewrite firstn_skipn_nth. unfold py_index at 1.
    replace (a <? 0) with false by lia. rewrite ?orb_false_l.
    replace ((a <? 0) || (zlen l <=? a)) with false by (unfold zlen in *; lia).
    replace (a <? 0) with false by lia. cbn [orb].
    destruct (nth_error l (Z.to_nat a)) as [x|] eqn:E.
    + replace (zlen l <=? a) with false by (unfold zlen in *; lia). cbn [bind].
      replace (a + Z.of_nat (S k)) with ((a + 1) + Z.of_nat k) by lia.
      rewrite IH by lia. cbn [bind]. do 3 f_equal. replace (Z.to_nat (a + 1)) with (S (Z.to_nat a)) by lia. reflexivity.
    + apply nth_error_None in E. unfold zlen in *; lia.
Qed.

Lemma py_slice_index_zrange {A} (l : list A) a b :
  0 <= a <= b -> b <= zlen l ->
  map_res (py_index l) (zrange a b) = Ok (py_slice l (slice_of a b)).
Proof.
  intros H1 H2.
  pose proof (map_res_index_zrange l (Z.to_nat (b - a)) a ltac:(lia) ltac:(lia)) as E.
  replace (a + Z.of_nat (Z.to_nat (b - a))) with b in E by lia. rewrite E.
  unfold py_slice, slice_bounds, slice_of, clip_end; cbn [sl_start sl_stop].
  replace (a <? 0) with false by lia. replace (b <? 0) with false by lia.
  rewrite !Z.min_l by lia. reflexivity.
Qed.

(** C14/C15: formatting an in-range slice selects the same elements. *)
Lemma format_select {A} (l : list A) raw :
  InRange (zlen l) raw -> 
  exists s, get_formatted_slice1 raw = Ok s /\ slc_select l s = py_select l raw.
Proof.
  intros H. destruct raw as [i|s|idx|m|]; cbn [get_formatted_slice1 format_singleton].
  - eexists; split; [reflexivity|]. cbn [slc_select py_select InRange] in *.
    unfold py_index, py_slice, slice_bounds, slice_of, clip_end; cbn [sl_start sl_stop].
    pose proof (zlen_nonneg l) as Hn.
    destruct (i <? 0) eqn:E.
    + replace (i + 1 <? 0) with true by lia. rewrite !Z.max_r by lia.
      replace ((i + zlen l <? 0) || (zlen l <=? i + zlen l)) with false by lia.
      replace (Z.to_nat (i + 1 + zlen l - (i + zlen l))) with 1%nat by lia.
      rewrite firstn_skipn_nth.
      destruct (nth_error l (Z.to_nat (i + zlen l))) eqn:E2; [reflexivity|].
      apply nth_error_None in E2. unfold zlen in *; lia.
    + replace (i + 1 <? 0) with false by lia. rewrite !Z.min_l by lia.
      replace ((i <? 0) || (zlen l <=? i)) with false by lia.
      replace (Z.to_nat (i + 1 - i)) with 1%nat by lia.
      rewrite firstn_skipn_nth.
      destruct (nth_error l (Z.to_nat i)) eqn:E2; [reflexivity|].
      apply nth_error_None in E2. unfold zlen in *; lia.
  - eexists; split; reflexivity.
  - cbn [InRange] in H. destruct H as [Hne [Hinc Hr]].
    unfold get_optimal_slice_from_array. destruct (any_diff_gt1 idx) eqn:E; [eexists; split; reflexivity|].
    destruct idx as [|x t]; [congruence|].
    destruct (contiguous_zrange t x Hinc E) as [b [Eb Hb]]. rewrite Eb in *.
    destruct (list_min_max_zrange x b Hb) as [-> ->]. cbn [bind].
    eexists; split; [reflexivity|]. cbn [slc_select py_select].
    replace (b - 1 + 1) with b by lia. symmetry; apply py_slice_index_zrange.
    + rewrite Forall_forall in Hr. specialize (Hr x). rewrite <- Eb in Hr. specialize (Hr (or_introl eq_refl)). lia.
    + rewrite Forall_forall in Hr. specialize (Hr (b - 1)).
      assert (In (b - 1) (zrange x b)) by (apply in_zrange; lia). specialize (Hr H). lia.
  - eexists; split; reflexivity.
  - eexists; split; [reflexivity|]. cbn [slc_select py_select].
    unfold py_slice, slice_none, slice_bounds, clip_end; cbn [sl_start sl_stop].
    rewrite Z.sub_0_r. unfold zlen; rewrite Nat2Z.id. cbn [Z.to_nat skipn].
    rewrite firstn_all. reflexivity.
Qed.

Lemma py_slice_all {A} (l : list A) : py_slice l slice_none = l.
Proof.
  unfold py_slice, slice_none, slice_bounds, clip_end; cbn [sl_start sl_stop].
  rewrite Z.sub_0_r. unfold zlen; rewrite Nat2Z.id. cbn [Z.to_nat skipn]. apply firstn_all.
Qed.

Lemma bool_select_length {A B} : forall (m : list bool) (l : list A) (l' : list B),
  List.length l = List.length l' -> List.length (bool_select m l) = List.length (bool_select m l').
Proof.
  induction m as [|b m IH]; intros l l' H; [reflexivity|].
  destruct l as [|x t]; destruct l' as [|x' t']; try discriminate; [reflexivity|].
  cbn [List.length] in H. cbn [bool_select]. destruct b; cbn [List.length]; rewrite (IH t t') by lia; reflexivity.
Qed.

Lemma where_true_select : forall m k a b, b - a = zlen m -> 
  map (fun i => i + (a - k)) (where_true m k) = bool_select m (zrange a b).
Proof.
  induction m as [|x m IH]; intros k a b H; [reflexivity|].
  rewrite zlen_cons in H. pose proof (zlen_nonneg m).
  cbn [where_true]. rewrite (zrange_cons a b) by lia. cbn [bool_select].
  destruct x; cbn [map].
  - f_equal; [lia|]. rewrite <- (IH (k + 1) (a + 1) b) by lia. apply map_ext; intros; lia.
  - rewrite <- (IH (k + 1) (a + 1) b) by lia. apply map_ext; intros; lia.
Qed.

Lemma map_res_length {A B} (f : A -> res B) : forall l l', map_res f l = Ok l' -> zlen l' = zlen l.
Proof.
  intros l l' H. apply map_res_ok in H. unfold zlen. rewrite (Forall2_len _ _ _ H). reflexivity.
Qed.

Lemma py_index_zrange_lookup a b i : 0 <= i < b - a -> py_index (zrange a b) i = Ok (i + a).
Proof.
  intros H. unfold py_index. replace (i <? 0) with false by lia.
  rewrite zrange_zlen. replace ((i <? 0) || (Z.max 0 (b - a) <=? i)) with false by lia.
  rewrite nth_error_zrange by lia. f_equal. lia.
Qed.

Lemma zlen_py_slice_bounds {A} (l : list A) a b : 0 <= a <= b -> b <= zlen l ->
  zlen (firstn (Z.to_nat (b - a)) (skipn (Z.to_nat a) l)) = b - a.
Proof.
  intros H1 H2. unfold zlen in *. rewrite firstn_length, skipn_length. lia.
Qed.

(** Normal form of an in-range two-ended slice. *)
Lemma in_range_bounds n a b :
  (0 <= a <= b /\ b <= n) \/ (- n <= a <= b /\ b < 0) \/ (0 <= a /\ - n <= b < 0 /\ a <= n + b) ->
  let p := slice_bounds n (slice_of a b) in
  0 <= fst p <= snd p /\ snd p <= n /\
  fst p = (if a <? 0 then n + a else a) /\ snd p = (if b <? 0 then n + b else b).
Proof.
  intros H; unfold slice_bounds, slice_of, clip_end; cbn [sl_start sl_stop fst snd].
  destruct (a <? 0) eqn:E1; destruct (b <? 0) eqn:E2; lia.
Qed.

Lemma zlen_map_res_index_ok {A} (l : list A) idx : Forall (fun i => 0 <= i < zlen l) idx ->
  exists l', map_res (py_index l) idx = Ok l' /\ zlen l' = zlen idx.
Proof.
  induction idx as [|i t IH]; intros H.
  - exists []; split; reflexivity.
  - inversion H as [|? ? Hi Ht]; subst. destruct (IH Ht) as [l' [E Hl]].
    cbn [map_res]. unfold py_index at 1. replace (i <? 0) with false by lia.
    replace ((i <? 0) || (zlen l <=? i)) with false by lia.
    destruct (nth_error l (Z.to_nat i)) as [x|] eqn:En.
    + cbn [bind]. rewrite E; cbn [bind]. exists (x :: l'); split; [reflexivity|]. rewrite !zlen_cons; lia.
    + apply nth_error_None in En. unfold zlen in *; lia.
Qed.

Definition src_arg (s : option srcidx) : srcarg := match s with None => SrcNone | Some x => SrcVal x end.

Lemma set_size_ok d v src :
  0 <= v -> (match src with None => True | Some s => zlen (den s) = v /\ match s with SrcBounds a b => a <= b | _ => True end end) ->
  exists d', set_size d (Some v) (src_arg src) = Ok d' /\ dim_len d' = v /\ d_src d' = src /\
    d_name d' = d_name d /\ d_dist d' = d_dist d /\ d_empty d' = d_empty d /\
    d_bounds_local d' = None /\ d_bounds_global d' = d_bounds_global d.
Proof.
  intros Hv Hs. destruct d as [nm sz sc sr di em bl bg].
  assert (Hc : forall sz' d1, d1 = mkdim nm sz' (Some v) sr di em None bg -> dim_len d1 = v ->
     set_src_idx d1 src = Ok (mkdim nm sz' (Some v) src di em None bg)).
  { intros sz' d1 -> Hl. unfold set_src_idx. rewrite Hl.
    destruct src as [[a b|l]|]; cbn [den] in Hs; [|  |reflexivity].
    - rewrite zrange_zlen in Hs. replace (b - a =? v) with true by lia. reflexivity.
    - replace (zlen l =? v) with true by lia. reflexivity. }
  unfold set_size; cbn [d_size d_name d_src d_dist d_empty d_bounds_global].
  replace (match src_arg src with SrcNone => None | SrcAuto => Some (SrcBounds 0 v) | SrcVal s => Some s end) with src
    by (destruct src; reflexivity).
  rewrite (Hc (match sz with None => None | Some _ => Some v end) _ eq_refl)
    by (unfold dim_len; cbn [d_size d_size_current]; destruct sz; reflexivity).
  cbn [bind d_size d_size_current].
  exists (mkdim nm (match sz with None => None | Some _ => Some v end) (Some v) src di em None bg).
  split; [destruct di; [destruct sz; reflexivity|reflexivity]|].
  cbn [d_src d_name d_dist d_empty d_bounds_local d_bounds_global].
  split; [unfold dim_len; cbn [d_size d_size_current]; destruct sz; reflexivity|].
  repeat split.
Qed.

Lemma in_range_srcs_order n s : zlen (den s) = n -> 0 < n -> match s with SrcBounds a b => b - a = n | _ => True end.
Proof. destruct s as [a b|l]; cbn [den]; intros H Hn; [rewrite zrange_zlen in H; lia|exact I]. Qed.

(** The core of C12/C13 for formatted slices. *)
Lemma getitem_main_slice d l a b :
  Represents d l -> 0 < zlen l ->
  (0 <= a <= b /\ b <= zlen l) \/ (- zlen l <= a <= b /\ b < 0) \/ (0 <= a /\ - zlen l <= b < 0 /\ a <= zlen l + b) ->
  exists d', getitem_main d (SSlice (slice_of a b)) = Ok d' /\ Represents d' (py_slice l (slice_of a b)) /\
    (d_src d' = None <-> d_src d = None) /\
    d_name d' = d_name d /\ d_dist d' = d_dist d /\ d_empty d' = d_empty d /\ d_bounds_local d' = None.
Proof.
  intros [Hlen Hsrc] Hpos Hr.
  destruct (in_range_bounds _ _ _ Hr) as [Hp1 [Hp2 [Hp3 Hp4]]].
  set (p := slice_bounds (zlen l) (slice_of a b)) in *.
  assert (Eslice : py_slice l (slice_of a b) = firstn (Z.to_nat (snd p - fst p)) (skipn (Z.to_nat (fst p)) l)).
  { unfold py_slice. fold p. destruct p; reflexivity. }
  assert (Elen : getitem_length (dim_len d) (SSlice (slice_of a b)) = snd p - fst p).
  { rewrite <- Hlen. unfold getitem_length, slice_of; cbn [sl_start sl_stop].
    rewrite Hp3, Hp4. destruct (a <? 0) eqn:E1; destruct (b <? 0) eqn:E2;
    destruct (b - a >? zlen l) eqn:E3; match goal with |- context [if ?c then _ else _] => destruct c eqn:E4 end; lia. }
  unfold getitem_main. rewrite Elen.
  assert (Hsl : exists src', slice_source_index (SSlice (slice_of a b)) (d_src d) = Ok src' /\
     (src' = None <-> d_src d = None) /\
     match src' with None => True | Some s => den s = py_slice l (slice_of a b) /\ zlen (den s) = snd p - fst p /\
        match s with SrcBounds a b => a <= b | _ => True end end).
  { unfold slice_source_index. change (pyslice_eqb (slice_of a b) slice_none) with false. cbv iota.
    destruct (d_src d) as [[x y|f]|].
    - cbn [sl_start sl_stop slice_of]. cbn [den] in Hsrc.
      assert (Hxy : y - x = zlen l) by (rewrite <- Hsrc in *; rewrite zrange_zlen in *; lia).
      eexists. split; [reflexivity|]. split; [split; discriminate|].
      set (lo' := if a <? 0 then y - x + a else if a >? 0 then a else 0).
      set (hi' := if b <? 0 then y - x + b else if b <? y - x then b else y - x).
      assert (Elo : lo' = fst p) by (rewrite Hp3; unfold lo'; destruct (a <? 0) eqn:E1; destruct (a >? 0) eqn:E2; lia).
      assert (Ehi : hi' = snd p) by (rewrite Hp4; unfold hi'; destruct (b <? 0) eqn:E1; destruct (b <? y - x) eqn:E2; lia).
      rewrite Elo, Ehi. cbn [den]. split; [|split; [rewrite zrange_zlen; lia|lia]].
      rewrite Eslice. subst l. rewrite firstn_skipn_zrange by lia. f_equal; lia.
    - eexists. split; [reflexivity|]. split; [split; discriminate|].
      cbn [den] in *. subst f. split; [reflexivity|]. split; [|exact I].
      rewrite Eslice. apply zlen_py_slice_bounds; lia.
    - exists None. split; [reflexivity|]. split; [tauto|exact I]. }
  destruct Hsl as [src' [-> [Hn Hs']]]. cbn [bind].
  destruct (set_size_ok d (snd p - fst p) src') as [d' [E [E1 [E2 [E3 [E4 [E5 [E6 E7]]]]]]]]; [lia|destruct src' as [s|]; [tauto|exact I]|].
  unfold src_arg in E. rewrite E. exists d'. split; [reflexivity|]. split.
  - split; [rewrite E1, Eslice; apply zlen_py_slice_bounds; lia|].
    rewrite E2. destruct src' as [s|]; [apply Hs'|exact I].
  - rewrite E2. repeat split; try assumption; apply Hn.
Qed.

Lemma getitem_main_all d l :
  Represents d l -> 0 < zlen l ->
  exists d', getitem_main d (SSlice slice_none) = Ok d' /\ Represents d' l /\
    (d_src d' = None <-> d_src d = None) /\
    d_name d' = d_name d /\ d_dist d' = d_dist d /\ d_empty d' = d_empty d /\ d_bounds_local d' = None.
Proof.
  intros [Hlen Hsrc] Hpos. unfold getitem_main, getitem_length; cbn [sl_start sl_stop slice_none].
  replace (dim_len d <? 0) with false by lia.
  unfold slice_source_index. change (pyslice_eqb slice_none slice_none) with true. cbv iota. cbn [bind].
  destruct (set_size_ok d (dim_len d) (d_src d)) as [d' [E [E1 [E2 [E3 [E4 [E5 [E6 E7]]]]]]]]; [lia| |].
  - destruct (d_src d) as [s|]; [|exact I]. subst l. split; [exact Hlen|].
    pose proof (in_range_srcs_order _ s eq_refl Hpos). destruct s; [lia|exact I].
  - unfold src_arg in E. rewrite E. exists d'. split; [reflexivity|]. split.
    + split; [congruence|rewrite E2; exact Hsrc].
    + rewrite E2. repeat split; tauto.
Qed.

Lemma getitem_main_ints d l idx :
  Represents d l -> 0 < zlen l -> Forall (fun i => 0 <= i < zlen l) idx ->
  exists d' l', getitem_main d (SInts idx) = Ok d' /\ map_res (py_index l) idx = Ok l' /\ Represents d' l' /\
    (d_src d' = None <-> d_src d = None) /\
    d_name d' = d_name d /\ d_dist d' = d_dist d /\ d_empty d' = d_empty d /\ d_bounds_local d' = None.
Proof.
  intros [Hlen Hsrc] Hpos Hr.
  destruct (zlen_map_res_index_ok l idx Hr) as [l' [El Hl']].
  unfold getitem_main, getitem_length.
  replace (zlen idx <? 0) with false by (pose proof (zlen_nonneg idx); lia).
  assert (Hs : exists src', slice_source_index (SInts idx) (d_src d) = Ok src' /\ (src' = None <-> d_src d = None) /\
     match src' with None => True | Some s => den s = l' /\ match s with SrcBounds _ _ => False | _ => True end end).
  { cbn [slice_source_index]. destruct (d_src d) as [[x y|f]|].
    - eexists; split; [reflexivity|]. split; [split; discriminate|]. cbn [den] in *. split; [|exact I].
      subst l. assert (E : map_res (py_index (zrange x y)) idx = Ok (map (fun i => i + x) idx)).
      { apply map_res_all. intros i Hi. rewrite Forall_forall in Hr. specialize (Hr i Hi).
        rewrite zrange_zlen in *. apply py_index_zrange_lookup; lia. }
      congruence.
    - cbn [den] in Hsrc; subst f. cbn [fancy_getitem]. rewrite El; cbn [bind].
      eexists; split; [reflexivity|]. split; [split; discriminate|]. split; [reflexivity|exact I].
    - exists None. split; [reflexivity|]. split; [tauto|exact I]. }
  destruct Hs as [src' [-> [Hn Hs']]]. cbn [bind].
  destruct (set_size_ok d (zlen idx) src') as [d' [E [E1 [E2 [E3 [E4 [E5 [E6 E7]]]]]]]].
  - apply zlen_nonneg.
  - destruct src' as [s|]; [|exact I]. destruct Hs' as [<- Hs2]. split; [exact Hl'|]. destruct s; [destruct Hs2|exact I].
  - unfold src_arg in E. rewrite E. exists d', l'. split; [reflexivity|]. split; [exact El|]. split.
    + split; [congruence|]. rewrite E2. destruct src' as [s|]; [apply Hs'|exact I].
    + rewrite E2. repeat split; try assumption; apply Hn.
Qed.

Lemma getitem_main_bools d l m :
  Represents d l -> 0 < zlen l -> zlen m = zlen l ->
  exists d', getitem_main d (SBools m) = Ok d' /\ Represents d' (bool_select m l) /\
    (d_src d' = None <-> d_src d = None) /\
    d_name d' = d_name d /\ d_dist d' = d_dist d /\ d_empty d' = d_empty d /\ d_bounds_local d' = None.
Proof.
  intros [Hlen Hsrc] Hpos Hm.
  unfold getitem_main, getitem_length.
  assert (Hc : zlen (bool_select m (map (fun _ => tt) m)) = zlen (bool_select m l)).
  { unfold zlen. f_equal. apply bool_select_length. rewrite map_length. unfold zlen in Hm; lia. }
  rewrite Hc. replace (zlen (bool_select m l) <? 0) with false by (pose proof (zlen_nonneg (bool_select m l)); lia).
  assert (Hs : exists src', slice_source_index (SBools m) (d_src d) = Ok src' /\ (src' = None <-> d_src d = None) /\
     match src' with None => True | Some s => den s = bool_select m l /\ match s with SrcBounds _ _ => False | _ => True end end).
  { cbn [slice_source_index]. destruct (d_src d) as [[x y|f]|].
    - eexists; split; [reflexivity|]. split; [split; discriminate|]. cbn [den] in *. split; [|exact I].
      subst l. rewrite zrange_zlen in *.
      rewrite <- (where_true_select m 0 x y) by lia. apply map_ext; intros; lia.
    - cbn [den] in Hsrc; subst f. cbn [fancy_getitem]. replace (zlen m =? zlen l) with true by lia. cbn [bind].
      eexists; split; [reflexivity|]. split; [split; discriminate|]. split; [reflexivity|exact I].
    - exists None. split; [reflexivity|]. split; [tauto|exact I]. }
  destruct Hs as [src' [-> [Hn Hs']]]. cbn [bind].
  destruct (set_size_ok d (zlen (bool_select m l)) src') as [d' [E [E1 [E2 [E3 [E4 [E5 [E6 E7]]]]]]]].
  - apply zlen_nonneg.
  - destruct src' as [s|]; [|exact I]. destruct Hs' as [-> Hs2]. split; [reflexivity|]. destruct s; [destruct Hs2|exact I].
  - unfold src_arg in E. rewrite E. exists d'. split; [reflexivity|]. split.
    + split; [congruence|]. rewrite E2. destruct src' as [s|]; [apply Hs'|exact I].
    + rewrite E2. repeat split; try assumption; apply Hn.
Qed.

Theorem dim_getitem_spec d l raw :
  Represents d l -> 0 < zlen l -> InRange (zlen l) raw ->
  exists d' l', dim_getitem d raw = Ok d' /\ py_select l raw = Ok l' /\ Represents d' l' /\
    (d_src d' = None <-> d_src d = None) /\
    d_name d' = d_name d /\ d_dist d' = d_dist d /\ d_empty d' = d_empty d.
Proof.
  intros HR Hpos Hin. unfold dim_getitem.
  replace (dim_len d =? 0) with false by (destruct HR; lia).
  destruct (format_select l raw Hin) as [s [Es Hsel]]. rewrite Es; cbn [bind].
  destruct raw as [i|[[a|] [b|]]|idx|m|]; cbn [get_formatted_slice1 format_singleton] in Es; cbn [InRange] in Hin.
  - injection Es as <-.
    destruct (getitem_main_slice d l i (i + 1) HR Hpos) as [d' [E [HR' H]]].
    { lia. }
    exists d', (py_slice l (slice_of i (i + 1))). cbn [slc_select] in Hsel. rewrite <- Hsel. tauto.
  - injection Es as <-.
    destruct (getitem_main_slice d l a b HR Hpos Hin) as [d' [E [HR' H]]].
    exists d', (py_slice l (slice_of a b)). cbn [py_select]. tauto.
  - destruct Hin.
  - destruct Hin.
  - injection Es as <-. destruct (getitem_main_all d l HR Hpos) as [d' [E [HR' H]]].
    exists d', l. cbn [py_select]. change (mkslice None None) with slice_none. rewrite py_slice_all. tauto.
  - destruct Hin as [Hne [Hinc Hr]]. unfold get_optimal_slice_from_array in Es.
    destruct (any_diff_gt1 idx) eqn:Ed.
    + injection Es as <-. destruct (getitem_main_ints d l idx HR Hpos Hr) as [d' [l' [E [E2 [HR' H]]]]].
      exists d', l'. cbn [py_select]. tauto.
    + destruct idx as [|x t]; [congruence|].
      destruct (contiguous_zrange t x Hinc Ed) as [b [Eb Hb]]. rewrite Eb in *.
      destruct (list_min_max_zrange x b Hb) as [E1 E2]. rewrite E1, E2 in Es. cbn [bind] in Es. injection Es as <-.
      replace (b - 1 + 1) with b in * by lia.
      rewrite Forall_forall in Hr.
      assert (Hx : 0 <= x < zlen l) by (apply Hr, in_zrange; lia).
      assert (Hbb : 0 <= b - 1 < zlen l) by (apply Hr, in_zrange; lia).
      destruct (getitem_main_slice d l x b HR Hpos ltac:(lia)) as [d' [E [HR' H]]].
      exists d', (py_slice l (slice_of x b)). cbn [slc_select] in Hsel. rewrite <- Hsel. tauto.
  - injection Es as <-. destruct (getitem_main_bools d l m HR Hpos Hin) as [d' [E [HR' H]]].
    exists d', (bool_select m l). cbn [py_select]. replace (zlen m =? zlen l) with true by lia. tauto.
  - injection Es as <-. destruct (getitem_main_all d l HR Hpos) as [d' [E [HR' H]]].
    exists d', l. cbn [py_select]. tauto.
Qed.

Theorem dim_getitem_seq : forall raws d l,
  Represents d l -> InRangeSeq l raws ->
  exists d' l', fold_res dim_getitem raws d = Ok d' /\ fold_res py_select raws l = Ok l' /\
    Represents d' l' /\ (d_src d' = None <-> d_src d = None).
Proof.
  induction raws as [|r t IH]; intros d l HR Hs; cbn [fold_res].
  - exists d, l. tauto.
  - cbn [InRangeSeq] in Hs. destruct Hs as [Hpos [Hin Hrest]].
    destruct (dim_getitem_spec d l r HR Hpos Hin) as [d1 [l1 [E1 [E2 [HR1 [Hn _]]]]]].
    rewrite E1, E2; cbn [bind].
    destruct (IH d1 l1 HR1 (Hrest l1 E2)) as [d' [l' [E3 [E4 [HR' Hn']]]]].
    exists d', l'. tauto.
Qed.

Lemma format_select_all {A} (l : list A) raw :
  Formattable (zlen l) raw ->
  exists s, get_formatted_slice1 raw = Ok s /\ slc_select l s = py_select l raw.
Proof.
  intros H. destruct raw as [i|s|idx|m|]; cbn [Formattable] in H.
  - apply format_select. cbn [InRange]. lia.
  - eexists; split; reflexivity.
  - apply format_select. exact H.
  - eexists; split; reflexivity.
  - apply format_select. exact I.
Qed.

Lemma format_nd_spec {A} (ls : list (list A)) raws :
  1 < zlen raws -> Forall2 (fun l raw => Formattable (zlen l) raw) ls raws ->
  exists ss, get_formatted_slice_nd raws (zlen ls) = Ok ss /\ zlen ss = zlen ls /\
    map (fun p => slc_select (fst p) (snd p)) (combine ls ss) = map (fun p => py_select (fst p) (snd p)) (combine ls raws).
Proof.
  intros Hn HF. pose proof (Forall2_len _ _ _ HF) as HL.
  unfold get_formatted_slice_nd.
  replace (zlen ls) with (zlen raws) in * by (unfold zlen; lia).
  replace (zlen raws =? 1) with false by lia. replace (zlen raws >? 1) with true by lia.
  rewrite Z.eqb_refl. clear Hn HL.
  induction HF as [|l raw ls raws H HF IH]; [exists []; repeat split|].
  destruct (format_select_all l raw H) as [s [E Es]]. destruct IH as [ss [E2 [Hl Hm]]].
  cbn [map_res]. change (format_singleton raw) with (get_formatted_slice1 raw). rewrite E; cbn [bind]. rewrite E2; cbn [bind].
  exists (s :: ss). split; [reflexivity|]. split; [rewrite !zlen_cons; lia|].
  cbn [combine map fst snd]. rewrite Es, Hm. reflexivity.
Qed.

Lemma getitem_one_ended d l s :
  Represents d l -> 0 < zlen l -> OneEnded (zlen l) s ->
  match d_src d with Some (SrcBounds _ _) => False | _ => True end ->
  exists d', dim_getitem d (RSlice s) = Ok d' /\ Represents d' (py_slice l s).
Proof.
  intros [Hlen Hsrc] Hpos Hs Hb. unfold dim_getitem. replace (dim_len d =? 0) with false by lia.
  cbn [get_formatted_slice1 format_singleton bind]. unfold getitem_main.
  assert (Elen : getitem_length (dim_len d) (SSlice s) = zlen (py_slice l s)).
  { rewrite <- Hlen. destruct s as [[a|] [b|]]; cbn [OneEnded] in Hs; try (destruct Hs; fail).
    - unfold getitem_length, py_slice, slice_bounds, clip_end; cbn [sl_start sl_stop].
      destruct (a <? 0) eqn:Ea.
      + replace (a >? 0) with false by lia. rewrite zlen_py_slice_bounds by lia.
        replace (Z.abs a <? 0) with false by lia. lia.
      + replace (a >? 0) with true by lia. rewrite zlen_py_slice_bounds by lia.
        replace (zlen l - a <? 0) with false by lia. lia.
    - unfold getitem_length, py_slice, slice_bounds, clip_end; cbn [sl_start sl_stop].
      replace (b <? 0) with true by lia. replace (b >? 0) with false by lia.
      rewrite zlen_py_slice_bounds by lia. replace (zlen l + b <? 0) with false by lia. lia. }
  rewrite Elen.
  assert (Hne : pyslice_eqb s slice_none = false) by (destruct s as [[?|] [?|]]; cbn [OneEnded] in Hs; try (destruct Hs; fail); reflexivity).
  unfold slice_source_index. rewrite Hne.
  destruct (d_src d) as [[x y|f]|]; [destruct Hb| |]; cbn [bind].
  - destruct (set_size_ok d (zlen (py_slice l s)) (Some (SrcFancy (py_slice f s)))) as [d' [E [E1 [E2 _]]]].
    + apply zlen_nonneg.
    + cbn [den] in *. subst f. split; [reflexivity|exact I].
    + cbn [src_arg] in E. rewrite E. exists d'. split; [reflexivity|]. split; [congruence|]. rewrite E2. cbn [den] in *. congruence.
  - destruct (set_size_ok d (zlen (py_slice l s)) None) as [d' [E [E1 [E2 _]]]]; [apply zlen_nonneg|exact I|].
    cbn [src_arg] in E. rewrite E. exists d'. split; [reflexivity|]. split; [congruence|]. rewrite E2. exact I.
Qed.

Lemma reduced_slice_spec arr : arr <> [] ->
  exists a b, get_reduced_slice arr = Ok (slice_of a b) /\ a < b /\
    (forall x, In x arr -> a <= x < b) /\ In a arr /\ In (b - 1) arr.
Proof.
  intros H. destruct (list_min_ok arr H) as [m [E1 [H1 H2]]]. destruct (list_max_ok arr H) as [M [E2 [H3 H4]]].
  unfold get_reduced_slice. rewrite E1, E2; cbn [bind]. exists m, (M + 1). split; [reflexivity|].
  pose proof (H2 M H3) as Hm. replace (M + 1 - 1) with M by lia. split; [lia|]. split; [|split; assumption].
  intros x Hx. specialize (H2 x Hx). specialize (H4 x Hx). lia.
Qed.
