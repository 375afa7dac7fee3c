From Verif Require Import Py Lib Spec PartitionModel PartitionSpec PartitionProofs DimensionModel DimensionSpec DimensionProofs DistSliceProofs DistModel DistSpec.

Lemma max_list_ge : forall l x, In x l -> x <= max_list l.
Proof.
  unfold max_list. intros l x H. cut (forall a, x <= fold_left Z.max l (Z.max a x) /\ (In x l -> x <= fold_left Z.max l a)).
  { intros Hc. apply (Hc 0); exact H. }
  clear H. induction l as [|y t IH]; intros a; cbn [fold_left In].
  - split; [lia|tauto].
  - split.
    + replace (Z.max (Z.max a x) y) with (Z.max (Z.max a y) x) by lia. apply (IH (Z.max a y)).
    + intros [->|Hin]; [apply (IH a)|apply (IH (Z.max a y)); exact Hin].
Qed.

Lemma max_list_in : forall l, l <> [] -> (forall x, In x l -> 0 <= x) -> In (max_list l) l.
Proof.
  intros l Hne Hp. unfold max_list.
  cut (forall l a, fold_left Z.max l a = a \/ In (fold_left Z.max l a) l).
  { intros Hc. destruct l as [|x t]; [congruence|]. cbn [fold_left].
    rewrite Z.max_r by (apply Hp; left; reflexivity).
    destruct (Hc t x) as [->|H]; [left; reflexivity|right; exact H]. }
  clear. induction l as [|y t IH]; intros a; cbn [fold_left]; [left; reflexivity|].
  destruct (IH (Z.max a y)) as [->|H]; [|right; right; exact H].
  destruct (Z.max_spec a y) as [[? ->]|[? ->]]; [right; left; reflexivity|left; reflexivity].
Qed.

Lemma choose_fold_in (m : Z) : forall dd acc r, fold_left (fun acc d => if dim_len d =? m then Some d else acc) dd acc = Some r ->
  acc = Some r \/ (In r dd /\ dim_len r = m).
Proof.
  induction dd as [|d t IH]; intros acc r H; cbn [fold_left] in H; [left; exact H|].
  apply IH in H. destruct H as [H|[H1 H2]].
  - destruct (Z.eqb_spec (dim_len d) m); [right; injection H as <-; split; [left; reflexivity|assumption]|left; exact H].
  - right; split; [right; exact H1|exact H2].
Qed.

Lemma choose_fold_some (m : Z) : forall dd acc, (acc <> None \/ exists d, In d dd /\ dim_len d = m) ->
  exists r, fold_left (fun acc d => if dim_len d =? m then Some d else acc) dd acc = Some r.
Proof.
  induction dd as [|d t IH]; intros acc H; cbn [fold_left].
  - destruct H as [H|[d [[] _]]]. destruct acc as [r|]; [exists r; reflexivity|congruence].
  - apply IH. destruct H as [H|[x [[->|Hin] Hx]]].
    + left. destruct (dim_len d =? m); [discriminate|exact H].
    + left. replace (dim_len x =? m) with true by lia. discriminate.
    + right. exists x; tauto.
Qed.

Lemma choose_distributed_spec dims :
  existsb d_dist dims = true -> (forall d, In d dims -> 0 <= dim_len d) ->
  exists dd, choose_distributed dims = Some dd /\ LongestDistributed dims dd.
Proof.
  intros He Hp. apply existsb_exists in He. destruct He as [d0 [Hin0 Hd0]].
  unfold choose_distributed. set (dd := filter d_dist dims). set (m := max_list (map dim_len dd)).
  assert (Hdd : In d0 dd) by (apply filter_In; tauto).
  assert (Hm : In m (map dim_len dd)).
  { apply max_list_in; [destruct dd; [destruct Hdd|discriminate]|].
    intros x Hx. apply in_map_iff in Hx. destruct Hx as [d [<- Hd]]. apply filter_In in Hd. apply Hp; tauto. }
  apply in_map_iff in Hm. destruct Hm as [dm [Hdm1 Hdm2]].
  destruct (choose_fold_some m dd None) as [r Hr]; [right; exists dm; tauto|].
  exists r. split; [exact Hr|]. apply choose_fold_in in Hr. destruct Hr as [Hr|[H1 H2]]; [discriminate|].
  apply filter_In in H1. split; [tauto|]. split; [tauto|].
  intros d Hd1 Hd2. rewrite H2. apply max_list_ge. apply in_map. apply filter_In; tauto.
Qed.

(** Boundaries of rank [r]'s share when [ts] ranks hold something. *)
Definition cutpoint (n ts r : Z) : Z := rb_lo n ts (Z.min r ts).

Lemma cutpoint_mono n ts r1 r2 : 1 <= ts -> 0 <= n -> r1 <= r2 -> cutpoint n ts r1 <= cutpoint n ts r2.
Proof. intros. unfold cutpoint. apply rb_lo_mono; lia. Qed.

Lemma cutpoint_0 n ts : 1 <= ts -> cutpoint n ts 0 = 0.
Proof. intros. unfold cutpoint. rewrite Z.min_l by lia. apply rb_lo_0; lia. Qed.

Lemma cutpoint_end n ts r : 1 <= ts -> ts <= r -> cutpoint n ts r = n.
Proof. intros. unfold cutpoint. rewrite Z.min_r by lia. apply rb_lo_s; lia. Qed.

Lemma rank_bounds_cutpoint n ts r : 1 <= ts -> ts <= n -> 0 <= r ->
  get_rank_bounds n ts r = Ok (if r <? ts then Some (cutpoint n ts r, cutpoint n ts (r + 1)) else None) /\
  (r < ts -> n / ts <= cutpoint n ts (r + 1) - cutpoint n ts r).
Proof.
  intros Hts Hn Hr. destruct (r <? ts) eqn:E.
  - rewrite get_rank_bounds_closed by lia. unfold cutpoint. rewrite !Z.min_l by lia.
    assert (1 <= n / ts) by (apply Z.div_le_lower_bound; lia).
    assert (H0 : n / ts <= rb_lo n ts (r + 1) - rb_lo n ts r).
    { unfold rb_lo. pose proof (Z.mod_pos_bound n ts ltac:(lia)). replace ((r + 1) * (n / ts)) with (r * (n / ts) + n / ts) by ring. lia. }
    replace (rb_lo n ts r <? rb_lo n ts (r + 1)) with true by lia. split; [reflexivity|intros _; exact H0].
  - split; [|lia]. unfold get_rank_bounds; cbn [get_rank_bounds_fuel]. replace (n =? 0) with false by lia.
    replace (r >=? ts) with true by lia. reflexivity.
Qed.

(** Consecutive slices concatenate. *)
Lemma cutout_split (l : list Z) a b c : 0 <= a <= b -> b <= c -> c <= zlen l ->
  py_slice l (slice_of a b) ++ py_slice l (slice_of b c) = py_slice l (slice_of a c).
Proof.
  intros H1 H2 H3. unfold py_slice, slice_bounds, slice_of, clip_end; cbn [sl_start sl_stop].
  replace (a <? 0) with false by lia. replace (b <? 0) with false by lia. replace (c <? 0) with false by lia.
  rewrite !Z.min_l by lia.
  replace (Z.to_nat (c - a)) with (Z.to_nat (b - a) + Z.to_nat (c - b))%nat by lia.
  set (p := Z.to_nat (b - a)). set (q := Z.to_nat (c - b)).
  replace (skipn (Z.to_nat b) l) with (skipn p (skipn (Z.to_nat a) l)).
  2: { rewrite skipn_skipn'. f_equal. unfold p; lia. }
  generalize (skipn (Z.to_nat a) l) as m. intros m.
  rewrite <- (firstn_skipn p (firstn (p + q) m)). rewrite firstn_firstn. rewrite Nat.min_l by lia.
  f_equal. rewrite skipn_firstn_comm. f_equal. lia.
Qed.

Lemma concat_slices (l : list Z) (g : Z -> Z) : (forall r1 r2, r1 <= r2 -> g r1 <= g r2) -> 0 <= g 0 ->
  forall k, g (Z.of_nat k) <= zlen l ->
  concat (map (fun r => py_slice l (slice_of (g r) (g (r + 1)))) (zrange 0 (Z.of_nat k))) = py_slice l (slice_of (g 0) (g (Z.of_nat k))).
Proof.
  intros Hm H0. induction k as [|k IH]; intros Hk.
  - cbn [Z.of_nat]. rewrite zrange_nil by lia. cbn [map concat]. 
    unfold py_slice, slice_bounds, slice_of; cbn [sl_start sl_stop]. rewrite Z.sub_diag. reflexivity.
  - rewrite (zrange_app 0 (Z.of_nat k) (Z.of_nat (S k))) by lia. rewrite map_app, concat_app.
    rewrite IH by (specialize (Hm (Z.of_nat k) (Z.of_nat (S k)) ltac:(lia)); lia).
    rewrite (zrange_cons (Z.of_nat k)) by lia. rewrite zrange_nil by lia. cbn [map concat]. rewrite app_nil_r.
    replace (Z.of_nat k + 1) with (Z.of_nat (S k)) by lia.
    pose proof (Hm 0 (Z.of_nat k) ltac:(lia)). pose proof (Hm (Z.of_nat k) (Z.of_nat (S k)) ltac:(lia)).
    apply cutout_split; lia.
Qed.

Lemma tiles_zrange (g : Z -> Z) : (forall r1 r2, r1 <= r2 -> g r1 <= g r2) ->
  forall k lo, Tiles (g lo) (g (lo + Z.of_nat k)) (map (fun r => (g r, g (r + 1))) (zrange lo (lo + Z.of_nat k))).
Proof.
  intros Hm. induction k as [|k IH]; intros lo.
  - rewrite zrange_nil by lia. cbn [map Tiles]. f_equal; lia.
  - rewrite (zrange_cons lo) by lia. cbn [map Tiles]. split; [reflexivity|]. split; [apply Hm; lia|].
    replace (lo + Z.of_nat (S k)) with (lo + 1 + Z.of_nat k) by lia. apply IH.
Qed.

(** What the update does to the chosen dimension on one rank. *)
Definition update_dim (n the_size rank : Z) (dd : dim) : res dim :=
  do b <- get_rank_bounds n the_size rank;
  match b with
  | Some (start, stop) =>
    do src <- slice_source_index (SSlice (slice_of start stop)) (d_src (set_bounds_global dd (0, n)));
    do d <- set_size (set_bounds_global dd (0, n)) (Some (stop - start)) (srcarg_of src);
    Ok (set_bounds_local d (start, stop))
  | None => convert_to_empty (set_bounds_global dd (0, n))
  end.

Definition the_size (size min_elements n : Z) : Z :=
  let ts := if n <? size then n else size in
  if (size >? 1) && (n / min_elements <? ts) then n / min_elements else ts.

Lemma update_group_unfold size me rank dims dd :
  existsb d_dist dims = true -> choose_distributed dims = Some dd ->
  update_group size me rank dims =
  do dd2 <- update_dim (dim_len dd) (the_size size me (dim_len dd)) rank dd;
  Ok (map (fun d => if String.eqb (d_name d) (d_name dd) then dd2 else undistribute d) dims).
Proof.
  intros He Hc. unfold update_group. rewrite He, Hc. cbn [negb]. unfold update_dim, the_size.
  destruct (get_rank_bounds _ _ _) as [[[a b]|]|e]; cbn [bind]; reflexivity.
Qed.

Lemma set_size_bounds_global d v s d' : set_size d v s = Ok d' -> d_bounds_global d' = d_bounds_global d.
Proof.
  unfold set_size. intros H.
  destruct (set_src_idx _ _) as [d2|] eqn:E; cbn [bind] in H; [|discriminate].
  assert (Hd2 : d_bounds_global d2 = d_bounds_global d).
  { unfold set_src_idx in E. destruct v as [v|]; [destruct s as [| |[? ?|?]]|destruct s as [| |[? ?|?]]];
    repeat (match type of E with (if ?c then _ else _) = _ => destruct c end); try discriminate; injection E as <-; reflexivity. }
  destruct (d_dist d); [destruct (d_size d2), (d_size_current d2)|]; try discriminate; injection H as <-; exact Hd2.
Qed.

Lemma set_size_src d v src d' : set_size d (Some v) (srcarg_of src) = Ok d' -> d_src d' = src.
Proof.
  unfold set_size. intros H.
  replace (match srcarg_of src with SrcNone => None | SrcAuto => Some (SrcBounds 0 v) | SrcVal s => Some s end) with src in H
    by (destruct src; reflexivity).
  destruct (set_src_idx _ src) as [d2|] eqn:E; cbn [bind] in H; [|discriminate].
  assert (Hd2 : d_src d2 = src).
  { unfold set_src_idx in E. destruct src as [[? ?|?]|];
    repeat (match type of E with (if ?c then _ else _) = _ => destruct c end); try discriminate; injection E as <-; reflexivity. }
  destruct (d_dist d); [destruct (d_size d2), (d_size_current d2)|]; try discriminate; injection H as <-; exact Hd2.
Qed.

Lemma slice_source_index_kind a b src src' : slice_source_index (SSlice (slice_of a b)) src = Ok src' -> SameKind src src'.
Proof.
  unfold slice_source_index. change (pyslice_eqb (slice_of a b) slice_none) with false. cbv iota.
  destruct src as [[? ?|?]|]; cbn [sl_start sl_stop slice_of]; intros E; injection E as <-; exact I.
Qed.

Lemma update_dim_live n ts r dd l : Represents dd l -> zlen l = n -> d_dist dd = true -> d_empty dd = false ->
  1 <= ts -> ts <= n -> 0 <= r < ts ->
  exists d, update_dim n ts r dd = Ok d /\ Represents d (py_slice l (slice_of (cutpoint n ts r) (cutpoint n ts (r + 1)))) /\
    d_name d = d_name dd /\ d_dist d = true /\ d_empty d = false /\ SameKind (d_src dd) (d_src d) /\
    bounds_local d = (cutpoint n ts r, cutpoint n ts (r + 1)) /\ bounds_global d = (0, n) /\
    dim_len d = cutpoint n ts (r + 1) - cutpoint n ts r /\ n / ts <= dim_len d /\ 0 < dim_len d.
Proof.
  intros HR Hl Hd He Hts Hn Hr. unfold update_dim.
  destruct (rank_bounds_cutpoint n ts r Hts Hn ltac:(lia)) as [-> Hsz]. replace (r <? ts) with true by lia. cbn [bind].
  set (a := cutpoint n ts r) in *. set (b := cutpoint n ts (r + 1)) in *.
  assert (Hq : 1 <= n / ts) by (apply Z.div_le_lower_bound; lia).
  assert (Ha : 0 <= a) by (pose proof (cutpoint_mono n ts 0 r ltac:(lia) ltac:(lia) ltac:(lia)) as Hcm; rewrite (cutpoint_0 n ts) in Hcm by lia; exact Hcm).
  assert (Hb : b <= n) by (pose proof (cutpoint_mono n ts (r + 1) ts ltac:(lia) ltac:(lia) ltac:(lia)) as Hcm; rewrite (cutpoint_end n ts ts) in Hcm by lia; exact Hcm).
  specialize (Hsz ltac:(lia)).
  set (d1 := set_bounds_global dd (0, n)).
  assert (HR1 : Represents d1 l) by (apply represents_set_bounds_global; exact HR).
  destruct (getitem_main_slice d1 l a b HR1 ltac:(lia) ltac:(lia)) as [d' [E [HR' [Hns [Hnm [Hdi [Hem Hbl]]]]]]].
  assert (Elen : getitem_length (dim_len d1) (SSlice (slice_of a b)) = b - a).
  { destruct HR1 as [H1 _]. rewrite <- H1. unfold getitem_length, slice_of; cbn [sl_start sl_stop].
    replace (b - a >? zlen l) with false by lia. replace (b - a <? 0) with false by lia. reflexivity. }
  unfold getitem_main in E. rewrite Elen in E.
  destruct (slice_source_index (SSlice (slice_of a b)) (d_src d1)) as [src|] eqn:Es; cbn [bind] in E; [|discriminate].
  cbn [bind]. change (match src with Some x => SrcVal x | None => SrcNone end) with (srcarg_of src) in E.
  rewrite E. cbn [bind]. eexists; split; [reflexivity|].
  assert (Hlen' : dim_len d' = b - a).
  { destruct HR' as [HL _]. rewrite <- HL. unfold py_slice, slice_bounds, slice_of, clip_end; cbn [sl_start sl_stop].
    replace (a <? 0) with false by lia. replace (b <? 0) with false by lia. rewrite !Z.min_l by lia.
    apply zlen_py_slice_bounds; lia. }
  split; [apply represents_set_bounds_local; exact HR'|].
  cbn [set_bounds_local d_name d_dist d_empty d_src]. split; [exact Hnm|]. split; [rewrite Hdi; exact Hd|].
  split; [rewrite Hem; exact He|].
  split; [rewrite (set_size_src _ _ _ _ E); apply (slice_source_index_kind _ _ _ _ Es)|]. split; [reflexivity|].
  split; [unfold bounds_global; cbn [set_bounds_local d_bounds_global];
          rewrite (set_size_bounds_global _ _ _ _ E); reflexivity|].
  assert (Edl : dim_len (set_bounds_local d' (a, b)) = b - a) by exact Hlen'.
  rewrite Edl. lia.
Qed.

Lemma update_dim_dead n ts r dd : d_dist dd = true -> 1 <= ts -> ts <= n -> ts <= r ->
  update_dim n ts r dd = Ok (mkdim (d_name dd) (Some 0) (Some 0) None true true (Some (0, 0)) (Some (0, 0))).
Proof.
  intros Hd Hts Hn Hr. unfold update_dim.
  destruct (rank_bounds_cutpoint n ts r Hts Hn ltac:(lia)) as [-> _]. replace (r <? ts) with false by lia. cbn [bind].
  unfold convert_to_empty, set_bounds_global; cbn [d_dist d_name]. rewrite Hd. reflexivity.
Qed.

Lemma py_slice_full (l : list Z) : py_slice l (slice_of 0 (zlen l)) = l.
Proof.
  unfold py_slice, slice_bounds, slice_of, clip_end; cbn [sl_start sl_stop].
  pose proof (zlen_nonneg l). change (0 <? 0) with false. replace (zlen l <? 0) with false by lia.
  rewrite !Z.min_l by lia. rewrite Z.sub_0_r. unfold zlen. rewrite Nat2Z.id. cbn [Z.to_nat skipn]. apply firstn_all.
Qed.

Lemma py_slice_empty (l : list Z) a : 0 <= a -> py_slice l (slice_of a a) = [].
Proof.
  intros H. unfold py_slice, slice_bounds, slice_of; cbn [sl_start sl_stop]. rewrite Z.sub_diag. reflexivity.
Qed.

Theorem update_dim_all size ts dd l : Represents dd l -> d_dist dd = true -> d_empty dd = false ->
  1 <= ts -> ts <= zlen l -> ts <= size ->
  exists parts ls, map_res (fun r => update_dim (zlen l) ts r dd) (zrange 0 size) = Ok parts /\
    Parts l parts ls /\ Forall (fun d => d_name d = d_name dd /\ d_dist d = true) parts /\
    Forall (fun d => d_empty d = false -> zlen l / ts <= dim_len d /\ SameKind (d_src dd) (d_src d)) parts.
Proof.
  intros HR Hd He Hts Hn Hsz. set (n := zlen l).
  assert (Hlive : exists parts, map_res (fun r => update_dim n ts r dd) (zrange 0 ts) = Ok parts /\
    Forall2 (fun r d => Represents d (py_slice l (slice_of (cutpoint n ts r) (cutpoint n ts (r + 1)))) /\
    d_name d = d_name dd /\ d_dist d = true /\ d_empty d = false /\ SameKind (d_src dd) (d_src d) /\
    bounds_local d = (cutpoint n ts r, cutpoint n ts (r + 1)) /\ bounds_global d = (0, n) /\
    dim_len d = cutpoint n ts (r + 1) - cutpoint n ts r /\ n / ts <= dim_len d /\ 0 < dim_len d) (zrange 0 ts) parts).
  { assert (Hin : forall r, In r (zrange 0 ts) -> 0 <= r < ts) by (intros r Hr; apply in_zrange in Hr; lia).
    revert Hin. generalize (zrange 0 ts) as rs. induction rs as [|r rs IH]; intros Hin.
    - exists []. split; [reflexivity|constructor].
    - destruct (update_dim_live n ts r dd l HR eq_refl Hd He Hts Hn (Hin r (or_introl eq_refl))) as [d [E H]].
      destruct IH as [ps [E2 H2]]; [intros x Hx; apply Hin; right; exact Hx|].
      cbn [map_res]. rewrite E; cbn [bind]. rewrite E2; cbn [bind]. exists (d :: ps). split; [reflexivity|]. constructor; assumption. }
  destruct Hlive as [live [El Hl]].
  set (dead := mkdim (d_name dd) (Some 0) (Some 0) None true true (Some (0, 0)) (Some (0, 0))).
  assert (Ed : map_res (fun r => update_dim n ts r dd) (zrange ts size) = Ok (map (fun _ => dead) (zrange ts size))).
  { assert (Hin : forall r, In r (zrange ts size) -> ts <= r) by (intros r Hr; apply in_zrange in Hr; lia).
    revert Hin. generalize (zrange ts size) as rs. induction rs as [|r rs IH]; intros Hin; [reflexivity|].
    cbn [map_res map]. rewrite (update_dim_dead n ts r dd Hd Hts Hn (Hin r (or_introl eq_refl))). cbn [bind].
    rewrite IH by (intros x Hx; apply Hin; right; exact Hx). reflexivity. }
  exists (live ++ map (fun _ => dead) (zrange ts size)),
    (map (fun r => py_slice l (slice_of (cutpoint n ts r) (cutpoint n ts (r + 1)))) (zrange 0 ts) ++ map (fun _ => []) (zrange ts size)).
  assert (Hlen : List.length live = List.length (zrange 0 ts)) by (symmetry; eapply Forall2_len; exact Hl).
  assert (Hmono : forall r1 r2, r1 <= r2 -> cutpoint n ts r1 <= cutpoint n ts r2) by (intros; apply cutpoint_mono; unfold n; lia).
  split; [|split; [constructor|split]].
  - rewrite (zrange_app 0 ts size) by lia. rewrite map_res_app, El. cbn [bind]. rewrite Ed. reflexivity.
  - apply Forall2_app.
    + clear -Hl. induction Hl as [|r d rs ds H HF IH]; cbn [map]; constructor; [tauto|exact IH].
    + clear. induction (zrange ts size) as [|r rs IH]; cbn [map]; constructor; [split; reflexivity|exact IH].
  - rewrite concat_app.
    replace (concat (map (fun _ => []) (zrange ts size))) with (@nil Z)
      by (clear; induction (zrange ts size) as [|r rs IH]; cbn; [reflexivity|exact IH]).
    rewrite app_nil_r.
    assert (HC := concat_slices l (cutpoint n ts) Hmono ltac:(rewrite (cutpoint_0 n ts); lia) (Z.to_nat ts)
                    ltac:(rewrite cutpoint_end; unfold n; lia)).
    rewrite Z2Nat.id in HC by lia. rewrite HC. rewrite (cutpoint_0 n ts) by lia. rewrite cutpoint_end by lia.
    apply py_slice_full.
  - apply Forall_app. split.
    + clear -Hl. induction Hl as [|r d rs ds H HF IH]; constructor; [|exact IH]. intros Hx.
      destruct H as [_ [_ [_ [H1 _]]]]. congruence.
    + clear. apply Forall_forall. intros x Hx. apply in_map_iff in Hx. destruct Hx as [? [<- _]]. reflexivity.
  - apply Forall2_app.
    + clear -Hl. induction Hl as [|r d rs ds H HF IH]; cbn [map]; constructor; [|exact IH].
      destruct H as [[H1 _] [_ [_ [H2 [_ [_ [_ [_ [_ H3]]]]]]]]]. rewrite H2. split; [discriminate|].
      intros Hx. rewrite Hx in H1. cbn in H1. lia.
    + clear. induction (zrange ts size) as [|r rs IH]; cbn [map]; constructor; [split; reflexivity|exact IH].
  - apply Forall_app. split.
    + clear -Hl. induction Hl as [|r d rs ds H HF IH]; constructor; [|exact IH]. intros _.
      destruct H as [_ [_ [_ [_ [_ [H1 [H2 [H3 [_ H4]]]]]]]]]. rewrite H1, H2. cbn [fst snd]. repeat split; lia.
    + clear. apply Forall_forall. intros x Hx. apply in_map_iff in Hx. destruct Hx as [? [<- _]]. discriminate.
  - rewrite filter_app.
    replace (filter nonempty (map (fun _ => dead) (zrange ts size))) with (@nil dim)
      by (clear; induction (zrange ts size) as [|r rs IH]; cbn; [reflexivity|exact IH]).
    rewrite app_nil_r.
    replace (map bounds_local (filter nonempty live)) with (map (fun r => (cutpoint n ts r, cutpoint n ts (r + 1))) (zrange 0 (0 + Z.of_nat (Z.to_nat ts)))).
    + pose proof (tiles_zrange (cutpoint n ts) Hmono (Z.to_nat ts) 0) as HT.
      rewrite cutpoint_0 in HT by lia. rewrite (cutpoint_end n ts (0 + Z.of_nat (Z.to_nat ts))) in HT by lia. exact HT.
    + replace (0 + Z.of_nat (Z.to_nat ts)) with ts by lia.
      clear -Hl. induction Hl as [|r d rs ds H HF IH]; [reflexivity|]. cbn [map filter]. unfold nonempty at 1.
      destruct H as [_ [_ [_ [H1 [_ [H2 _]]]]]]. rewrite H1. cbn [negb map]. rewrite H2, IH. reflexivity.
  - apply Forall_app. split.
    + clear -Hl. induction Hl as [|r d rs ds H HF IH]; constructor; [tauto|exact IH].
    + clear. apply Forall_forall. intros x Hx. apply in_map_iff in Hx. destruct Hx as [? [<- _]]. split; reflexivity.
  - apply Forall_app. split.
    + clear -Hl. induction Hl as [|r d rs ds H HF IH]; constructor; [|exact IH]. intros _. tauto.
    + clear. apply Forall_forall. intros x Hx. apply in_map_iff in Hx. destruct Hx as [? [<- _]]. discriminate.
Qed.

Lemma the_size_range size me n : 1 <= size -> 1 <= me -> 1 <= n -> size = 1 \/ me <= n ->
  1 <= the_size size me n /\ the_size size me n <= n /\ the_size size me n <= size /\
  (1 < size -> me <= n / the_size size me n).
Proof.
  intros Hs Hm Hn Hc. unfold the_size.
  assert (Hq0 : 0 <= n / me) by (apply Z.div_pos; lia).
  assert (Hq1 : n / me <= n) by (apply Z.div_le_upper_bound; nia).
  assert (Hqm : me <= n -> 1 <= n / me) by (intros; apply Z.div_le_lower_bound; lia).
  assert (Hqq : n / me * me <= n) by (rewrite Z.mul_comm; apply Z.mul_div_le; lia).
  set (ts := if n <? size then n else size).
  assert (Hts : 1 <= ts /\ ts <= n /\ ts <= size) by (unfold ts; destruct (n <? size) eqn:E; lia).
  destruct ((size >? 1) && (n / me <? ts)) eqn:E.
  - split; [lia|]. split; [lia|]. split; [lia|]. intros _. apply Z.div_le_lower_bound; [lia|]. lia.
  - split; [lia|]. split; [lia|]. split; [lia|]. intros H1. apply Z.div_le_lower_bound; [lia|].
    assert (ts <= n / me) by lia. nia.
Qed.

Definition with_parts (dd : dim) (dims : list dim) (part : dim) : list dim :=
  map (fun d => if String.eqb (d_name d) (d_name dd) then part else undistribute d) dims.

Lemma update_groups_all size ts dd (l : list Z) dims : existsb d_dist dims = true -> choose_distributed dims = Some dd ->
  forall me rs parts, the_size size me (dim_len dd) = ts -> zlen l = dim_len dd ->
  map_res (fun r => update_dim (zlen l) ts r dd) rs = Ok parts ->
  map_res (fun r => update_group size me r dims) rs = Ok (map (with_parts dd dims) parts).
Proof.
  intros He Hc me. induction rs as [|r rs IH]; intros parts Hts Hl E; cbn [map_res] in *.
  - injection E as <-. reflexivity.
  - rewrite (update_group_unfold size me r dims dd He Hc). rewrite Hts, <- Hl.
    destruct (update_dim (zlen l) ts r dd) as [d|]; cbn [bind] in *; [|discriminate].
    destruct (map_res (fun r0 => update_dim (zlen l) ts r0 dd) rs) as [ps|]; cbn [bind] in *; [|discriminate].
    injection E as <-. rewrite (IH ps Hts Hl eq_refl). cbn [bind map]. reflexivity.
Qed.

Lemma with_parts_others dd part : forall dims, d_name part = d_name dd ->
  Forall2 (fun d d' => if String.eqb (d_name d) (d_name dd) then d' = part else OnlyUndistributed d d') dims (with_parts dd dims part).
Proof.
  intros dims Hn. induction dims as [|d t IH]; cbn [with_parts map]; constructor; [|exact IH].
  destruct (String.eqb (d_name d) (d_name dd)) eqn:E; [reflexivity|]. unfold OnlyUndistributed. repeat split.
Qed.

Theorem update_group_spec size me dims :
  1 <= size -> 1 <= me ->
  existsb d_dist dims = true ->
  (forall d, In d dims -> 0 <= dim_len d) ->
  exists dd, LongestDistributed dims dd /\
    forall whole, Represents dd whole -> d_empty dd = false -> whole <> [] -> size = 1 \/ me <= zlen whole ->
    exists outs parts ls,
      map_res (fun r => update_group size me r dims) (zrange 0 size) = Ok outs /\
      Parts whole parts ls /\
      Forall (fun d => d_name d = d_name dd /\ d_dist d = true /\
                (d_empty d = false -> (1 < size -> me <= dim_len d) /\ SameKind (d_src dd) (d_src d))) parts /\
      Forall2 (fun out part => Forall2 (fun d d' => if String.eqb (d_name d) (d_name dd) then d' = part
                                                    else OnlyUndistributed d d') dims out) outs parts.
Proof.
  intros Hs Hm He Hp. destruct (choose_distributed_spec dims He Hp) as [dd [Hc HL]].
  exists dd. split; [exact HL|]. intros whole HR Hem Hne Hcond.
  assert (Hn1 : 1 <= zlen whole) by (destruct whole; [congruence|rewrite zlen_cons; pose proof (zlen_nonneg whole); lia]).
  destruct (the_size_range size me (zlen whole) Hs Hm Hn1 Hcond) as [T1 [T2 [T3 T4]]].
  destruct (update_dim_all size (the_size size me (zlen whole)) dd whole HR ltac:(apply HL) Hem T1 T2 T3) as [parts [ls [E [HP [HN HS]]]]].
  exists (map (with_parts dd dims) parts), parts, ls. split.
  - destruct HR as [Hlen _]. eapply update_groups_all; try eassumption. rewrite <- Hlen. reflexivity.
  - split; [exact HP|]. split.
    + clear -HN HS T4. induction HN as [|d t [H1 H2] HF IH]; [constructor|]. inversion HS as [|? ? A B]; subst. constructor; [|apply IH; exact B].
      split; [exact H1|]. split; [exact H2|]. intros Hx. specialize (A Hx). split; [intros H; specialize (T4 H); lia|tauto].
    + clear -HN. induction HN as [|d t [H1 H2] HF IH]; cbn [map]; constructor; [|exact IH]. apply with_parts_others; exact H1.
Qed.

Lemma update_second_raises od me od' : update_dimension_bounds od me = Ok od' ->
  forall me', update_dimension_bounds od' me' = Err ValueError.
Proof.
  unfold update_dimension_bounds. destruct (od_updated od); [discriminate|]. destruct (me <? 1); [discriminate|].
  destruct (map_res _ _); cbn [bind]; [|discriminate]. intros E me'; injection E as <-. reflexivity.
Qed.
