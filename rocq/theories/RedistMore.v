From Verif Require Import Lib Py Spec PartitionModel PartitionProofs DimensionModel DimensionSpec DimensionProofs DistSliceProofs DistModel NdModel SliceModel RedistModel RedistSpec RedistProofs.
Local Open Scope Z_scope.

Definition overlaps (d : dim) (s : asked) : bool := fst (window d s) <? snd (window d s).

Lemma cutout_zlen a b lo l : zlen (cutout a b lo l) = Z.max 0 (Z.min (Z.max 0 (b - lo)) (zlen l) - Z.max 0 (a - lo)).
Proof. unfold cutout, zlen. rewrite skipn_length, firstn_length. lia. Qed.

Lemma parts_overlap a b : a < b -> forall dims,
  Forall (fun d => Axis d (Some (a, b)) /\ d_dist d = true) dims ->
  exists parts ls', map_res (fun p => local_part (snd p) (fst p)) (map (fun d => (d, RSlice (slice_of a b))) dims) = Ok parts /\
    Forall2 Represents parts ls' /\ Forall fresh parts /\
    Forall (fun d => d_empty d = true -> dim_len d = 0 /\ d_src d = None) parts /\
    Forall2 (fun d d' => d_empty d' = negb (overlaps d (Some (a, b)))) dims parts.
Proof.
  intros AB. induction 1 as [|d t [[E [L [BL [[l R] _]]]] D] F IH]; [exists [], []; repeat split; constructor|].
  destruct IH as [parts [ls' [E1 [R1 [F1 [Em1 O1]]]]]].
  destruct (local_part_spec d l a b R D E L BL AB) as [d' [E2 [R2 [_ [_ C]]]]].
  exists (d' :: parts), (cutout a b (fst (bounds_local d)) l :: ls'). cbn [map map_res fst snd]. rewrite E2. cbn [bind]. rewrite E1. cbn [bind].
  split; [reflexivity|]. split; [constructor; assumption|].
  assert (LL : zlen l = dim_len d) by apply R. destruct R2 as [R2 R2']. rewrite cutout_zlen in R2.
  split; [constructor; [|assumption]; unfold fresh; destruct C as [[? [? ?]]|[? [? [? ?]]]]; [left | right]; repeat split; auto; lia|].
  split; [constructor; [|assumption]; intros X; destruct C as [[? [? ?]]|[? [? [? ?]]]]; [auto | congruence]|].
  constructor; [|assumption]. unfold overlaps, window. cbn [fst snd]. destruct C as [[-> [? ?]]|[-> [? [? ?]]]].
  - destruct (Z.ltb_spec (Z.max a (fst (bounds_local d))) (Z.min b (snd (bounds_local d)))); [lia | reflexivity].
  - destruct (Z.ltb_spec (Z.max a (fst (bounds_local d))) (Z.min b (snd (bounds_local d)))); [reflexivity | lia].
Qed.

(** One dimension on all ranks. *)
Lemma column_spec s dist dims : Forall (fun d => Axis d s /\ d_dist d = dist) dims ->
  exists dims', get_distributed_slice (map (fun d => (d, to_raw s)) dims) = Ok dims' /\
    Forall2 (fun d d' => d_empty d' = negb (overlaps d s)) dims dims'.
Proof.
  intros F. destruct s as [[a b]|].
  - destruct dist.
    + destruct dims as [|d0 dims0]; [exists []; split; [reflexivity | constructor]|]. set (dims := d0 :: dims0) in *.
      assert (AB : a < b) by (subst dims; apply Forall_cons_iff in F as [[[_ [_ [_ [_ [X _]]]]] _] _]; lia).
      destruct (parts_overlap a b AB dims F) as [parts [ls' [E [R [Fr [Em O]]]]]].
      unfold get_distributed_slice, to_raw.
      rewrite choose_path_collective by (eapply Forall_impl; [|exact F]; intros d [A D]; split; [exact D | apply A]). cbn [bind].
      rewrite forallb_map_true, E. cbn [bind]. eexists. split; [reflexivity|].
      apply (distributed_finish (fun d d' => d_empty d' = negb (overlaps d (Some (a, b)))) dims parts ls'); try assumption.
      intros d p p' X _ _ _ _ ->. exact X.
    + assert (P : map_res choose_path (map (fun d => (d, RSlice (slice_of a b))) dims) = Ok (map (fun _ => PPlain) dims)).
      { clear - F. induction F as [|d t [A D] F IH]; [reflexivity|]. cbn [map map_res choose_path]. rewrite (proj1 A).
        cbn [get_formatted_slice1 format_singleton bind]. change (pyslice_eqb (slice_of a b) slice_none) with false. rewrite D. cbn [bind].
        rewrite IH. reflexivity. }
      unfold get_distributed_slice, to_raw. rewrite P. cbn [bind].
      destruct dims as [|d0 dims0]; [exists []; split; [reflexivity | constructor]|]. set (dims := d0 :: dims0) in *.
      assert (forallb is_collective (map (fun _ => PPlain) dims) = false) as -> by reflexivity.
      assert (existsb is_collective (map (fun _ => PPlain) dims) = false) as -> by (clear; induction dims; [reflexivity | assumption]).
      clear P. clearbody dims. clear d0 dims0. induction F as [|d t [A D] F IH]; [exists []; split; [reflexivity | constructor]|].
      destruct IH as [dims' [E O]]. destruct A as [Em [L [BL [[l R] [AB N]]]]]. destruct (N D) as [N1 N2].
      assert (LL : zlen l = dim_len d) by apply R.
      destruct (dim_getitem_spec d l (RSlice (slice_of a b)) R ltac:(lia)) as [d' [l' [E2 [_ [_ [_ [_ [_ Em2]]]]]]]].
      { cbn [InRange slice_of]. left. lia. }
      cbn [map combine map_res fst snd]. rewrite E2. cbn [bind]. rewrite E. cbn [bind].
      exists (d' :: dims'). split; [reflexivity|]. constructor; [|assumption]. rewrite Em2, Em. unfold overlaps, window. cbn [fst snd].
      destruct (Z.ltb_spec (Z.max a (fst (bounds_local d))) (Z.min b (snd (bounds_local d)))); [reflexivity | lia].
  - assert (P : map_res choose_path (map (fun d => (d, RSlice slice_none)) dims) = Ok (map (fun _ => PCopy) dims)).
    { clear - F. induction F as [|d t [A D] F IH]; [reflexivity|]. cbn [map map_res choose_path]. rewrite (proj1 A).
      cbn [get_formatted_slice1 format_singleton bind]. change (pyslice_eqb slice_none slice_none) with true. cbn [bind].
      rewrite IH. reflexivity. }
    unfold get_distributed_slice, to_raw. rewrite P. cbn [bind].
    destruct dims as [|d0 dims0]; [exists []; split; [reflexivity | constructor]|]. set (dims := d0 :: dims0) in *.
    assert (forallb is_collective (map (fun _ => PCopy) dims) = false) as -> by reflexivity.
    assert (existsb is_collective (map (fun _ => PCopy) dims) = false) as -> by (clear; induction dims; [reflexivity | assumption]).
    clear P. clearbody dims. clear d0 dims0. induction F as [|d t [A D] F IH]; [exists []; split; [reflexivity | constructor]|].
    destruct IH as [dims' [E O]]. cbn [map combine map_res fst snd bind]. rewrite E. cbn [bind].
    exists (d :: dims'). split; [reflexivity|]. constructor; [|assumption]. destruct A as [Em [L [BL _]]]. rewrite Em. unfold overlaps, window.
    destruct (Z.ltb_spec (fst (bounds_local d)) (snd (bounds_local d))); [reflexivity | lia].
Qed.

(** One rank. *)
Definition local_slice (d : dim) (s : asked) : pyslice :=
  match s with None => slice_none | Some _ => slice_of (fst (window d s) - fst (bounds_local d)) (snd (window d s) - fst (bounds_local d)) end.
Definition raw_slc (s : asked) : slc := match s with None => SSlice slice_none | Some (a, b) => SSlice (slice_of a b) end.

Lemma to_raw_slc s : to_raw s = slc_raw (raw_slc s).
Proof. destruct s as [[a b]|]; reflexivity. Qed.

Lemma local_axis_spec d s : Axis d s -> overlaps d s = true -> local_axis d (raw_slc s) = Ok (Some (SSlice (local_slice d s))).
Proof.
  intros [Em [L [BL [_ A]]]] O. destruct s as [[a b]|]; [|reflexivity]. unfold overlaps, window in O. cbn [fst snd] in O. apply Z.ltb_lt in O.
  cbn [raw_slc local_axis]. change (pyslice_eqb (slice_of a b) slice_none) with false. unfold get_global_to_local_slice. cbn [sl_start sl_stop slice_of local_slice window fst snd].
  destruct (bounds_local d) as [lo hi]. cbn [fst snd] in *.
  destruct (Z.geb_spec a hi); [lia|]. destruct (Z.leb_spec b lo); [lia|]. destruct (Z.ltb_spec a lo), (Z.ltb_spec hi b); cbn [bind]; repeat f_equal; unfold slice_of; repeat f_equal; lia.
Qed.

Lemma local_slice_positions d s : Axis d s -> overlaps d s = true ->
  fancy_getitem (zrange 0 (dim_len d)) (SSlice (local_slice d s)) = Ok (zrange (fst (window d s) - fst (bounds_local d)) (snd (window d s) - fst (bounds_local d))).
Proof.
  intros [Em [L [BL [_ A]]]] O. unfold overlaps in O. apply Z.ltb_lt in O. cbn [fancy_getitem]. f_equal. destruct s as [[a b]|]; cbn [local_slice].
  - unfold window in *. cbn [fst snd] in *. set (p := Z.max a (fst (bounds_local d)) - fst (bounds_local d)). set (q := Z.min b (snd (bounds_local d)) - fst (bounds_local d)).
    rewrite py_slice_cutout by lia. unfold cutout. rewrite !Z.sub_0_r, skipn_firstn_comm.
    replace (Z.to_nat q - Z.to_nat p)%nat with (Z.to_nat (q - p)) by lia.
    rewrite firstn_skipn_zrange by lia. f_equal; lia.
  - rewrite py_slice_all. unfold window in *. f_equal; lia.
Qed.

Lemma local_getitem d s : Axis d s -> overlaps d s = true -> exists d', dim_getitem d (RSlice (local_slice d s)) = Ok d'.
Proof.
  intros [Em [L [BL [[l R] A]]]] O. unfold overlaps in O. apply Z.ltb_lt in O. assert (LL : zlen l = dim_len d) by apply R.
  destruct (dim_getitem_spec d l (RSlice (local_slice d s)) R ltac:(lia)) as [d' [l' [E _]]]; [|eauto].
  destruct s as [[a b]|]; cbn [local_slice]; [|exact Logic.I]. unfold window in *. cbn [InRange slice_of fst snd] in *. left. lia.
Qed.

Lemma axes_here dims (ss : list asked) : Forall2 Axis dims ss -> Forall2 (fun d s => overlaps d s = true) dims ss ->
  map_res (fun p => local_axis (fst p) (snd p)) (combine dims (map raw_slc ss)) = Ok (map (fun p => Some (SSlice (local_slice (fst p) (snd p)))) (combine dims ss)) /\
  (exists ds, map_res (fun p => dim_getitem (fst p) (slc_raw (snd p))) (combine dims (map (fun p => SSlice (local_slice (fst p) (snd p))) (combine dims ss))) = Ok ds) /\
  axis_positions (map dim_len dims) (map (fun p => SSlice (local_slice (fst p) (snd p))) (combine dims ss)) =
    Ok (map (fun p => zrange (fst (window (fst p) (snd p)) - fst (bounds_local (fst p))) (snd (window (fst p) (snd p)) - fst (bounds_local (fst p)))) (combine dims ss)).
Proof.
  unfold axis_positions. induction 1 as [|d s dims ss A F IH]; intros O; [repeat split; eexists; reflexivity|]. inversion O as [|? ? ? ? O1 O2]; subst.
  destruct (IH O2) as [E1 [[ds E2] E3]]. destruct (local_getitem d s A O1) as [d' E4]. cbn [map combine map_res fst snd slc_raw].
  rewrite (local_axis_spec d s A O1), (local_slice_positions d s A O1), E4. cbn [bind]. rewrite E1, E2, E3. cbn [bind]. repeat split; eexists; reflexivity.
Qed.

Lemma map_res_map_ok {A B C} (f : A -> B) (g : B -> res C) (h : A -> C) : (forall x, g (f x) = Ok (h x)) -> forall l, map_res g (map f l) = Ok (map h l).
Proof. intros H. induction l as [|x t IH]; [reflexivity|]. cbn [map map_res]. rewrite H. cbn [bind]. rewrite IH. reflexivity. Qed.

Lemma no_arrays l : filter (fun b : bool => b) (map is_array (map (fun p : dim * asked => SSlice (local_slice (fst p) (snd p))) l)) = [].
Proof. induction l; [reflexivity | assumption]. Qed.

Lemma pick_axes_shift : forall (l : list (dim * asked)) idx,
  Inside (map (fun p => snd (window (fst p) (snd p)) - fst (window (fst p) (snd p))) l) idx ->
  pick_axes (map (fun p => zrange (fst (window (fst p) (snd p)) - fst (bounds_local (fst p))) (snd (window (fst p) (snd p)) - fst (bounds_local (fst p)))) l) idx
  = shift (map (fun p => fst (window (fst p) (snd p)) - fst (bounds_local (fst p))) l) idx.
Proof.
  induction l as [|p t IH]; intros idx H; inversion H as [|? i ? idx' I0 I1]; subst; [reflexivity|].
  cbn [map pick_axes shift combine fst snd]. fold (shift (map (fun p => fst (window (fst p) (snd p)) - fst (bounds_local (fst p))) t) idx'). rewrite (IH _ I1). f_equal.
  erewrite nth_error_nth by (apply nth_error_zrange; lia). lia.
Qed.

Lemma shift_shift : forall (l : list (dim * asked)) idx, List.length idx = List.length l ->
  shift (map (fun p => fst (bounds_local (fst p))) l) (shift (map (fun p => fst (window (fst p) (snd p)) - fst (bounds_local (fst p))) l) idx)
  = shift (map (fun p => fst (window (fst p) (snd p))) l) idx.
Proof.
  induction l as [|p t IH]; intros [|i idx] H; cbn [List.length] in H; try discriminate; [reflexivity|].
  unfold shift in *. cbn [map combine fst snd]. rewrite (IH idx) by lia. f_equal. lia.
Qed.

Lemma inside_shift : forall dims (ss : list asked), Forall2 Axis dims ss -> Forall2 (fun d s => overlaps d s = true) dims ss -> forall idx,
  Inside (map (fun p => snd (window (fst p) (snd p)) - fst (window (fst p) (snd p))) (combine dims ss)) idx ->
  Inside (map dim_len dims) (shift (map (fun p => fst (window (fst p) (snd p)) - fst (bounds_local (fst p))) (combine dims ss)) idx).
Proof.
  induction 1 as [|d s dims ss A F IH]; intros O idx X; inversion X as [|? i ? idx' I0 I1]; subst; [constructor|]. inversion O as [|? ? ? ? O1 O2]; subst.
  unfold shift. cbn [map combine fst snd]. constructor; [|apply (IH O2 _ I1)].
  cbn [fst snd] in I0. destruct A as [_ [L [BL [_ A]]]]. destruct s as [[a b]|]; unfold window in *; cbn [fst snd] in *; lia.
Qed.

Lemma combine_fst {B} (f : dim -> B) : forall dims (ss : list asked), List.length dims = List.length ss -> map (fun p => f (fst p)) (combine dims ss) = map f dims.
Proof. induction dims as [|d t IH]; intros [|s ss] H; cbn [List.length] in H; try discriminate; [reflexivity|]. cbn [combine map fst]. rewrite IH by lia. reflexivity. Qed.

Lemma here_spec {A} (g : nd A) v (ss : list asked) news : Holds g v -> Forall2 Axis (dv_dims v) ss ->
  Forall2 (fun p d' => d_empty d' = negb (overlaps (fst p) (snd p))) (combine (dv_dims v) ss) news ->
  exists o, distributed_here v (map raw_slc ss) news = Ok o /\
    match o with
    | None => Exists (fun p => snd (window (fst p) (snd p)) <= fst (window (fst p) (snd p))) (combine (dv_dims v) ss)
    | Some w => dv_dims w = news /\
      nd_shape (dv_value w) = map (fun p => snd (window (fst p) (snd p)) - fst (window (fst p) (snd p))) (combine (dv_dims v) ss) /\
      forall idx, Inside (nd_shape (dv_value w)) idx -> nd_at (dv_value w) idx = nd_at g (shift (map (fun p => fst (window (fst p) (snd p))) (combine (dv_dims v) ss)) idx)
    end.
Proof.
  intros [HS HV] F N. unfold distributed_here. destruct (existsb d_empty news) eqn:E.
  - exists None. split; [reflexivity|]. clear - N E. induction N as [|p d' l l' X N IH]; [discriminate|]. cbn [existsb] in E. apply orb_true_iff in E as [E|E].
    + left. rewrite E in X. unfold overlaps in X. destruct (Z.ltb_spec (fst (window (fst p) (snd p))) (snd (window (fst p) (snd p)))); [discriminate | assumption].
    + right. apply IH, E.
  - assert (O : Forall2 (fun d s => overlaps d s = true) (dv_dims v) ss).
    { clear - N E F. revert news N E. induction F as [|d s dims ss AX F IH]; intros news N E; [constructor|]. cbn [combine] in N. inversion N as [|? d' ? news' X N']; subst.
      cbn [existsb] in E. apply orb_false_iff in E as [E1 E2]. constructor; [|apply (IH _ N' E2)]. rewrite E1 in X. cbn [fst snd] in X. destruct (overlaps d s); [reflexivity | discriminate]. }
    destruct (axes_here _ _ F O) as [E1 [[ds E2] E3]]. rewrite E1. cbn [bind].
    rewrite (map_res_map_ok _ _ (fun p => SSlice (local_slice (fst p) (snd p)))) by reflexivity.
    unfold slice_here.
    rewrite (map_res_map_ok _ _ (fun p => SSlice (local_slice (fst p) (snd p)))) by reflexivity. cbn [bind]. rewrite E2. cbn [bind].
    unfold np_getitem. rewrite HS. assert (L : List.length (dv_dims v) = List.length ss) by (clear - F; induction F; cbn [List.length]; congruence).
    assert (zlen (map dim_len (dv_dims v)) =? zlen (map (fun p => SSlice (local_slice (fst p) (snd p))) (combine (dv_dims v) ss)) = true) as ->.
    { unfold zlen. rewrite !map_length, combine_length. lia. }
    rewrite E3. cbn [bind]. rewrite no_arrays. cbn [bind zlen List.length Z.of_nat Z.leb Z.compare].
    eexists. split; [reflexivity|]. cbn [dv_dims dv_value nd_shape nd_at]. split; [reflexivity|].
    assert (W : map zlen (map (fun p => zrange (fst (window (fst p) (snd p)) - fst (bounds_local (fst p))) (snd (window (fst p) (snd p)) - fst (bounds_local (fst p)))) (combine (dv_dims v) ss))
       = map (fun p => snd (window (fst p) (snd p)) - fst (window (fst p) (snd p))) (combine (dv_dims v) ss)).
    { clear - O. induction O as [|d s dims ss X O IH]; [reflexivity|]. cbn [combine map fst snd]. rewrite IH. f_equal. rewrite zrange_zlen. unfold overlaps in X. lia. }
    split; [exact W|]. rewrite W. intros idx X. rewrite (pick_axes_shift _ _ X).
    rewrite HV by (rewrite HS; apply (inside_shift _ _ F O _ X)). f_equal.
    rewrite <- (combine_fst (fun d => fst (bounds_local d)) _ _ L). apply shift_shift.
    assert (LX : List.length (map (fun p => snd (window (fst p) (snd p)) - fst (window (fst p) (snd p))) (combine (dv_dims v) ss)) = List.length idx) by (clear - X; induction X; cbn [List.length]; congruence).
    rewrite map_length in LX. congruence.
Qed.

Lemma forall2_nth {A B} (P : A -> B -> Prop) : forall l l', List.length l = List.length l' ->
  (forall i x y, nth_error l i = Some x -> nth_error l' i = Some y -> P x y) -> Forall2 P l l'.
Proof.
  induction l as [|x t IH]; intros [|y t'] L H; cbn [List.length] in L; try discriminate; constructor.
  - apply (H 0%nat); reflexivity.
  - apply IH; [lia|]. intros i. apply (H (S i)).
Qed.
Lemma forall2_nth_inv {A B} (P : A -> B -> Prop) l l' : Forall2 P l l' -> forall i x y, nth_error l i = Some x -> nth_error l' i = Some y -> P x y.
Proof.
  induction 1 as [|x y t t' H F IH]; intros [|i] a b X Y; cbn [nth_error] in *; try discriminate; [congruence|]. apply (IH _ _ _ X Y).
Qed.
Lemma forall2_len {A B} (P : A -> B -> Prop) l l' : Forall2 P l l' -> List.length l = List.length l'.
Proof. induction 1; cbn [List.length]; congruence. Qed.

Lemma columns_spec {A} (ranks : list (dvar A)) : forall (ss : list asked) k (flags : nat -> bool),
  (forall i s, nth_error ss i = Some s -> Forall (fun v => Axis (nth (k + i) (dv_dims v) no_dim) s /\ d_dist (nth (k + i) (dv_dims v) no_dim) = flags (k + i)%nat) ranks) ->
  exists columns, map_res (fun p => get_distributed_slice (map (fun v => (nth (fst p) (dv_dims v) no_dim, slc_raw (snd p))) ranks))
      (combine (seq k (List.length ss)) (map raw_slc ss)) = Ok columns /\ List.length columns = List.length ss /\
    forall i s col, nth_error ss i = Some s -> nth_error columns i = Some col ->
      Forall2 (fun v d' => d_empty d' = negb (overlaps (nth (k + i) (dv_dims v) no_dim) s)) ranks col.
Proof.
  induction ss as [|s ss IH]; intros k flags H; [exists []; repeat split; intros [|i]; discriminate|].
  destruct (IH (S k) flags) as [columns [E [L F]]].
  { intros i s' N. replace (S k + i)%nat with (k + S i)%nat by lia. apply (H (S i)). exact N. }
  destruct (column_spec s (flags k) (map (fun v => nth k (dv_dims v) no_dim) ranks)) as [col [E0 F0]].
  { apply Forall_map. specialize (H 0%nat s eq_refl). rewrite Nat.add_0_r in H. exact H. }
  exists (col :: columns). cbn [List.length seq map combine map_res fst snd]. rewrite map_map, to_raw_slc in E0. rewrite E0. cbn [bind]. rewrite E. cbn [bind].
  split; [reflexivity|]. split; [congruence|]. intros [|i] s' col' N1 N2; cbn [nth_error] in N1, N2.
  - injection N1 as <-. injection N2 as <-. rewrite Nat.add_0_r. clear - F0. remember (map (fun v => nth k (dv_dims v) no_dim) ranks) as l eqn:EL. revert ranks EL.
    induction F0 as [|d d' l l' X F IH]; intros [|v r] EL; try discriminate; constructor; injection EL as -> ->; [exact X | apply IH; reflexivity].
  - replace (k + S i)%nat with (S k + i)%nat by lia. apply (F _ _ _ N1 N2).
Qed.

Lemma map_res_positions {A B} (f : nat * A -> res B) (P : A -> B -> Prop) : forall l k,
  (forall i x, nth_error l i = Some x -> exists y, f ((k + i)%nat, x) = Ok y /\ P x y) ->
  exists l', map_res f (combine (seq k (List.length l)) l) = Ok l' /\ Forall2 P l l'.
Proof.
  induction l as [|x t IH]; intros k H; [exists []; split; [reflexivity | constructor]|].
  destruct (IH (S k)) as [l' [E F]]. { intros i y N. replace (S k + i)%nat with (k + S i)%nat by lia. apply (H (S i)). exact N. }
  destruct (H 0%nat x eq_refl) as [y [E0 P0]]. rewrite Nat.add_0_r in E0. cbn [List.length seq combine map_res]. rewrite E0. cbn [bind]. rewrite E. cbn [bind].
  eexists. split; [reflexivity|]. constructor; assumption.
Qed.

Lemma here_dims {A} ss columns : forall (ranks : list (dvar A)) k outs,
  map_res (fun p => distributed_here (snd p) ss (map (fun col => nth (fst p) col no_dim) columns)) (combine (seq k (List.length ranks)) ranks) = Ok outs ->
  forall j w, nth_error outs j = Some (Some w) -> dv_dims w = map (fun col => nth (k + j) col no_dim) columns.
Proof.
  induction ranks as [|v ranks IH]; intros k outs E j w N; cbn [List.length seq combine map_res fst snd] in E; [injection E as <-; destruct j; discriminate|].
  destruct (distributed_here v ss _) as [o|] eqn:E0; [|discriminate]. cbn [bind] in E.
  destruct (map_res _ (combine (seq (S k) (List.length ranks)) ranks)) as [os|] eqn:E1; [|discriminate]. cbn [bind] in E. injection E as <-.
  destruct j as [|j]; cbn [nth_error] in N; [|rewrite <- Nat.add_succ_comm; apply (IH _ _ E1 _ _ N)].
  injection N as ->. rewrite Nat.add_0_r. unfold distributed_here in E0. destruct (existsb d_empty _); [discriminate|].
  destruct (map_res _ (combine (dv_dims v) ss)) as [local|]; [|discriminate]. cbn [bind] in E0.
  destruct (map_res _ local) as [local'|]; [|discriminate]. destruct (slice_here v local' _) as [w'|] eqn:E2; [|discriminate]. cbn [bind] in E0. injection E0 as ->.
  unfold slice_here in E2. destruct (map_res _ local') as [local''|]; [|discriminate]. cbn [bind] in E2. destruct (map_res _ (combine _ _)); [|discriminate]. cbn [bind] in E2.
  destruct (np_getitem _ _); [|discriminate]. cbn [bind] in E2. injection E2 as <-. reflexivity.
Qed.

Theorem variable_slice_spec {A} (g : nd A) (ranks : list (dvar A)) (ss : list asked) (flags : list bool) :
  Forall (fun v => Holds g v /\ Forall2 Axis (dv_dims v) ss /\ map d_dist (dv_dims v) = flags) ranks ->
  exists outs, variable_slice ranks (map to_raw ss) = Ok outs /\
    Forall2 (fun v o => match o with
      | None => Exists (fun p => snd (window (fst p) (snd p)) <= fst (window (fst p) (snd p))) (combine (dv_dims v) ss)
      | Some w =>
        nd_shape (dv_value w) = map (fun p => snd (window (fst p) (snd p)) - fst (window (fst p) (snd p))) (combine (dv_dims v) ss) /\
        forall idx, Inside (nd_shape (dv_value w)) idx -> nd_at (dv_value w) idx = nd_at g (shift (map (fun p => fst (window (fst p) (snd p))) (combine (dv_dims v) ss)) idx)
      end) ranks outs /\
    exists columns,
      Forall2 (fun p col => get_distributed_slice (map (fun v => (nth (fst p) (dv_dims v) no_dim, to_raw (snd p))) ranks) = Ok col) (combine (seq 0 (List.length ss)) ss) columns /\
      forall j w, nth_error outs j = Some (Some w) -> dv_dims w = map (fun col => nth j col no_dim) columns.
Proof.
  intros F. unfold variable_slice.
  assert (existsb (fun v => existsb d_empty (dv_dims v)) ranks = false) as ->.
  { clear - F. induction F as [|v t [_ [X _]] F IH]; [reflexivity|]. cbn [existsb]. rewrite IH, orb_false_r. clear - X.
    induction X as [|d s l l' Y X IH]; [reflexivity|]. cbn [existsb]. rewrite (proj1 Y). exact IH. }
  rewrite (map_res_map_ok to_raw format_singleton raw_slc) by (intros [[a b]|]; reflexivity). cbn [bind]. rewrite map_length.
  destruct (columns_spec ranks ss 0 (fun i => nth i flags false)) as [columns [E [L C]]].
  { intros i s N. eapply Forall_impl; [|exact F]. cbn beta. intros v [_ [X Y]]. cbn [Nat.add].
    assert (LT : (i < List.length (dv_dims v))%nat) by (rewrite (forall2_len _ _ _ X); apply nth_error_Some; congruence).
    split.
    - destruct (nth_error (dv_dims v) i) as [d|] eqn:D; [|apply nth_error_None in D; lia].
      rewrite (nth_error_nth _ _ no_dim D). apply (forall2_nth_inv _ _ _ X _ _ _ D N).
    - rewrite <- Y. rewrite (nth_indep (map d_dist (dv_dims v)) false (d_dist no_dim)) by (rewrite map_length; exact LT). rewrite map_nth. reflexivity. }
  rewrite E. cbn [bind].
  assert (CS : Forall2 (fun p col => get_distributed_slice (map (fun v => (nth (fst p) (dv_dims v) no_dim, to_raw (snd p))) ranks) = Ok col) (combine (seq 0 (List.length ss)) ss) columns).
  { clear - E. revert columns E. generalize 0%nat. induction ss as [|s ss IH]; intros k columns E; cbn [List.length seq map combine map_res fst snd] in *; [injection E as <-; constructor|].
    destruct (get_distributed_slice (map (fun v => (nth k (dv_dims v) no_dim, slc_raw (raw_slc s))) ranks)) as [col|] eqn:E0; [|discriminate]. cbn [bind] in E.
    destruct (map_res _ (combine (seq (S k) (List.length ss)) (map raw_slc ss))) as [cols|] eqn:E1; [|discriminate]. cbn [bind] in E. injection E as <-.
    constructor; [cbn [fst snd]; rewrite to_raw_slc; exact E0 | apply (IH _ _ E1)]. }
  enough (exists outs, map_res (fun p => distributed_here (snd p) (map raw_slc ss) (map (fun col => nth (fst p) col no_dim) columns)) (combine (seq 0 (List.length ranks)) ranks) = Ok outs /\
    Forall2 (fun v o => match o with
      | None => Exists (fun p => snd (window (fst p) (snd p)) <= fst (window (fst p) (snd p))) (combine (dv_dims v) ss)
      | Some w =>
        nd_shape (dv_value w) = map (fun p => snd (window (fst p) (snd p)) - fst (window (fst p) (snd p))) (combine (dv_dims v) ss) /\
        forall idx, Inside (nd_shape (dv_value w)) idx -> nd_at (dv_value w) idx = nd_at g (shift (map (fun p => fst (window (fst p) (snd p))) (combine (dv_dims v) ss)) idx)
      end) ranks outs) as [outs [EO FO]].
  { exists outs. split; [exact EO|]. split; [exact FO|]. exists columns. split; [exact CS|]. intros j w N. exact (here_dims _ _ _ _ _ EO _ _ N). }
  apply (map_res_positions (fun p => distributed_here (snd p) (map raw_slc ss) (map (fun col => nth (fst p) col no_dim) columns))).
  intros j v N. cbn [Nat.add fst snd]. assert (V := proj1 (Forall_forall _ _) F v (nth_error_In _ _ N)). cbn beta in V. destruct V as [HV [X Y]].
  destruct (here_spec g v ss (map (fun col => nth j col no_dim) columns) HV X) as [o [EO O]].
  - apply forall2_nth; [rewrite map_length, combine_length, L, (forall2_len _ _ _ X); lia|].
    intros i [d s] d' N1 N2. cbn [fst snd].
    assert (N3 : nth_error (dv_dims v) i = Some d /\ nth_error ss i = Some s).
    { clear - N1. revert i ss N1. generalize (dv_dims v). induction l as [|x t IH]; intros i ss N1; [destruct i; discriminate|].
      destruct ss as [|y ss]; [destruct i; discriminate|]. destruct i as [|i]; cbn [combine nth_error] in *; [split; congruence | apply IH, N1]. }
    destruct N3 as [N3 N4]. destruct (nth_error columns i) as [col|] eqn:CE.
    + rewrite (map_nth_error _ _ _ CE) in N2. injection N2 as <-. specialize (C i s col N4 CE). cbn [Nat.add] in C.
      destruct (nth_error col j) as [d0|] eqn:D0; [|apply nth_error_None in D0; rewrite <- (forall2_len _ _ _ C) in D0; assert (j < List.length ranks)%nat by (apply nth_error_Some; congruence); lia].
      rewrite (nth_error_nth _ _ no_dim D0). rewrite (forall2_nth_inv _ _ _ C _ _ _ N D0). rewrite (nth_error_nth _ _ no_dim N3). reflexivity.
    + apply nth_error_None in CE. assert (i < List.length ss)%nat by (apply nth_error_Some; congruence). lia.
  - exists o. split; [exact EO|]. destruct o as [w|]; [|exact O]. destruct O as [_ O]. exact O.
Qed.
