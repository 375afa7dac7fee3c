From Verif Require Import Py Lib Spec PartitionModel PartitionSpec PartitionProofs DimensionModel DimensionSpec DimensionProofs.

Lemma dist_getitem_slice d l a b :
  Represents d l -> d_dist d = true -> d_empty d = false -> 0 <= a < b -> b <= zlen l ->
  exists d', dim_getitem d (RSlice (slice_of a b)) = Ok d' /\ Represents d' (py_slice l (slice_of a b)) /\
    (d_src d' = None <-> d_src d = None) /\ d_name d' = d_name d /\
    d_dist d' = true /\ d_empty d' = false /\ d_bounds_local d' = None.
Proof.
  intros HR Hd He Hab Hb. unfold dim_getitem.
  replace (dim_len d =? 0) with false by (destruct HR; lia).
  cbn [get_formatted_slice1 format_singleton bind].
  destruct (getitem_main_slice d l a b HR ltac:(lia) ltac:(lia)) as [d' [E [HR' [Hn [Hnm [H1 [H2 H3]]]]]]].
  exists d'. rewrite Hd in H1. rewrite He in H2. tauto.
Qed.

Definition cutout (a b lo : Z) (l : list Z) : list Z :=
  skipn (Z.to_nat (a - lo)) (firstn (Z.to_nat (b - lo)) l).

Lemma cutout_app a b lo l r :
  cutout a b lo (l ++ r) = cutout a b lo l ++ cutout a b (lo + zlen l) r.
Proof.
  unfold cutout. rewrite firstn_app, skipn_app.
  f_equal. rewrite firstn_length. unfold zlen.
  destruct (Nat.le_gt_cases (List.length l) (Z.to_nat (b - lo))) as [H|H].
  - rewrite Nat.min_r by lia.
    replace (Z.to_nat (a - lo) - List.length l)%nat with (Z.to_nat (a - (lo + Z.of_nat (List.length l)))) by lia.
    replace (Z.to_nat (b - lo) - List.length l)%nat with (Z.to_nat (b - (lo + Z.of_nat (List.length l)))) by lia.
    reflexivity.
  - replace (Z.to_nat (b - lo) - List.length l)%nat with 0%nat by lia.
    replace (Z.to_nat (b - (lo + Z.of_nat (List.length l)))) with 0%nat by lia.
    cbn [firstn]. rewrite !skipn_nil. reflexivity.
Qed.

Lemma py_slice_cutout (l : list Z) a b : 0 <= a -> 0 <= b -> py_slice l (slice_of a b) = cutout a b 0 l.
Proof.
  intros Ha Hb. unfold py_slice, cutout, slice_bounds, slice_of, clip_end; cbn [sl_start sl_stop].
  replace (a <? 0) with false by lia. replace (b <? 0) with false by lia.
  rewrite !Z.sub_0_r.
  destruct (Z_le_gt_dec a (zlen l)) as [H|H].
  - rewrite (Z.min_l a) by lia. rewrite skipn_firstn_comm.
    destruct (Z_le_gt_dec b (zlen l)) as [H2|H2].
    + rewrite Z.min_l by lia. f_equal. lia.
    + rewrite Z.min_r by lia. rewrite !firstn_all2; [reflexivity| |]; rewrite skipn_length; unfold zlen in *; lia.
  - rewrite (Z.min_r a) by lia.
    rewrite (skipn_all2 l) by (unfold zlen; lia). rewrite firstn_nil.
    rewrite skipn_all2; [reflexivity|]. rewrite firstn_length. unfold zlen in *; lia.
Qed.

Lemma py_slice_local l a b lo :
  0 <= a <= b -> b <= zlen l -> 
  py_slice l (slice_of a b) = cutout (a + lo) (b + lo) lo l.
Proof.
  intros H1 H2. rewrite py_slice_cutout by lia. unfold cutout.
  replace (a + lo - lo) with (a - 0) by lia. replace (b + lo - lo) with (b - 0) by lia. reflexivity.
Qed.

(** One rank's part of the slice. *)
Lemma local_part_spec d l a b :
  Represents d l -> d_dist d = true -> d_empty d = false -> 0 < dim_len d ->
  snd (bounds_local d) - fst (bounds_local d) = dim_len d -> a < b ->
  exists d', local_part (RSlice (slice_of a b)) d = Ok d' /\
    Represents d' (cutout a b (fst (bounds_local d)) l) /\ d_dist d' = true /\ d_name d' = d_name d /\
    ((d_empty d' = true /\ dim_len d' = 0 /\ d_src d' = None) \/
     (d_empty d' = false /\ 0 < dim_len d' /\ d_bounds_local d' = None /\ (d_src d' = None <-> d_src d = None))).
Proof.
  intros HR Hd He Hpos Hbl Hab. unfold local_part. rewrite He.
  cbn [get_formatted_slice1 format_singleton bind sl_start sl_stop slice_of].
  destruct (bounds_local d) as [lo hi] eqn:Eb; cbn [fst snd] in *.
  pose proof (global_to_local_spec a b lo hi Hab ltac:(lia)) as HG.
  pose proof HR as [Hlen Hsrc].
  destruct (get_global_to_local_slice (Some a) (Some b) (lo, hi)) as [[[x y]|]|e] eqn:EG; [| |destruct HG]; cbn [bind].
  - destruct HG as [Hx [Hy Hi]].
    destruct (dist_getitem_slice d l x y HR Hd He Hx ltac:(lia)) as [d' [E [HR' [Hn [Hnm [H1 [H2 H3]]]]]]].
    exists d'. split; [exact E|].
    assert (Hcut : py_slice l (slice_of x y) = cutout a b lo l).
    { rewrite (py_slice_local l x y lo) by lia.
      pose proof (Hi x) as Hix. pose proof (Hi (y - 1)) as Hiy. pose proof (Hi (x - 1)) as Hix1. pose proof (Hi y) as Hiy1.
      assert (Ex : x = Z.max 0 (a - lo)) by lia.
      assert (Ey : y = Z.min (hi - lo) (b - lo)) by lia.
      unfold cutout. replace (Z.to_nat (x + lo - lo)) with (Z.to_nat (a - lo)) by lia.
      f_equal. replace (y + lo - lo) with y by lia.
      destruct (Z_le_gt_dec (b - lo) (hi - lo)) as [Hc|Hc].
      - f_equal; lia.
      - rewrite !firstn_all2; [reflexivity|unfold zlen in *; lia|unfold zlen in *; lia]. }
    rewrite <- Hcut. split; [exact HR'|]. split; [exact H1|]. split; [exact Hnm|]. right.
    split; [exact H2|]. split; [|split; [exact H3|exact Hn]].
    destruct HR' as [HL _]. rewrite <- HL.
    unfold py_slice, slice_bounds, slice_of, clip_end; cbn [sl_start sl_stop].
    replace (x <? 0) with false by lia. replace (y <? 0) with false by lia.
    rewrite !Z.min_l by lia. rewrite zlen_py_slice_bounds by lia. lia.
  - unfold convert_to_empty. rewrite Hd. eexists; split; [reflexivity|].
    assert (Hcut : cutout a b lo l = []).
    { unfold cutout. destruct (Z_le_gt_dec b lo) as [H|H].
      - replace (Z.to_nat (b - lo)) with 0%nat by lia. cbn [firstn]. apply skipn_nil.
      - destruct (Z_le_gt_dec hi a) as [H2|H2].
        + apply skipn_all2. rewrite firstn_length. unfold zlen in *; lia.
        + exfalso. apply (HG (Z.max a lo)). lia. }
    rewrite Hcut. split; [split; reflexivity|]. split; [reflexivity|]. split; [reflexivity|]. left; repeat split.
Qed.

Lemma represents_set_bounds_global d l b : Represents d l -> Represents (set_bounds_global d b) l.
Proof. intros [H1 H2]; split; assumption. Qed.
Lemma represents_set_bounds_local d l b : Represents d l -> Represents (set_bounds_local d b) l.
Proof. intros [H1 H2]; split; assumption. Qed.

Lemma tiles_shift : forall l lo hi c, Tiles lo hi l -> Tiles (lo + c) (hi + c) (map (fun b => (fst b + c, snd b + c)) l).
Proof.
  induction l as [|[a b] t IH]; intros lo hi c H; cbn [Tiles map fst snd] in *; [lia|].
  destruct H as [-> [H1 H2]]. split; [reflexivity|]. split; [lia|]. apply IH; exact H2.
Qed.

Definition fresh (d : dim) : Prop :=
  (d_empty d = true /\ dim_len d = 0) \/ (d_empty d = false /\ 0 <= dim_len d /\ d_bounds_local d = None).

Lemma normalize_rest_spec : forall ds adjust, Forall fresh ds ->
  Tiles adjust (adjust + zsum (map dim_len ds)) (map bounds_local (filter nonempty (normalize_rest adjust ds))) /\
  Forall (fun d => d_empty d = false -> snd (bounds_local d) - fst (bounds_local d) = dim_len d) (normalize_rest adjust ds) /\
  Forall2 (fun d d' => d_name d' = d_name d /\ d_src d' = d_src d /\ dim_len d' = dim_len d /\ d_dist d' = d_dist d /\ d_empty d' = d_empty d /\ d_bounds_global d' = d_bounds_global d) ds (normalize_rest adjust ds).
Proof.
  induction ds as [|d t IH]; intros adjust HF; cbn [normalize_rest map].
  - cbn. split; [lia|]. split; constructor.
  - inversion HF as [|? ? Hd Ht]; subst. rewrite zsum_cons. destruct Hd as [[He Hl]|[He [Hl Hb]]]; rewrite He.
    + destruct (IH adjust Ht) as [H1 [H2 H3]]. cbn [filter]. unfold nonempty at 1. rewrite He. cbn [negb].
      split; [|split].
      * rewrite Hl. exact H1.
      * constructor; [congruence|exact H2].
      * constructor; [repeat split|exact H3].
    + destruct (IH (adjust + dim_len d) Ht) as [H1 [H2 H3]]. cbn [filter].
      unfold nonempty at 1. cbn [set_bounds_local d_empty]. rewrite He. cbn [negb map].
      assert (Eb : bounds_local d = (0, dim_len d)) by (unfold bounds_local; rewrite Hb; reflexivity).
      assert (Eb2 : bounds_local (set_bounds_local d (fst (bounds_local d) + adjust, snd (bounds_local d) + adjust)) = (adjust, adjust + dim_len d)).
      { rewrite Eb. unfold bounds_local; cbn [set_bounds_local d_bounds_local fst snd]. f_equal; lia. }
      split; [|split].
      * cbn [Tiles]. rewrite Eb2. split; [lia|]. split; [lia|].
        replace (adjust + (dim_len d + zsum (map dim_len t))) with (adjust + dim_len d + zsum (map dim_len t)) by lia. exact H1.
      * constructor; [|exact H2]. intros _. rewrite Eb2. cbn [fst snd]. unfold dim_len; cbn [set_bounds_local d_size d_size_current]. lia.
      * constructor; [repeat split|exact H3].
Qed.

Lemma normalize_bounds_spec : forall ds, Forall fresh ds ->
  Tiles 0 (zsum (map dim_len ds)) (map bounds_local (filter nonempty (normalize_bounds ds))) /\
  Forall (fun d => d_empty d = false -> snd (bounds_local d) - fst (bounds_local d) = dim_len d) (normalize_bounds ds) /\
  Forall2 (fun d d' => d_name d' = d_name d /\ d_src d' = d_src d /\ dim_len d' = dim_len d /\ d_dist d' = d_dist d /\ d_empty d' = d_empty d /\ d_bounds_global d' = d_bounds_global d) ds (normalize_bounds ds).
Proof.
  induction ds as [|d t IH]; intros HF; cbn [normalize_bounds map].
  - cbn. repeat split; constructor.
  - inversion HF as [|? ? Hd Ht]; subst. rewrite zsum_cons. destruct Hd as [[He Hl]|[He [Hl Hb]]]; rewrite He.
    + destruct (IH Ht) as [H1 [H2 H3]]. cbn [filter]. unfold nonempty at 1. rewrite He. cbn [negb].
      split; [|split].
      * rewrite Hl. exact H1.
      * constructor; [congruence|exact H2].
      * constructor; [repeat split|exact H3].
    + destruct (normalize_rest_spec t (dim_len d) Ht) as [H1 [H2 H3]]. cbn [filter].
      unfold nonempty at 1. rewrite He. cbn [negb map].
      assert (Eb : bounds_local d = (0, dim_len d)) by (unfold bounds_local; rewrite Hb; reflexivity).
      split; [|split].
      * cbn [Tiles]. rewrite Eb. split; [reflexivity|]. split; [lia|exact H1].
      * constructor; [intros _; rewrite Eb; cbn [fst snd]; lia|exact H2].
      * constructor; [repeat split|exact H3].
Qed.

Lemma zsum_lens_concat (ls : list (list Z)) : zsum (map zlen ls) = zlen (concat ls).
Proof.
  induction ls as [|l t IH]; [reflexivity|]. cbn [map concat]. rewrite zsum_cons, zlen_app. lia.
Qed.

Lemma choose_path_collective a b dims : Forall (fun d => d_dist d = true /\ d_empty d = false) dims ->
  map_res choose_path (map (fun d => (d, RSlice (slice_of a b))) dims) = Ok (map (fun _ => PCollective) dims).
Proof.
  induction dims as [|d t IH]; intros HF; [reflexivity|].
  inversion HF as [|? ? [H1 H2] Ht]; subst. cbn [map map_res choose_path]. rewrite H2.
  cbn [get_formatted_slice1 format_singleton bind]. change (pyslice_eqb (slice_of a b) slice_none) with false.
  rewrite H1. cbn [bind]. rewrite (IH Ht). reflexivity.
Qed.

Lemma parts_spec a b : a < b -> forall dims ls lo hi,
  Forall2 Represents dims ls ->
  Forall (fun d => d_dist d = true /\ d_empty d = false /\ 0 < dim_len d /\
                   snd (bounds_local d) - fst (bounds_local d) = dim_len d) dims ->
  Tiles lo hi (map bounds_local dims) ->
  exists parts ls', map_res (fun p => local_part (snd p) (fst p)) (map (fun d => (d, RSlice (slice_of a b))) dims) = Ok parts /\
    Forall2 Represents parts ls' /\ concat ls' = cutout a b lo (concat ls) /\ Forall fresh parts /\
    Forall (fun d => d_empty d = true -> dim_len d = 0 /\ d_src d = None) parts /\
    Forall2 (fun d d' => d_dist d' = true /\ d_name d' = d_name d /\
       (d_empty d' = false -> 0 < dim_len d' /\ (d_src d' = None <-> d_src d = None))) dims parts.
Proof.
  intros Hab. induction dims as [|d t IH]; intros ls lo hi HR HF HT.
  - inversion HR; subst. exists [], []. cbn [map map_res concat]. repeat split; try constructor.
    unfold cutout. rewrite firstn_nil, skipn_nil. reflexivity.
  - inversion HR as [|? l ? ls' Hd HRt]; subst. inversion HF as [|? ? [H1 [H2 [H3 H4]]] HFt]; subst.
    cbn [map Tiles] in HT. destruct (bounds_local d) as [x y] eqn:Eb. destruct HT as [-> [Hxy HT]].
    destruct (local_part_spec d l a b Hd H1 H2 H3 ltac:(rewrite Eb; exact H4) Hab) as [d' [E [HR' [Hdist [Hnm Hcase]]]]].
    rewrite Eb in HR'; cbn [fst snd] in *.
    destruct (IH ls' y hi HRt HFt HT) as [parts [ls2 [E2 [HR2 [Hc [Hf [He Hrel]]]]]]].
    cbn [map map_res fst snd]. rewrite E; cbn [bind]. rewrite E2; cbn [bind].
    exists (d' :: parts), (cutout a b lo l :: ls2). split; [reflexivity|].
    split; [constructor; assumption|]. split.
    + cbn [concat]. rewrite cutout_app, Hc. do 2 f_equal. destruct Hd as [Hl _]. lia.
    + split; [constructor; [|exact Hf]|].
      * unfold fresh. destruct Hcase as [[? [? ?]]|[? [? [? ?]]]]; [left; tauto|right; repeat split; try assumption; lia].
      * split; [constructor; [intros Hem; destruct Hcase as [[? [? ?]]|[? ?]]; [tauto|congruence]|exact He]|].
        constructor; [|exact Hrel]. split; [exact Hdist|]. split; [exact Hnm|].
        intros Hem. destruct Hcase as [[? ?]|[? [? [? ?]]]]; [congruence|tauto].
Qed.

Lemma forallb_map_true {A} (l : list A) : forallb is_collective (map (fun _ => PCollective) l) = true.
Proof. induction l as [|x t IH]; [reflexivity|exact IH]. Qed.

Lemma represents_zsum : forall ds ls, Forall2 Represents ds ls -> zsum (map dim_len ds) = zlen (concat ls).
Proof.
  intros ds ls H. rewrite <- zsum_lens_concat. induction H as [|d l ds ls [Hl _] HF IH]; [reflexivity|].
  cbn [map]. rewrite !zsum_cons. lia.
Qed.

Definition same_rank (d d' : dim) : Prop :=
  d_dist d' = d_dist d /\ d_name d' = d_name d /\ (d_empty d' = false -> (d_src d' = None <-> d_src d = None)).

(** Lines 333-364 of the collective call. *)
Lemma distributed_finish (R : dim -> dim -> Prop) dims parts ls' :
  (forall d p p', R d p -> d_name p' = d_name p -> d_src p' = d_src p -> dim_len p' = dim_len p ->
     d_dist p' = d_dist p -> d_empty p' = d_empty p -> R d p') ->
  Forall2 Represents parts ls' -> Forall fresh parts ->
  Forall (fun d => d_empty d = true -> dim_len d = 0 /\ d_src d = None) parts ->
  Forall2 R dims parts ->
  NormalizedDistribution (normalize_bounds (map (fun d => if d_empty d then d else set_bounds_global d (0, zsum (map dim_len parts))) parts)) ls' /\
  Forall2 R dims (normalize_bounds (map (fun d => if d_empty d then d else set_bounds_global d (0, zsum (map dim_len parts))) parts)).
Proof.
  intros HRinv HR' Hf He Hrel.
  remember (zsum (map dim_len parts)) as total eqn:Etotal.
  remember (map (fun d => if d_empty d then d else set_bounds_global d (0, total)) parts) as parts' eqn:Eparts.
  assert (Hp : Forall2 (fun d d' => d_name d' = d_name d /\ d_src d' = d_src d /\ dim_len d' = dim_len d /\ d_dist d' = d_dist d /\ d_empty d' = d_empty d /\
            d_bounds_local d' = d_bounds_local d /\ (d_empty d = false -> d_bounds_global d' = Some (0, total))) parts parts').
  { rewrite Eparts. clear. induction parts as [|d t IH]; cbn [map]; constructor; [|exact IH].
    destruct (d_empty d) eqn:Ed; repeat split; try assumption; try discriminate. }
  assert (Hf' : Forall fresh parts').
  { clear -Hp Hf. induction Hp as [|d d' l l' H HF IH]; [constructor|]. inversion Hf as [|? ? Hf1 Hf2]; subst. constructor; [|apply IH; assumption].
    destruct H as [_ [_ [H1 [_ [H2 [H3 _]]]]]]. unfold fresh in *. rewrite H1, H2, H3. assumption. }
  destruct (normalize_bounds_spec parts' Hf') as [HT1 [HF1 HP1]].
  assert (Hsum : zsum (map dim_len parts') = total).
  { rewrite Etotal. clear -Hp. induction Hp as [|d d' l l' H HF IH]; [reflexivity|]. cbn [map]. rewrite !zsum_cons.
    destruct H as [_ [_ [H _]]]. lia. }
  assert (Htot : total = zlen (concat ls')) by (rewrite Etotal; apply represents_zsum; exact HR').
    (* combine the relations rank by rank *)
  assert (Hall : Forall2 (fun d d' => d_name d' = d_name d /\ d_src d' = d_src d /\ dim_len d' = dim_len d /\ d_dist d' = d_dist d /\ d_empty d' = d_empty d /\
            (d_empty d = false -> d_bounds_global d' = Some (0, total))) parts (normalize_bounds parts')).
  { clear -Hp HP1. revert HP1. generalize (normalize_bounds parts') as out.
    induction Hp as [|d d' l l' H HF IH]; intros out Ho; inversion Ho as [|? o ? out' Hd Hrest]; subst; constructor; [|apply IH; exact Hrest].
    destruct H as [A1 [A2 [A3 [A4 [A5 [_ A6]]]]]]. destruct Hd as [B1 [B2 [B3 [B4 [B5 B6]]]]].
    repeat split; try congruence. intros Hem. rewrite B6. apply A6; exact Hem. }
  split.
  - split; [|split; [|split]].
    + clear -Hall HR'. revert HR'. revert ls'. induction Hall as [|d d' l l' H HF IH]; intros ls' HR; inversion HR as [|? x ? ls2 Hx Hrest]; subst; constructor; [|apply IH; exact Hrest].
      destruct H as [_ [H1 [H2 _]]]. unfold Represents in *. rewrite H1, H2. exact Hx.
    + clear -Hall He. induction Hall as [|d d' l l' H HF IH]; [constructor|]. inversion He as [|? ? He1 He2]; subst. constructor; [|apply IH; assumption].
      destruct H as [_ [H1 [H2 [_ [H3 _]]]]]. rewrite H1, H2, H3. assumption.
    + rewrite <- Htot. clear -Hall HF1. induction Hall as [|d d' l l' H HF IH]; [constructor|]. inversion HF1 as [|? ? HF11 HF12]; subst. constructor; [|apply IH; assumption].
      intros Hem. split; [|auto]. destruct H as [_ [_ [_ [_ [H3 H4]]]]]. unfold bounds_global. rewrite H4; [reflexivity|congruence].
    + rewrite <- Htot, <- Hsum. exact HT1.
  - clear -Hall Hrel HRinv. revert Hrel. revert dims. induction Hall as [|d d' l l' H HF IH]; intros dims Hrel; inversion Hrel as [|? ? ds ? Hd Hrest]; subst; constructor; [|apply IH; exact Hrest].
    destruct H as [H0 [H1 [H2 [H4 [H3 _]]]]]. eapply HRinv; eassumption.
Qed.

Theorem distributed_slice_spec dims ls a b :
  Distributed dims ls -> 0 <= a < b ->
  exists dims' ls',
    get_distributed_slice (map (fun d => (d, RSlice (slice_of a b))) dims) = Ok dims' /\
    concat ls' = py_slice (concat ls) (slice_of a b) /\
    NormalizedDistribution dims' ls' /\
    Forall2 (fun d d' => d_dist d' = true /\ d_name d' = d_name d /\
       (d_empty d' = false -> 0 < dim_len d' /\ (d_src d' = None <-> d_src d = None))) dims dims'.
Proof.
  intros [HR [HF HT]] Hab.
  destruct (parts_spec a b ltac:(lia) dims ls 0 _ HR HF HT) as [parts [ls' [E [HR' [Hc [Hf [He Hrel]]]]]]].
  unfold get_distributed_slice.
  rewrite choose_path_collective by (eapply Forall_impl; [|exact HF]; cbn; tauto). cbn [bind].
  rewrite forallb_map_true. rewrite E. cbn [bind].
  eexists _, ls'. split; [reflexivity|]. split; [rewrite py_slice_cutout by lia; exact Hc|].
  apply distributed_finish; try assumption.
  intros d p p' [H1 [H2 H3]] -> -> -> -> ->. tauto.
Qed.

Lemma bool_select_app {A} : forall (m m2 : list bool) (l l2 : list A), List.length m = List.length l ->
  bool_select (m ++ m2) (l ++ l2) = bool_select m l ++ bool_select m2 l2.
Proof.
  induction m as [|b m IH]; intros m2 [|x l] l2 H; cbn [List.length] in H; try discriminate; [reflexivity|].
  cbn [app bool_select]. rewrite IH by lia. destruct b; reflexivity.
Qed.

(** Rank-local boolean masks. *)
Theorem distributed_bools_spec dims ls masks :
  Distributed dims ls -> Forall2 (fun m l => zlen m = zlen l) masks ls ->
  exists dims' ls',
    get_distributed_slice (combine dims (map RBools masks)) = Ok dims' /\
    concat ls' = bool_select (concat masks) (concat ls) /\
    NormalizedDistribution dims' ls' /\
    Forall2 (fun d d' => d_dist d' = true /\ d_name d' = d_name d /\
       (d_empty d' = false -> (d_src d' = None <-> d_src d = None))) dims dims'.
Proof.
  intros [HR [HF _]] HM.
  assert (Hparts : exists parts ls', map_res choose_path (combine dims (map RBools masks)) = Ok (map (fun _ => PCollective) dims) /\
     map_res (fun p => local_part (snd p) (fst p)) (combine dims (map RBools masks)) = Ok parts /\
     concat ls' = bool_select (concat masks) (concat ls) /\
     Forall2 Represents parts ls' /\ Forall fresh parts /\
     Forall (fun d => d_empty d = true -> dim_len d = 0 /\ d_src d = None) parts /\
     Forall2 (fun d d' => d_dist d' = true /\ d_name d' = d_name d /\
       (d_empty d' = false -> (d_src d' = None <-> d_src d = None))) dims parts).
  { revert masks HM. induction HR as [|d l dims ls Hd HR IH]; intros masks HM; inversion HM as [|m ? ms ? Hm HMt]; subst.
    - exists [], []. repeat split; constructor.
    - inversion HF as [|? ? [H1 [H2 [H3 H4]]] HFt]; subst.
      destruct (IH HFt ms HMt) as [parts [ls' [E0 [E [Hc [HR' [Hf [He Hrel]]]]]]]].
      destruct (getitem_main_bools d l m Hd ltac:(destruct Hd; lia) Hm) as [d' [E1 [HR1 [Hn [Hnm [Hdi [Hem Hb]]]]]]].
      assert (EL : local_part (RBools m) d = Ok d').
      { unfold local_part. rewrite H2. cbn [get_formatted_slice1 format_singleton bind]. unfold dim_getitem.
        replace (dim_len d =? 0) with false by lia. exact E1. }
      cbn [map combine map_res choose_path]. rewrite H2. cbn [get_formatted_slice1 format_singleton bind]. rewrite H1. cbn [bind].
      rewrite E0. cbn [bind fst snd]. rewrite EL. cbn [bind]. rewrite E. cbn [bind].
      exists (d' :: parts), (bool_select m l :: ls'). split; [reflexivity|]. split; [reflexivity|].
      split; [|split; [|split; [|split]]].
      + cbn [concat]. rewrite bool_select_app by (unfold zlen in Hm; lia). rewrite Hc. reflexivity.
      + constructor; assumption.
      + constructor; [|exact Hf]. right. split; [congruence|]. split; [|exact Hb].
        destruct HR1 as [HL _]. rewrite <- HL. apply zlen_nonneg.
      + constructor; [|exact He]. intros Hx. congruence.
      + constructor; [|exact Hrel]. split; [congruence|]. split; [exact Hnm|]. intros _; exact Hn. }
  destruct Hparts as [parts [ls' [E0 [E [Hc [HR' [Hf [He Hrel]]]]]]]].
  unfold get_distributed_slice. rewrite E0. cbn [bind]. rewrite forallb_map_true. rewrite E. cbn [bind].
  eexists _, ls'. split; [reflexivity|]. split; [exact Hc|].
  apply distributed_finish; try assumption.
  intros d p p' [H1 [H2 H3]] -> -> _ -> ->. tauto.
Qed.

(** C06, C07 *)
Lemma chain_tiles : forall sizes start, Forall (fun s => 0 <= s) sizes ->
  Tiles start (start + zsum sizes) (map (fun p : Z * Z => (fst p, fst p + snd p)) (combine (start_chain start sizes) sizes)).
Proof.
  induction sizes as [|s t IH]; intros start HF; cbn [start_chain combine map Tiles fst snd].
  - cbn; lia.
  - inversion HF; subst. split; [reflexivity|]. split; [lia|].
    rewrite zsum_cons. replace (start + (s + zsum t)) with (start + s + zsum t) by lia. apply IH; assumption.
Qed.

Definition dist_dim_spec (name : string) (total : Z) (src : srcarg) (p : Z * Z) (d : dim) : Prop :=
  let '(start, size) := p in
  d_name d = name /\ d_dist d = true /\ dim_len d = size /\ d_empty d = (size =? 0) /\
  bounds_local d = (start, start + size) /\ bounds_global d = (0, total) /\
  match src with
  | SrcNone => d_src d = None
  | SrcAuto => if size =? 0 then d_src d = None else d_src d = Some (SrcBounds 0 size)
  | SrcVal _ => True
  end.

Lemma create_dist_dim_one name total src p : 0 <= snd p ->
  match src with SrcVal _ => False | _ => True end ->
  exists d,
    (let '(start_idx, size) := p in
     do d <- dim_init name (Some size) None src true (size =? 0);
     Ok (set_bounds_local (set_bounds_global d (0, total)) (start_idx, start_idx + size))) = Ok d /\
    dist_dim_spec name total src p d.
Proof.
  destruct p as [start size]; cbn [snd]. intros Hs Hsrc. unfold dim_init; cbn [andb negb].
  destruct (Z.eqb_spec size 0) as [->|Hne].
  - cbn [andb negb]. unfold convert_to_empty; cbn [d_dist d_name bind].
    eexists; split; [reflexivity|]. cbn. repeat split; destruct src; tauto || reflexivity.
  - cbn [andb]. unfold py_or. replace (size =? 0) with false by lia.
    destruct src as [| |s]; [| |destruct Hsrc].
    + eexists; split; [reflexivity|]. cbn. replace (size =? 0) with false by lia. repeat split.
    + unfold set_size; cbn [d_size d_name d_src d_dist d_empty d_bounds_global].
      unfold set_src_idx; cbn [dim_len d_size d_size_current].
      replace (size - 0 =? size) with true by lia. cbn [bind d_size d_size_current].
      eexists; split; [reflexivity|]. cbn. replace (size =? 0) with false by lia. repeat split.
Qed.

Theorem create_distributed_dimension_spec name sizes src :
  Forall (fun s => 0 <= s) sizes -> match src with SrcVal _ => False | _ => True end ->
  exists dims, create_distributed_dimension name sizes src = Ok dims /\
    Forall2 (fun s d => d_name d = name /\ d_dist d = true /\ dim_len d = s /\ d_empty d = (s =? 0) /\
                        bounds_global d = (0, zsum sizes) /\ snd (bounds_local d) - fst (bounds_local d) = s) sizes dims /\
    Tiles 0 (zsum sizes) (map bounds_local dims).
Proof.
  intros HF Hsrc. unfold create_distributed_dimension. remember (zsum sizes) as total eqn:Et.
  cut (forall start, exists dims,
    map_res (fun p : Z * Z => let '(start_idx, size) := p in
     do d <- dim_init name (Some size) None src true (size =? 0);
     Ok (set_bounds_local (set_bounds_global d (0, total)) (start_idx, start_idx + size)))
     (combine (start_chain start sizes) sizes) = Ok dims /\
    Forall2 (fun s d => d_name d = name /\ d_dist d = true /\ dim_len d = s /\ d_empty d = (s =? 0) /\
                        bounds_global d = (0, total) /\ snd (bounds_local d) - fst (bounds_local d) = s) sizes dims /\
    Tiles start (start + zsum sizes) (map bounds_local dims)).
  { intros H. destruct (H 0) as [dims [E [H1 H2]]]. exists dims. split; [exact E|]. split; [exact H1|rewrite Et; exact H2]. }
  clear Et. induction HF as [|s t Hs HF IH]; intros start; cbn [start_chain combine map_res].
  - exists []. split; [reflexivity|]. split; [constructor|cbn; lia].
  - destruct (create_dist_dim_one name total src (start, s) Hs Hsrc) as [d [E Hd]].
    rewrite E; cbn [bind]. destruct (IH (start + s)) as [dims [E2 [H1 H2]]]. rewrite E2; cbn [bind].
    exists (d :: dims). split; [reflexivity|]. destruct Hd as [D1 [D2 [D3 [D4 [D5 [D6 _]]]]]]. split.
    + constructor; [|exact H1]. repeat split; try assumption. rewrite D5; cbn [fst snd]; lia.
    + cbn [map Tiles]. rewrite D5. split; [reflexivity|]. split; [lia|]. rewrite zsum_cons.
      replace (start + (s + zsum t)) with (start + s + zsum t) by lia. exact H2.
Qed.

Lemma chain_concat : forall lens start, Forall (fun n => 0 <= n) lens ->
  concat (map (fun p : Z * Z => zrange (fst p) (fst p + snd p)) (combine (start_chain start lens) lens))
  = zrange start (start + zsum lens).
Proof.
  induction lens as [|n t IH]; intros start HF; cbn [start_chain combine map concat fst snd].
  - rewrite zrange_nil by (cbn; lia). reflexivity.
  - inversion HF; subst. rewrite IH by assumption. rewrite zsum_cons.
    assert (0 <= zsum t) by (apply zsum_nonneg; apply Forall_forall; assumption).
    rewrite (zrange_app start (start + n) (start + (n + zsum t))) by lia. do 2 f_equal. lia.
Qed.

Lemma chain_lens : forall lens start, Forall (fun n => 0 <= n) lens ->
  map zlen (map (fun p : Z * Z => zrange (fst p) (fst p + snd p)) (combine (start_chain start lens) lens)) = lens.
Proof.
  induction lens as [|n t IH]; intros start HF; cbn [start_chain combine map fst snd]; [reflexivity|].
  inversion HF; subst. rewrite IH by assumption. f_equal. rewrite zrange_zlen. lia.
Qed.

Theorem arange_from_dimension_spec lens start : Forall (fun n => 0 <= n) lens ->
  map zlen (arange_from_dimension lens start) = lens /\
  concat (arange_from_dimension lens start) = zrange start (start + zsum lens) /\
  NoDup (concat (arange_from_dimension lens start)).
Proof.
  intros H. unfold arange_from_dimension. rewrite chain_lens, chain_concat by assumption.
  repeat split. apply nodup_zrange.
Qed.

Lemma root_starts_chain : forall ss start, root_starts start ss = start_chain start ss.
Proof. induction ss as [|s t IH]; intros start; cbn; [reflexivity|rewrite IH; reflexivity]. Qed.

Theorem create_ugid_global_spec sizes start : Forall (fun n => 0 <= n) sizes ->
  exists ids, create_ugid_global (map Some sizes) start = Ok ids /\
    map zlen ids = sizes /\ concat ids = zrange start (start + zsum sizes) /\ NoDup (concat ids).
Proof.
  intros H. unfold create_ugid_global.
  assert (E : map_res (fun s => match s with None => Err EmptyObjectError | Some n => Ok n end) (map Some sizes) = Ok sizes).
  { clear H. induction sizes as [|s t IH]; [reflexivity|]. cbn [map map_res bind]. rewrite IH. reflexivity. }
  rewrite E. cbn [bind]. eexists; split; [reflexivity|]. rewrite root_starts_chain, chain_lens, chain_concat by assumption.
  repeat split. apply nodup_zrange.
Qed.
