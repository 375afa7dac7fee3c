From Coq Require Import Sorted.
From Verif Require Import Py Lib Spec PartitionModel PartitionSpec PartitionProofs DimensionModel DimensionSpec DimensionProofs DistSliceProofs DistModel DistSpec DistProofs.

(** C38 *)

Lemma list_prod_flat_map {A B} (l : list A) (l' : list B) : list_prod l l' = flat_map (fun x => map (fun y => (x, y)) l') l.
Proof. induction l as [|x t IH]; cbn [list_prod flat_map]; [reflexivity|rewrite IH; reflexivity]. Qed.

Lemma exactly_one_filter {A B} (f : A -> B) (g : A -> bool) (P : B -> Prop) : forall l : list A,
  (forall x, In x l -> g x = false -> ~ P (f x)) ->
  ExactlyOne P (map f (filter g l)) -> ExactlyOne P (map f l).
Proof.
  induction l as [|x t IH]; intros Hn H; [exact H|]. cbn [filter] in H.
  destruct (g x) eqn:E; cbn [map] in *.
  - destruct H as [k [y [Hk [Hy Hu]]]]. destruct k as [|k].
    + cbn [nth_error] in Hk. injection Hk as <-. exists 0%nat, (f x). split; [reflexivity|]. split; [exact Hy|].
      intros [|k'] z Hz HP; [reflexivity|exfalso]. cbn [nth_error] in Hz.
      apply nth_error_In in Hz. apply in_map_iff in Hz. destruct Hz as [w [<- Hw]].
      destruct (g w) eqn:Ew.
      * assert (Hin : In (f w) (map f (filter g t))) by (apply in_map, filter_In; tauto).
        apply In_nth_error in Hin. destruct Hin as [m Hm]. specialize (Hu (S m) (f w) Hm HP). discriminate.
      * apply (Hn w); [right; exact Hw|exact Ew|exact HP].
    + assert (H' : ExactlyOne P (map f (filter g t))).
      { exists k, y. split; [exact Hk|]. split; [exact Hy|]. intros k' x' Hk' Hx'. specialize (Hu (S k') x' Hk' Hx'). lia. }
      apply (exactly_one_app_r P [f x]); [apply IH; [intros w Hw; apply Hn; right; exact Hw|exact H']|].
      intros z [<-|[]] HP. specialize (Hu 0%nat (f x) eq_refl HP). discriminate.
  - apply (exactly_one_app_r P [f x]); [apply IH; [intros w Hw; apply Hn; right; exact Hw|exact H]|].
    intros z [<-|[]] HP. apply (Hn x); [left; reflexivity|exact E|exact HP].
Qed.

Lemma parts_exactly_one whole parts ls i : Parts whole parts ls -> 0 <= i < zlen whole ->
  ExactlyOne (InIval i) (map bounds_local parts).
Proof.
  intros HP Hi. apply exactly_one_filter with (g := nonempty).
  - intros d Hd He Hx. pose proof (pt_dead _ _ _ HP) as Hdead. rewrite Forall_forall in Hdead.
    unfold nonempty in He. rewrite (Hdead d Hd) in Hx by (destruct (d_empty d); [reflexivity|discriminate]).
    unfold InIval in Hx; cbn in Hx; lia.
  - eapply tiles_exactly_one; [apply (pt_tiles _ _ _ HP)|exact Hi].
Qed.

Theorem create_slices_for_dimension_spec size splits :
  1 <= size -> 1 <= splits -> splits = 1 \/ 2 <= size ->
  exists bs, create_slices_for_dimension size splits = Ok bs /\ zlen bs = splits /\
    (forall i, 0 <= i < size -> ExactlyOne (InIval i) bs) /\
    (forall b, In b bs -> 0 <= fst b <= snd b /\ snd b <= size).
Proof.
  intros Hsz Hsp Hc. unfold create_slices_for_dimension.
  set (d := mkdim "foo" (Some size) (Some size) None true false None None).
  assert (Ed : dim_init "foo" (Some size) None SrcNone true false = Ok d).
  { unfold dim_init; cbn [andb negb]. unfold py_or. replace (size =? 0) with false by lia. reflexivity. }
  rewrite Ed. cbn [bind].
  set (whole := zrange 0 size).
  assert (Hw : zlen whole = size) by (unfold whole; rewrite zrange_zlen; lia).
  assert (HR : Represents d whole) by (split; [exact Hw|exact I]).
  assert (HTR := the_size_range splits 2 size Hsp ltac:(lia) Hsz Hc). destruct HTR as [T1 [T2 [T3 _]]].
  destruct (update_dim_all splits (the_size splits 2 size) d whole HR eq_refl eq_refl T1 ltac:(lia) T3) as [parts [ls [E [HP [HN _]]]]].
  assert (Eg : map_res (fun r => update_group splits 2 r [d]) (zrange 0 splits) = Ok (map (with_parts d [d]) parts)).
  { eapply (update_groups_all splits (the_size splits 2 size) d whole [d] eq_refl); [|reflexivity|exact Hw|exact E].
    unfold choose_distributed; cbn [filter d_dist d map]. unfold max_list; cbn [fold_left dim_len d_size]. 
    replace (dim_len d) with size by reflexivity. rewrite Z.max_r by lia. rewrite Z.eqb_refl. reflexivity. }
  assert (Eu : map_res (fun p : Z * list (list dim) => map_res (update_group splits 2 (fst p)) (snd p))
               (combine (zrange 0 splits) (map (fun _ => [[d]]) (zrange 0 splits))) = Ok (map (fun p => [[p]]) parts)).
  { clear -Eg. revert parts Eg. generalize (zrange 0 splits) as rs. induction rs as [|r rs IH]; intros parts Eg.
    - cbn in *. destruct parts; [reflexivity|discriminate].
    - cbn [map combine map_res fst snd] in *.
      destruct (update_group splits 2 r [d]) as [g|]; cbn [bind] in *; [|discriminate].
      destruct (map_res (fun r0 => update_group splits 2 r0 [d]) rs) as [gs|] eqn:E2; cbn [bind] in *; [|discriminate].
      destruct parts as [|p parts]; [discriminate|]. injection Eg as -> ->. rewrite (IH parts eq_refl). reflexivity. }
  unfold update_dimension_bounds; cbn [od_updated od_size od_groups]. change (2 <? 1) with false. cbv iota.
  rewrite Eu. cbn [bind od_groups].
  exists (map bounds_local parts). split; [|split; [|split]].
  - clear. induction parts as [|p t IH]; [reflexivity|]. cbn [map map_res bind]. rewrite IH. reflexivity.
  - rewrite zlen_map. rewrite (map_res_length _ _ _ E). rewrite zrange_zlen. lia.
  - intros i Hi. eapply parts_exactly_one; [exact HP|lia].
  - intros b Hb. apply in_map_iff in Hb. destruct Hb as [p [<- Hp]].
    destruct (d_empty p) eqn:Ep.
    + pose proof (pt_dead _ _ _ HP) as Hdead. rewrite Forall_forall in Hdead. rewrite (Hdead p Hp Ep). cbn; lia.
    + pose proof (tiles_in _ _ _ (bounds_local p) (pt_tiles _ _ _ HP)) as HT.
      rewrite Hw in HT. apply HT. apply in_map, filter_In. split; [exact Hp|]. unfold nonempty; rewrite Ep; reflexivity.
Qed.

Lemma nth_error_zrange_combine {A} (l : list A) k : 
  map snd (filter (fun p : Z * A => fst p =? Z.of_nat k) (combine (zrange 0 (zlen l)) l)) =
  match nth_error l k with Some x => [x] | None => [] end.
Proof.
  cut (forall (l : list A) lo, 0 <= lo -> map snd (filter (fun p : Z * A => fst p =? Z.of_nat k) (combine (zrange lo (lo + zlen l)) l)) =
     if Z.of_nat k <? lo then [] else match nth_error l (k - Z.to_nat lo) with Some x => [x] | None => [] end).
  { intros H. specialize (H l 0 ltac:(lia)). rewrite Z.add_0_l in H. rewrite H.
    replace (Z.of_nat k <? 0) with false by lia. rewrite Nat.sub_0_r. reflexivity. }
  clear l. induction l as [|x t IH]; intros lo Hlo.
  - rewrite zrange_nil by (cbn; lia). cbn [combine filter map]. destruct (Z.of_nat k <? lo); [reflexivity|].
    destruct (k - Z.to_nat lo)%nat; reflexivity.
  - rewrite zlen_cons. pose proof (zlen_nonneg t). rewrite (zrange_cons lo) by lia.
    replace (lo + (1 + zlen t)) with (lo + 1 + zlen t) by lia. cbn [combine filter fst].
    specialize (IH (lo + 1) ltac:(lia)). destruct (Z.eqb_spec lo (Z.of_nat k)) as [->|Hne].
    + cbn [map snd]. rewrite IH. replace (Z.of_nat k <? Z.of_nat k + 1) with true by lia.
      replace (Z.of_nat k <? Z.of_nat k) with false by lia. rewrite Nat2Z.id, Nat.sub_diag. reflexivity.
    + rewrite IH. destruct (Z.of_nat k <? lo) eqn:E.
      * replace (Z.of_nat k <? lo + 1) with true by lia. reflexivity.
      * replace (Z.of_nat k <? lo + 1) with false by lia.
        replace (k - Z.to_nat lo)%nat with (S (k - Z.to_nat (lo + 1))) by lia. reflexivity.
Qed.

Theorem iter_dst_grid_slices_spec ny nx sy sx :
  1 <= ny -> 1 <= sy -> sy = 1 \/ 2 <= ny -> 1 <= nx -> 1 <= sx -> sx = 1 \/ 2 <= nx ->
  exists cells, iter_dst_grid_slices ny nx sy sx None = Ok cells /\ zlen cells = sy * sx /\
    (forall y x, 0 <= y < ny -> 0 <= x < nx -> ExactlyOne (fun c => InChunk c y x) cells) /\
    (forall c y x, In c cells -> InChunk c y x -> 0 <= y < ny /\ 0 <= x < nx) /\
    (forall k, iter_dst_grid_slices ny nx sy sx (Some (Z.of_nat k)) =
       Ok (match nth_error cells k with Some c => [c] | None => [] end)).
Proof.
  intros H1 H2 H3 H4 H5 H6. unfold iter_dst_grid_slices.
  destruct (create_slices_for_dimension_spec ny sy H1 H2 H3) as [ys [Ey [Ly [Oy By]]]].
  destruct (create_slices_for_dimension_spec nx sx H4 H5 H6) as [xs [Ex [Lx [Ox Bx]]]].
  rewrite Ey, Ex. cbn [bind]. exists (list_prod ys xs). split; [reflexivity|]. split; [|split; [|split]].
  - unfold zlen in *. rewrite prod_length. lia.
  - intros y x Hy Hx. rewrite list_prod_flat_map. apply exactly_one_flat_map with (P := InIval y).
    + apply Oy; exact Hy.
    + intros b _ Hb. apply exactly_one_map. unfold InChunk; cbn [fst snd].
      destruct (Ox x Hx) as [k [c [Hk [Hc Hu]]]]. exists k, c. split; [exact Hk|]. split; [tauto|].
      intros k' c' Hk' [_ Hc']. eapply Hu; eassumption.
    + intros b c _ Hn Hc Hin. apply in_map_iff in Hc. destruct Hc as [c' [<- _]]. apply Hn. apply Hin.
  - intros [b c] y x Hin [Hy Hx]. apply in_prod_iff in Hin. destruct Hin as [Hb Hc].
    apply By in Hb. apply Bx in Hc. unfold InIval in *; cbn [fst snd] in *. lia.
  - intros k. rewrite nth_error_zrange_combine. reflexivity.
Qed.

(** C08 *)

Lemma slice_assign_mid {A} (done piece rest : list A) lo hi : zlen done = lo -> zlen piece = hi - lo -> 
  hi - lo <= zlen rest ->
  slice_assign (done ++ rest) lo hi piece = Ok (done ++ piece ++ skipn (List.length piece) rest).
Proof.
  intros H1 H2 H3. unfold slice_assign. rewrite zlen_app. pose proof (zlen_nonneg piece). pose proof (zlen_nonneg rest).
  rewrite !Z.min_l by lia.
  assert (E : match piece with [x] => repeat x (Z.to_nat (hi - lo)) | _ => piece end = piece).
  { destruct piece as [|x [|y t]]; try reflexivity. replace (hi - lo) with 1 by (unfold zlen in H2; cbn in H2; lia). reflexivity. }
  rewrite E. rewrite H2, Z.eqb_refl. f_equal.
  rewrite firstn_app, skipn_app. unfold zlen in *.
  rewrite (firstn_all2 done) by lia. replace (Z.to_nat lo - List.length done)%nat with 0%nat by lia.
  cbn [firstn]. rewrite app_nil_r. f_equal. f_equal.
  rewrite (skipn_all2 done) by lia. cbn [app]. f_equal. lia.
Qed.

(** Consecutive pieces fill an array. *)
Lemma assign_pieces {A} : forall (bs : list (Z * Z)) (pieces : list (list A)) lo hi done rest,
  Tiles lo hi bs -> Forall2 (fun b p => zlen p = snd b - fst b) bs pieces -> zlen done = lo -> zlen rest = hi - lo ->
  fold_res (fun acc bp => slice_assign acc (fst (fst bp)) (snd (fst bp)) (snd bp)) (combine bs pieces) (done ++ rest)
  = Ok (done ++ concat pieces).
Proof.
  induction bs as [|[a b] bs IH]; intros pieces lo hi done rest HT HF Hd Hr; inversion HF as [|? p ? ps Hp HFt]; subst.
  - cbn [Tiles] in HT. cbn [combine fold_res concat].
    destruct rest; [reflexivity|]. rewrite zlen_cons in Hr. pose proof (zlen_nonneg rest). lia.
  - cbn [Tiles] in HT. destruct HT as [-> [Hab HT]]. cbn [fst snd] in Hp.
    pose proof (tiles_le _ _ _ HT). pose proof (zlen_nonneg done).
    cbn [combine fold_res fst snd].
    rewrite (slice_assign_mid done p rest (zlen done) b) by lia. cbn [bind concat].
    rewrite !app_assoc. rewrite <- (app_assoc done p).
    rewrite app_assoc. rewrite (IH ps b hi (done ++ p)); [rewrite <- app_assoc; reflexivity|exact HT|exact HFt|rewrite zlen_app; lia|].
    unfold zlen in *. rewrite skipn_length. lia.
Qed.

Lemma scatter_parts_slices {A} (l : list A) (ds : list dim) : 
  Forall2 (fun d p => p = py_slice l (slice_of (fst (bounds_local d)) (snd (bounds_local d)))) ds
    (map (fun d => py_slice l (slice_of (fst (bounds_local d)) (snd (bounds_local d)))) ds).
Proof. induction ds as [|d t IH]; cbn [map]; constructor; [reflexivity|exact IH]. Qed.

Lemma py_slice_zlen {A} (l : list A) a b : 0 <= a <= b -> b <= zlen l -> zlen (py_slice l (slice_of a b)) = b - a.
Proof.
  intros H1 H2. unfold py_slice, slice_bounds, slice_of, clip_end; cbn [sl_start sl_stop].
  replace (a <? 0) with false by lia. replace (b <? 0) with false by lia. rewrite !Z.min_l by lia.
  apply zlen_py_slice_bounds; lia.
Qed.

Lemma py_slice_split {A} (l : list A) a b c : 0 <= a <= b -> b <= c -> c <= zlen l ->
  py_slice l (slice_of a b) ++ py_slice l (slice_of b c) = py_slice l (slice_of a c).
Proof.
  intros H1 H2 H3. unfold py_slice, slice_bounds, slice_of, clip_end; cbn [sl_start sl_stop].
  replace (a <? 0) with false by lia. replace (b <? 0) with false by lia. replace (c <? 0) with false by lia.
  rewrite !Z.min_l by lia.
  replace (Z.to_nat (c - a)) with (Z.to_nat (b - a) + Z.to_nat (c - b))%nat by lia.
  set (p := Z.to_nat (b - a)). set (q := Z.to_nat (c - b)).
  replace (skipn (Z.to_nat b) l) with (skipn p (skipn (Z.to_nat a) l)).
  2: { rewrite skipn_skipn'. f_equal. unfold p; lia. }
  generalize (skipn (Z.to_nat a) l) as m. intros m.
  rewrite <- (firstn_skipn p (firstn (p + q) m)). rewrite firstn_firstn. rewrite Nat.min_l by lia.
  f_equal. rewrite skipn_firstn_comm. f_equal. lia.
Qed.

Lemma py_slice_whole {A} (l : list A) : py_slice l (slice_of 0 (zlen l)) = l.
Proof.
  unfold py_slice, slice_bounds, slice_of, clip_end; cbn [sl_start sl_stop].
  pose proof (zlen_nonneg l). change (0 <? 0) with false. replace (zlen l <? 0) with false by lia.
  rewrite !Z.min_l by lia. rewrite Z.sub_0_r. unfold zlen. rewrite Nat2Z.id. cbn [Z.to_nat skipn]. apply firstn_all.
Qed.

(** Slicing at consecutive bounds and concatenating gives the range back. *)
Lemma tiles_slices_concat {A} (l : list A) : forall bs lo hi, Tiles lo hi bs -> 0 <= lo -> hi <= zlen l ->
  concat (map (fun b => py_slice l (slice_of (fst b) (snd b))) bs) = py_slice l (slice_of lo hi).
Proof.
  induction bs as [|[a b] t IH]; intros lo hi HT Hlo Hhi; cbn [Tiles map concat fst snd] in *.
  - subst hi. unfold py_slice, slice_bounds, slice_of; cbn [sl_start sl_stop]. rewrite Z.sub_diag. reflexivity.
  - destruct HT as [-> [Hab HT]]. pose proof (tiles_le _ _ _ HT). rewrite (IH b hi HT) by lia. apply py_slice_split; lia.
Qed.

Definition cut_var {A} (v : var A) (d : dim) : var A :=
  let s := slice_of (fst (bounds_local d)) (snd (bounds_local d)) in
  mkvar d (py_slice (v_vals v) s) (option_map (fun m => py_slice m s) (v_mask v)).

(** The assignments of the gathering loop. *)
Lemma gather_fold {A} (v : var A) : forall ds lo hi, Tiles lo hi (map bounds_local ds) -> 0 <= lo -> hi = zlen (v_vals v) ->
  match v_mask v with None => True | Some m => zlen m = zlen (v_vals v) end ->
  forall done donem rest restm, zlen done = lo -> zlen rest = hi - lo ->
  match v_mask v with None => True | Some m => zlen donem = lo /\ zlen restm = hi - lo end ->
  fold_res var_setitem (map (cut_var v) ds) (done ++ rest, option_map (fun _ => donem ++ restm) (v_mask v))
  = Ok (done ++ map Some (py_slice (v_vals v) (slice_of lo hi)),
        option_map (fun m => donem ++ py_slice m (slice_of lo hi)) (v_mask v)).
Proof.
  induction ds as [|d t IH]; intros lo hi HT Hlo Hhi Hm done donem rest restm Hd Hr Hdm; cbn [map Tiles] in HT.
  - destruct HT. cbn [map fold_res].
    assert (Er : rest = []) by (destruct rest; [reflexivity|rewrite zlen_cons in Hr; pose proof (zlen_nonneg rest); lia]).
    subst rest.
    assert (Ee : forall B (l : list B) a, py_slice l (slice_of a a) = []).
    { intros. unfold py_slice, slice_bounds, slice_of; cbn [sl_start sl_stop]. rewrite Z.sub_diag. reflexivity. }
    rewrite Ee. cbn [map]. destruct (v_mask v) as [m|]; cbn [option_map]; [|reflexivity].
    assert (Em : restm = []) by (destruct restm; [reflexivity|destruct Hdm as [_ Hdm]; rewrite zlen_cons in Hdm; pose proof (zlen_nonneg restm); lia]).
    subst restm. rewrite Ee. reflexivity.
  - destruct (bounds_local d) as [a b] eqn:Eb. destruct HT as [-> [Hab HT]]. pose proof (tiles_le _ _ _ HT) as Hbhi.
    cbn [map fold_res]. unfold var_setitem at 1. cbn [cut_var v_dim v_vals v_mask]. rewrite Eb. cbn [fst snd].
    assert (Hz : zlen (py_slice (v_vals v) (slice_of lo b)) = b - lo) by (apply py_slice_zlen; lia).
    rewrite (slice_assign_mid done (map Some (py_slice (v_vals v) (slice_of lo b))) rest lo b) by (rewrite ?zlen_map; lia).
    cbn [bind].
    specialize (IH b hi HT ltac:(lia) Hhi Hm (done ++ map Some (py_slice (v_vals v) (slice_of lo b)))
      (donem ++ match v_mask v with Some m => py_slice m (slice_of lo b) | None => [] end)
      (skipn (List.length (map Some (py_slice (v_vals v) (slice_of lo b)))) rest)
      (skipn (match v_mask v with Some m => List.length (py_slice m (slice_of lo b)) | None => 0 end) restm)).
    destruct (v_mask v) as [m|] eqn:Em; cbn [option_map] in *.
    + destruct Hdm as [Hdm1 Hdm2].
      assert (Hzm : zlen (py_slice m (slice_of lo b)) = b - lo) by (apply py_slice_zlen; lia).
      rewrite (slice_assign_mid donem (py_slice m (slice_of lo b)) restm lo b) by lia. cbn [bind].
      rewrite !app_assoc. rewrite IH.
      * rewrite <- !app_assoc. rewrite <- map_app, !py_slice_split by lia. reflexivity.
      * rewrite zlen_app, zlen_map. lia.
      * unfold zlen in *. rewrite skipn_length, map_length in *. lia.
      * split; [rewrite zlen_app; lia|unfold zlen in *; rewrite skipn_length; lia].
    + cbn [bind]. rewrite !app_assoc. rewrite IH.
      * rewrite <- app_assoc, <- map_app, py_slice_split by lia. reflexivity.
      * rewrite zlen_app, zlen_map. lia.
      * unfold zlen in *. rewrite skipn_length, map_length in *. lia.
      * exact I.
Qed.

Lemma var_setitem_fresh_mask {A} (v : var A) ds vals : ds <> [] ->
  fold_res var_setitem (map (cut_var v) ds) (vals, None) =
  fold_res var_setitem (map (cut_var v) ds) (vals, option_map (fun _ => repeat false (List.length vals)) (v_mask v)).
Proof.
  destruct ds as [|d t]; [congruence|intros _]. cbn [map fold_res]. f_equal.
  unfold var_setitem. destruct (bounds_local (v_dim (cut_var v d))) as [lo hi]. 
  destruct (slice_assign vals lo hi _); cbn [bind]; [|reflexivity].
  cbn [cut_var v_mask]. destruct (v_mask v); reflexivity.
Qed.

Lemma gather_values {A} (v : var A) ds : ds <> [] -> Tiles 0 (zlen (v_vals v)) (map bounds_local ds) ->
  match v_mask v with None => True | Some m => zlen m = zlen (v_vals v) end ->
  fold_res var_setitem (map (cut_var v) ds) (repeat None (Z.to_nat (zlen (v_vals v))), None)
  = Ok (map Some (v_vals v), v_mask v).
Proof.
  intros Hne HT Hm. rewrite var_setitem_fresh_mask by exact Hne.
  pose proof (gather_fold v ds 0 (zlen (v_vals v)) HT ltac:(lia) eq_refl Hm [] []
    (repeat None (Z.to_nat (zlen (v_vals v)))) (repeat false (Z.to_nat (zlen (v_vals v))))) as H.
  pose proof (zlen_nonneg (v_vals v)) as Hp.
  assert (Hrep : forall B (x : B), zlen (repeat x (Z.to_nat (zlen (v_vals v)))) = zlen (v_vals v) - 0).
  { intros. unfold zlen at 1. rewrite repeat_length. lia. }
  cbn [app] in H. rewrite repeat_length. rewrite H.
  - rewrite py_slice_whole. destruct (v_mask v) as [m|]; cbn [option_map]; [|reflexivity]. 
    rewrite <- Hm, py_slice_whole. reflexivity.
  - reflexivity.
  - apply Hrep.
  - destruct (v_mask v); [|exact I]. split; [reflexivity|apply Hrep].
Qed.

(** The gathered source index. *)
Lemma fold_res_ext_in {A S} (f g : S -> A -> res S) : forall l s, (forall s x, In x l -> f s x = g s x) -> fold_res f l s = fold_res g l s.
Proof.
  induction l as [|x t IH]; intros s H; [reflexivity|]. cbn [fold_res]. rewrite (H s x (or_introl eq_refl)).
  destruct (g s x); cbn [bind]; [|reflexivity]. apply IH. intros; apply H; right; assumption.
Qed.

Definition live_kind (src : option srcidx) (d : dim) : Prop := SameKind src (d_src d).

Lemma live_sum : forall ds ls, Forall2 Represents ds ls -> zsum (map dim_len ds) = zlen (concat ls).
Proof. exact represents_zsum. Qed.

Lemma gather_src_ok ds ls whole src : ds <> [] -> Forall2 Represents ds ls -> concat ls = whole ->
  Tiles 0 (zlen whole) (map bounds_local ds) ->
  Forall (fun d => 0 < dim_len d /\ snd (bounds_local d) - fst (bounds_local d) = dim_len d) ds ->
  Forall (live_kind src) ds -> match src with Some (SrcBounds _ _) => exists a b, whole = zrange a b | _ => True end ->
  exists s, gather_src ds (zlen whole) = Ok s /\ SameKind src s /\
    match s with None => True | Some x => den x = whole /\ match x with SrcBounds a b => a <= b | _ => True end end.
Proof.
  intros Hne HR Hc HT HS HK Hsrc. unfold gather_src.
  destruct (rev ds) as [|lastp rt] eqn:Erev.
  { exfalso. apply Hne. rewrite <- (rev_involutive ds), Erev. reflexivity. }
  assert (Hlast : In lastp ds) by (apply in_rev; rewrite Erev; left; reflexivity).
  assert (Hkl : live_kind src lastp) by (rewrite Forall_forall in HK; apply HK; exact Hlast).
  unfold live_kind in Hkl. destruct src as [[sa sb|sl]|]; destruct (d_src lastp) as [[la lb|ll]|]; cbn [SameKind] in Hkl; try tauto.
  - (* bounds *)
    destruct Hsrc as [a [b Hw]].
    assert (Hbs : exists bs, map_res (fun p => match d_src p with Some (SrcBounds a b) => Ok [a; b] | _ => Err TypeError end) ds = Ok bs /\
       (forall x, In x (concat bs) -> exists d l, In (d, l) (combine ds ls) /\ exists p q, d_src d = Some (SrcBounds p q) /\ (x = p \/ x = q)) /\
       (forall d, In d ds -> exists p q, d_src d = Some (SrcBounds p q) /\ In p (concat bs) /\ In q (concat bs))).
    { clear -HR HK. induction HR as [|d l ds ls Hd HR IH].
      - exists []. split; [reflexivity|]. split; intros ? [].
      - inversion HK as [|? ? Hk HKt]; subst. destruct (IH HKt) as [bs [E [H1 H2]]].
        unfold live_kind in Hk. destruct (d_src d) as [[p q|?]|] eqn:Ed; cbn [SameKind] in Hk; try tauto.
        cbn [map_res]. rewrite Ed. cbn [bind]. rewrite E. cbn [bind]. exists ([p; q] :: bs). split; [reflexivity|]. split.
        + intros x Hx. cbn [concat app In] in Hx. destruct Hx as [<-|[<-|Hx]].
          * exists d, l. split; [left; reflexivity|]. exists p, q; tauto.
          * exists d, l. split; [left; reflexivity|]. exists p, q; tauto.
          * destruct (H1 x Hx) as [d' [l' [Hin HH]]]. exists d', l'. split; [right; exact Hin|exact HH].
        + intros x [<-|Hx].
          * exists p, q. split; [exact Ed|]. cbn; tauto.
          * destruct (H2 x Hx) as [p' [q' [A [B C]]]]. exists p', q'. split; [exact A|]. cbn; tauto. }
    destruct Hbs as [bs [Ebs [Hb1 Hb2]]]. rewrite Ebs. cbn [bind].
    (* every part's bounds lie in [a, b]; first and last touch the ends *)
    assert (Hlen : forall d l, In (d, l) (combine ds ls) -> 0 < zlen l /\ incl l whole).
    { clear -HR HS Hc. subst whole. induction HR as [|d l ds ls Hd HR IH]; intros x y Hin; [destruct Hin|].
      inversion HS as [|? ? [Hs _] HSt]; subst. destruct Hin as [E|Hin].
      - injection E as <- <-. split; [destruct Hd; lia|]. cbn [concat]. apply incl_appl, incl_refl.
      - destruct (IH HSt x y Hin) as [A B]. split; [exact A|]. cbn [concat]. apply incl_appr. exact B. }
    assert (Hrange : forall x, In x (concat bs) -> a <= x <= b).
    { intros x Hx. destruct (Hb1 x Hx) as [d [l [Hin [p [q [Ed Hpq]]]]]].
      destruct (Hlen d l Hin) as [Hpos Hincl].
      assert (Hden : l = zrange p q).
      { clear -HR Hin Ed. induction HR as [|d0 l0 ds ls Hd HR IH]; [destruct Hin|]. destruct Hin as [E|Hin]; [|apply IH; exact Hin].
        injection E as -> ->. destruct Hd as [_ Hd]. rewrite Ed in Hd. symmetry; exact Hd. }
      subst l. rewrite zrange_zlen in Hpos.
      assert (Hp : In p whole) by (apply Hincl, in_zrange; lia).
      assert (Hq : In (q - 1) whole) by (apply Hincl, in_zrange; lia).
      rewrite Hw in Hp, Hq. apply in_zrange in Hp, Hq. lia. }
    assert (Hab : a < b).
    { destruct ds as [|d0 dt]; [congruence|]. inversion HR as [|? l0 ? lt Hd0 _]; subst.
      destruct (Hlen d0 l0 (or_introl eq_refl)) as [Hp _].
      assert (0 < zlen (concat (l0 :: lt))) by (cbn [concat]; rewrite zlen_app; pose proof (zlen_nonneg (concat lt)); lia).
      rewrite Hw, zrange_zlen in H. lia. }
    assert (Hfirst : In a (concat bs)).
    { destruct ds as [|d0 dt]; [congruence|]. inversion HR as [|? l0 ? lt Hd0 _]; subst.
      destruct (Hb2 d0 (or_introl eq_refl)) as [p [q [Ed [Hp _]]]].
      destruct Hd0 as [_ Hd0]. rewrite Ed in Hd0. cbn [den] in Hd0.
      destruct (Hlen d0 l0 (or_introl eq_refl)) as [Hpos _]. rewrite <- Hd0 in Hpos. rewrite zrange_zlen in Hpos.
      assert (Heq : hd 0 (zrange a b) = p).
      { rewrite <- Hw. cbn [concat]. rewrite <- Hd0. rewrite (zrange_cons p) by lia. reflexivity. }
      rewrite (zrange_cons a) in Heq by lia. cbn [hd] in Heq. subst a. exact Hp. }
    assert (Hlastb : In b (concat bs)).
    { destruct (Hb2 lastp Hlast) as [p [q [Ed [_ Hq]]]].
      assert (Hll : exists ll2 lt, ls = ll2 ++ [lt] /\ In (lastp, lt) (combine ds ls) /\ Represents lastp lt).
      { assert (Eds : ds = rev rt ++ [lastp]) by (rewrite <- (rev_involutive ds), Erev; reflexivity).
        clear -HR Eds. subst ds. apply Forall2_app_inv_l in HR. destruct HR as [l1 [l2 [H1 [H2 ->]]]].
        inversion H2 as [|? x ? y Hx Hy]; subst. inversion Hy; subst. exists l1, x. split; [reflexivity|]. split; [|exact Hx].
        rewrite combine_app by (symmetry; eapply Forall2_len; exact H1). apply in_or_app. right. left; reflexivity. }
      destruct Hll as [ll2 [lt [El [Hin [_ Hden]]]]]. rewrite Ed in Hden. cbn [den] in Hden.
      destruct (Hlen lastp lt Hin) as [Hpos _]. rewrite <- Hden in Hpos. rewrite zrange_zlen in Hpos.
      assert (Heq : last (zrange a b) 0 = q - 1).
      { rewrite <- Hw, <- Hc, El, concat_app. cbn [concat]. rewrite app_nil_r. rewrite <- Hden.
        rewrite (zrange_app p (q - 1) q) by lia.
        rewrite (zrange_cons (q - 1) q) by lia. rewrite (zrange_nil (q - 1 + 1) q) by lia. rewrite app_assoc, last_last. reflexivity. }
      rewrite (zrange_app a (b - 1) b) in Heq by lia. rewrite (zrange_cons (b - 1)) in Heq by lia.
      rewrite (zrange_nil (b - 1 + 1) b) in Heq by lia. rewrite last_last in Heq. replace b with q by lia. exact Hq. }
    assert (Hnec : concat bs <> []) by (intros E; rewrite E in Hfirst; destruct Hfirst).
    destruct (list_min_ok _ Hnec) as [m [Em [Hm1 Hm2]]]. destruct (list_max_ok _ Hnec) as [M [EM [HM1 HM2]]].
    rewrite Em. cbn [bind]. rewrite EM. cbn [bind].
    pose proof (Hrange m Hm1). pose proof (Hrange M HM1). pose proof (Hm2 a Hfirst). pose proof (HM2 b Hlastb).
    replace m with a by lia. replace M with b by lia.
    eexists; split; [reflexivity|]. split; [exact I|]. cbn [den]. split; [symmetry; exact Hw|lia].
  - (* index arrays *)
    assert (Hfold : fold_res (fun acc p =>
                match d_src p with
                | Some (SrcFancy l) => slice_assign acc (fst (bounds_local p)) (snd (bounds_local p)) l
                | Some (SrcBounds a b) => slice_assign acc (fst (bounds_local p)) (snd (bounds_local p)) [a; b]
                | None => Err TypeError
                end) ds (repeat 0 (Z.to_nat (zlen whole))) = Ok whole).
    { transitivity (fold_res (fun acc bp => slice_assign acc (fst (fst bp)) (snd (fst bp)) (snd bp)) (combine (map bounds_local ds) ls) ([] ++ repeat 0 (Z.to_nat (zlen whole)))).
      - cbn [app]. generalize (repeat 0 (Z.to_nat (zlen whole))) as acc. clear -HR HK.
        induction HR as [|d l ds ls Hd HR IH]; intros acc; [reflexivity|]. inversion HK as [|? ? Hk HKt]; subst.
        cbn [map combine fold_res fst snd]. unfold live_kind in Hk. destruct Hd as [_ Hd].
        destruct (d_src d) as [[?|f]|]; cbn [SameKind] in Hk; try tauto. cbn [den] in Hd. subst f.
        destruct (slice_assign acc _ _ l); cbn [bind]; [|reflexivity]. apply IH; exact HKt.
      - rewrite (assign_pieces (map bounds_local ds) ls 0 (zlen whole) [] (repeat 0 (Z.to_nat (zlen whole))) HT).
        + cbn [app]. rewrite Hc. reflexivity.
        + clear -HR HS. induction HR as [|d l ds ls Hd HR IH]; cbn [map]; constructor.
          * inversion HS as [|? ? [_ H] _]; subst. destruct Hd as [Hd _]. lia.
          * inversion HS; subst. apply IH; assumption.
        + reflexivity.
        + unfold zlen at 1. rewrite repeat_length. pose proof (zlen_nonneg whole). lia. }
    rewrite Hfold. cbn [bind]. eexists; split; [reflexivity|]. split; [exact I|]. cbn [den]. tauto.
  - exists None. split; [reflexivity|]. split; exact I.
Qed.

Lemma parts_live whole parts ls : Parts whole parts ls -> exists lls,
  Forall2 Represents (filter nonempty parts) lls /\ concat lls = whole.
Proof.
  intros HP. pose proof (pt_represents _ _ _ HP) as HR. pose proof (pt_empty _ _ _ HP) as HE. rewrite <- (pt_whole _ _ _ HP).
  clear HP. induction HR as [|d l ds ls Hd HR IH].
  - exists []. split; [constructor|reflexivity].
  - inversion HE as [|? ? ? ? He HEt]; subst. destruct (IH HEt) as [lls [H1 H2]]. cbn [filter]. unfold nonempty at 1.
    destruct (d_empty d) eqn:Ed; cbn [negb].
    + exists lls. split; [exact H1|]. destruct He as [He _]. rewrite He by reflexivity. exact H2.
    + exists (l :: lls). split; [constructor; assumption|]. cbn [concat]. rewrite H2. reflexivity.
Qed.

Lemma cut_var_whole {A} (v : var A) d : bounds_local d = (0, zlen (v_vals v)) ->
  match v_mask v with None => True | Some m => zlen m = zlen (v_vals v) end ->
  cut_var v d = mkvar d (v_vals v) (v_mask v).
Proof.
  intros Hb Hm. unfold cut_var. rewrite Hb. cbn [fst snd]. rewrite py_slice_whole.
  destruct (v_mask v) as [m|]; cbn [option_map]; [|reflexivity]. rewrite <- Hm, py_slice_whole. reflexivity.
Qed.

Lemma filter_scatter {A} (v : var A) parts :
  filter (fun s => nonempty (v_dim s)) (map (fun d => if d_empty d then mkvar d [] None else cut_var v d) parts)
  = map (cut_var v) (filter nonempty parts).
Proof.
  induction parts as [|d t IH]; [reflexivity|]. cbn [map filter]. rewrite IH. unfold nonempty.
  destruct (d_empty d) eqn:E; cbn [v_dim cut_var negb]; rewrite E; reflexivity.
Qed.

Theorem scatter_gather_spec {A} (v : var A) src whole parts ls :
  d_dist (v_dim v) = false -> whole <> [] -> Parts whole parts ls ->
  zlen (v_vals v) = zlen whole ->
  match v_mask v with None => True | Some m => zlen m = zlen (v_vals v) end ->
  Forall (fun d => d_empty d = false -> SameKind src (d_src d)) parts ->
  match src with Some (SrcBounds _ _) => exists a b, whole = zrange a b | _ => True end ->
  exists scattered v',
    variable_scatter v parts = Ok scattered /\
    Forall2 (fun s d => v_dim s = d /\ zlen (v_vals s) = dim_len d) scattered parts /\
    variable_gather (filter (fun s => nonempty (v_dim s)) scattered) = Ok v' /\
    v_vals v' = map Some (v_vals v) /\ v_mask v' = v_mask v /\
    Represents (v_dim v') whole /\ SameKind src (d_src (v_dim v')) /\ d_dist (v_dim v') = false.
Proof.
  intros Hvd Hne HP Hv Hm HK Hsrc.
  assert (Hsc : variable_scatter v parts = Ok (map (fun d => if d_empty d then mkvar d [] None else cut_var v d) parts)).
  { unfold variable_scatter. rewrite Hvd. destruct parts as [|d [|d2 t]]; try reflexivity.
    cbn [map]. pose proof (pt_tiles _ _ _ HP) as HT. pose proof (pt_empty _ _ _ HP) as HE. pose proof (pt_whole _ _ _ HP) as Hw.
    inversion HE as [|? l ? ls' He HEt]; subst. inversion HEt; subst. cbn [concat] in *. rewrite app_nil_r in *.
    assert (Ed : d_empty d = false) by (destruct (d_empty d); [exfalso; apply Hne; apply He; reflexivity|reflexivity]).
    rewrite Ed. cbn [filter] in HT. unfold nonempty in HT. rewrite Ed in HT. cbn [negb map Tiles] in HT.
    destruct (bounds_local d) as [a b] eqn:Eb. destruct HT as [-> [_ ->]].
    rewrite cut_var_whole; [reflexivity|congruence|exact Hm]. }
  rewrite Hsc. exists (map (fun d => if d_empty d then mkvar d [] None else cut_var v d) parts).
  destruct (parts_live _ _ _ HP) as [lls [HRl Hwl]].
  pose proof (pt_tiles _ _ _ HP) as HT. pose proof (pt_size _ _ _ HP) as HS.
  set (live := filter nonempty parts) in *.
  assert (HSl : Forall (fun d => d_empty d = false /\ 0 < dim_len d /\ snd (bounds_local d) - fst (bounds_local d) = dim_len d /\ live_kind src d) live).
  { apply Forall_forall. intros d Hd. apply filter_In in Hd. destruct Hd as [Hin Hn]. unfold nonempty in Hn.
    assert (Ed : d_empty d = false) by (destruct (d_empty d); [discriminate|reflexivity]).
    rewrite Forall_forall in HS, HK. destruct (HS d Hin Ed) as [A1 [A2 _]]. repeat split; try assumption. apply HK; assumption. }
  assert (Hlne : live <> []).
  { intros E. rewrite E in *. inversion HRl; subst. cbn in Hne. congruence. }
  assert (Hsum : zsum (map dim_len live) = zlen whole) by (rewrite (live_sum live lls HRl), Hwl; reflexivity).
  assert (Hex : existsb (fun p => d_empty (v_dim p)) (map (cut_var v) live) = false).
  { clear -HSl. induction HSl as [|d t [H _] HF IH]; [reflexivity|]. cbn [map existsb cut_var v_dim]. rewrite H. exact IH. }
  assert (Hscl : Forall2 (fun s d => v_dim s = d /\ zlen (v_vals s) = dim_len d) (map (fun d => if d_empty d then mkvar d [] None else cut_var v d) parts) parts).
  { assert (Hin : forall d, In d parts -> (if d_empty d then dim_len d = 0 else 0 <= fst (bounds_local d) /\ fst (bounds_local d) <= snd (bounds_local d) /\ snd (bounds_local d) <= zlen (v_vals v) /\ snd (bounds_local d) - fst (bounds_local d) = dim_len d)).
    { intros d Hd. destruct (d_empty d) eqn:Ed.
      - pose proof (pt_represents _ _ _ HP) as HR. pose proof (pt_empty _ _ _ HP) as HE. clear -HR HE Hd Ed.
        induction HR as [|d0 l0 ds ls Hd0 HR IH]; [destruct Hd|]. inversion HE as [|? ? ? ? He HEt]; subst.
        destruct Hd as [->|Hd]; [|apply IH; assumption]. destruct He as [He _]. rewrite (He Ed) in Hd0. destruct Hd0 as [H _]. symmetry; exact H.
      - rewrite Forall_forall in HS. destruct (HS d Hd Ed) as [A1 [A2 _]].
        assert (Hinl : In (bounds_local d) (map bounds_local live)) by (apply in_map, filter_In; unfold nonempty; rewrite Ed; tauto).
        destruct (tiles_in _ _ _ _ HT Hinl) as [B1 B2]. lia. }
    clear -Hin. induction parts as [|d t IH]; cbn [map]; constructor; [|apply IH; intros x Hx; apply Hin; right; exact Hx].
    specialize (Hin d (or_introl eq_refl)). destruct (d_empty d); cbn [v_dim v_vals cut_var]; split; try reflexivity.
    - rewrite Hin. reflexivity.
    - rewrite py_slice_zlen; lia. }
  rewrite filter_scatter. fold live. clearbody live.
  destruct live as [|d [|d2 t]]; [congruence| |].
  - (* one live rank *)
    inversion HRl as [|? l ? lt HRd Ht]; subst. inversion Ht; subst. cbn [concat] in *. rewrite app_nil_r in *.
    inversion HSl as [|? ? [S1 [S2 [S3 S4]]] _]; subst.
    cbn [map Tiles] in HT. destruct (bounds_local d) as [a b] eqn:Eb. destruct HT as [-> [_ ->]].
    exists (mkvar (undistribute d) (map Some (v_vals v)) (v_mask v)).
    split; [reflexivity|]. split; [exact Hscl|]. split.
    + cbn [map]. rewrite cut_var_whole by (congruence || exact Hm). unfold variable_gather. cbn [existsb v_dim]. rewrite S1. reflexivity.
    + cbn [v_vals v_mask v_dim]. split; [reflexivity|]. split; [reflexivity|]. split; [exact HRd|]. split; [exact S4|reflexivity].
  - destruct (gather_src_ok (d :: d2 :: t) lls whole src ltac:(discriminate) HRl Hwl HT) as [s [Es [Hks Hden]]].
    + eapply Forall_impl; [|exact HSl]. cbn; tauto.
    + eapply Forall_impl; [|exact HSl]. cbn; tauto.
    + exact Hsrc.
    + destruct (set_size_ok d (zlen whole) s) as [nd [End [E1 [E2 [E3 [E4 [E5 [E6 E7]]]]]]]]; [apply zlen_nonneg| |].
      { destruct s as [x|]; [|exact I]. destruct Hden as [-> Hx]. split; [reflexivity|exact Hx]. }
      exists (mkvar (undistribute nd) (map Some (v_vals v)) (v_mask v)).
      split; [reflexivity|]. split; [exact Hscl|]. split.
      * unfold variable_gather. rewrite Hex. 
        assert (Em : map v_dim (map (cut_var v) (d :: d2 :: t)) = d :: d2 :: t).
        { rewrite map_map. cbn [cut_var v_dim]. apply map_id. }
        rewrite Em. cbn [map]. change (dim_len d :: dim_len d2 :: map dim_len t) with (map dim_len (d :: d2 :: t)).
        rewrite Hsum, Es. cbn [bind]. change (srcarg_of s) with (src_arg s). cbn [cut_var v_dim]. rewrite End. cbn [bind].
        change (mkvar d (py_slice (v_vals v) _) _) with (cut_var v d).
        change (mkvar d2 (py_slice (v_vals v) _) _) with (cut_var v d2).
        change (cut_var v d :: cut_var v d2 :: map (cut_var v) t) with (map (cut_var v) (d :: d2 :: t)).
        rewrite <- Hv. rewrite gather_values; [reflexivity|discriminate|rewrite Hv; exact HT|exact Hm].
      * cbn [v_vals v_mask v_dim]. split; [reflexivity|]. split; [reflexivity|]. split.
        -- split; [change (dim_len (undistribute nd)) with (dim_len nd); congruence|].
           change (d_src (undistribute nd)) with (d_src nd). rewrite E2. destruct s as [x|]; [tauto|exact I].
        -- split; [change (d_src (undistribute nd)) with (d_src nd); rewrite E2; exact Hks|reflexivity].
Qed.

(** Distribution, scatter and gather together. *)
Theorem distribute_scatter_gather {A} size me dims whole dd (v : var A) :
  1 <= size -> 1 <= me -> existsb d_dist dims = true -> (forall d, In d dims -> 0 <= dim_len d) ->
  choose_distributed dims = Some dd -> Represents dd whole -> d_empty dd = false -> whole <> [] -> size = 1 \/ me <= zlen whole ->
  d_dist (v_dim v) = false -> zlen (v_vals v) = zlen whole ->
  match v_mask v with None => True | Some m => zlen m = zlen (v_vals v) end ->
  exists outs parts scattered v',
    map_res (fun r => update_group size me r dims) (zrange 0 size) = Ok outs /\
    Forall2 (fun out p => In p out /\ d_name p = d_name dd /\ d_dist p = true) outs parts /\
    variable_scatter v parts = Ok scattered /\
    zlen scattered = size /\
    variable_gather (filter (fun s => nonempty (v_dim s)) scattered) = Ok v' /\
    v_vals v' = map Some (v_vals v) /\ v_mask v' = v_mask v /\
    Represents (v_dim v') whole /\ SameKind (d_src dd) (d_src (v_dim v')) /\ d_dist (v_dim v') = false.
Proof.
  intros Hs Hme He Hp Hch HR Hem Hne Hcond Hvd Hv Hm.
  assert (Hn1 : 1 <= zlen whole) by (destruct whole; [congruence|rewrite zlen_cons; pose proof (zlen_nonneg whole); lia]).
  destruct (the_size_range size me (zlen whole) Hs Hme Hn1 Hcond) as [T1 [T2 [T3 T4]]].
  destruct (choose_distributed_spec dims He Hp) as [dd' [Hc' HL]]. rewrite Hch in Hc'. injection Hc' as <-.
  destruct (update_dim_all size (the_size size me (zlen whole)) dd whole HR ltac:(apply HL) Hem T1 T2 T3) as [parts [ls [E [HP [HN HS]]]]].
  assert (Eo := update_groups_all size (the_size size me (zlen whole)) dd whole dims He Hch me (zrange 0 size) parts
                  ltac:(destruct HR as [Hlen _]; rewrite <- Hlen; reflexivity) ltac:(destruct HR as [Hlen _]; exact Hlen) E).
  destruct (scatter_gather_spec v (d_src dd) whole parts ls Hvd Hne HP Hv Hm) as [sc [v' [S1 [S2 [S3 [S4 [S5 [S6 [S7 S8]]]]]]]]].
  - eapply Forall_impl; [|exact HS]. cbn. intros d Hd Hx. apply Hd; exact Hx.
  - destruct HR as [_ HR]. destruct (d_src dd) as [[a b|?]|]; try exact I. cbn [den] in HR. exists a, b. symmetry; exact HR.
  - exists (map (with_parts dd dims) parts), parts, sc, v'. split; [exact Eo|]. split.
    + clear -HN HL. destruct HL as [Hin _]. induction HN as [|p t [H1 H2] HF IH]; cbn [map]; constructor; [|exact IH].
      split; [|tauto]. unfold with_parts. apply in_map_iff. exists dd. rewrite String.eqb_refl. tauto.
    + split; [exact S1|]. split; [|tauto].
      pose proof (map_res_length _ _ _ E) as HLn. rewrite zrange_zlen in HLn.
      apply Forall2_len in S2. unfold zlen in *. lia.
Qed.

(** C09 *)

Lemma in_insert_unique x y l : In x (insert_unique y l) <-> x = y \/ In x l.
Proof.
  induction l as [|z t IH]; cbn [insert_unique In]; [intuition congruence|].
  destruct (y <? z) eqn:E1; [cbn [In]; intuition congruence|].
  destruct (Z.eqb_spec y z) as [->|Hne]; cbn [In]; [intuition congruence|]. rewrite IH. intuition congruence.
Qed.

Lemma in_np_unique x l : In x (np_unique l) <-> In x l.
Proof. induction l as [|y t IH]; [reflexivity|]. cbn [np_unique fold_right In]. fold (np_unique t). rewrite in_insert_unique, IH. intuition congruence. Qed.

Lemma np_unique_sorted l : StronglySorted Z.lt (np_unique l).
Proof.
  induction l as [|y t IH]; [constructor|]. cbn [np_unique fold_right]. fold (np_unique t).
  revert IH. generalize (np_unique t) as u. induction u as [|z u IHu]; intros Hs; cbn [insert_unique].
  - constructor; constructor.
  - inversion Hs as [|? ? Hs1 Hs2]; subst. destruct (y <? z) eqn:E1.
    + constructor; [exact Hs|]. constructor; [lia|]. eapply Forall_impl; [|exact Hs2]. cbn; intros; lia.
    + destruct (Z.eqb_spec y z) as [->|Hne]; [exact Hs|]. constructor; [apply IHu; exact Hs1|].
      apply Forall_forall. intros x Hx. apply in_insert_unique in Hx. destruct Hx as [->|Hx]; [lia|].
      rewrite Forall_forall in Hs2. apply Hs2; exact Hx.
Qed.

Lemma sorted_nodup l : StronglySorted Z.lt l -> NoDup l.
Proof.
  induction 1 as [|x l Hs IH HF]; constructor; [|exact IH]. intros Hin. rewrite Forall_forall in HF. specialize (HF x Hin). lia.
Qed.

Lemma overlaps_spec a b c d : a <= b -> c <= d -> (overlaps (a, b) (c, d) = true <-> exists x, a <= x <= b /\ c <= x <= d).
Proof.
  intros H1 H2. unfold overlaps; cbn [fst snd]. split.
  - intros H. destruct ((c <=? a) && (a <=? d)) eqn:E1; [exists a; lia|].
    destruct ((c <=? b) && (b <=? d)) eqn:E2; [exists b; lia|]. exists c. cbn in H. lia.
  - intros [x Hx]. lia.
Qed.

Lemma zmem_spec x l : zmem x l = true <-> In x l.
Proof.
  unfold zmem. rewrite existsb_exists. split; [intros [y [H E]]; apply Z.eqb_eq in E; subst; exact H|].
  intros H. exists x. split; [exact H|apply Z.eqb_refl].
Qed.

Section Unique.
Variable uniques : list (list Z).
Variable bounds : list (Z * Z).
Hypothesis Hb : Forall2 (fun u b => fst b <= snd b /\ (forall x, In x u -> fst b <= x <= snd b)) uniques bounds.

Lemma ub_nth i u : nth_error uniques i = Some u -> exists b, nth_error bounds i = Some b /\ fst b <= snd b /\ (forall x, In x u -> fst b <= x <= snd b).
Proof.
  clear -Hb. revert i u. induction Hb as [|u0 b0 us bs H0 HF IH]; intros [|i] u E; cbn [nth_error] in *; try discriminate.
  - injection E as <-. exists b0. tauto.
  - apply IH; assumption.
Qed.

Lemma bu_nth i b : nth_error bounds i = Some b -> exists u, nth_error uniques i = Some u /\ fst b <= snd b /\ (forall x, In x u -> fst b <= x <= snd b).
Proof.
  clear -Hb. revert i b. induction Hb as [|u0 b0 us bs H0 HF IH]; intros [|i] b E; cbn [nth_error] in *; try discriminate.
  - injection E as <-. exists u0. tauto.
  - apply IH; assumption.
Qed.

(** Dropping what the lower ranks [os] hold. *)
Lemma receive_fold r u br : nth_error uniques r = Some u -> nth_error bounds r = Some br ->
  (forall x, In x u -> fst br <= x <= snd br) -> fst br <= snd br ->
  forall os acc, Forall (fun o => (o < r)%nat) os -> incl acc u ->
  exists out, fold_res (receive_from uniques bounds r br) os acc = Ok out /\
    forall x, In x out <-> In x acc /\ forall o uo, In o os -> nth_error uniques o = Some uo -> ~ In x uo.
Proof.
  intros Eu Ebr Hubr Hbr. induction os as [|o os IH]; intros acc Hos Hinc.
  - exists acc. split; [reflexivity|]. intros x. split; [intros H; split; [exact H|intros ? ? []]|tauto].
  - inversion Hos as [|? ? Ho Hos']; subst. cbn [fold_res]. unfold receive_from at 1.
    destruct (nth_error bounds o) as [bo|] eqn:Ebo.
    + destruct (bu_nth o bo Ebo) as [uo [Euo [Hbo Huo]]].
      destruct (overlaps br bo) eqn:Eov.
      * unfold sent. rewrite Euo, Ebo, Ebr. replace (Nat.ltb o r) with true by (symmetry; apply Nat.ltb_lt; exact Ho).
        assert (Eov2 : overlaps bo br = true).
        { destruct br as [b1 b2], bo as [b3 b4]. cbn [fst snd] in *. apply overlaps_spec in Eov; [|assumption|assumption].
          apply overlaps_spec; [assumption|assumption|]. destruct Eov as [x Hx]. exists x. tauto. }
        rewrite Eov2. cbn [andb bind].
        destruct (IH (filter (fun x => negb (zmem x (filter (fun x => (fst br <=? x) && (x <=? snd br)) uo))) acc) Hos') as [out [E Hout]].
        { intros x Hx. apply filter_In in Hx. apply Hinc; tauto. }
        exists out. split; [exact E|]. intros x. rewrite Hout, filter_In. split.
        -- intros [[Hx Hn] Hrest]. split; [exact Hx|]. intros o' uo' [<-|Hin] E'; [|apply (Hrest o'); assumption].
           rewrite Euo in E'. injection E' as <-. intros Hxu.
           assert (Hm : zmem x (filter (fun x => (fst br <=? x) && (x <=? snd br)) uo) = true).
           { apply zmem_spec. apply filter_In. split; [exact Hxu|]. pose proof (Hubr x (Hinc x Hx)). lia. }
           rewrite Hm in Hn. discriminate.
        -- intros [Hx Hrest]. split; [split; [exact Hx|]|intros o' uo' Hin; apply Hrest; right; exact Hin].
           destruct (zmem x _) eqn:Em; [|reflexivity]. apply zmem_spec in Em. apply filter_In in Em.
           exfalso. apply (Hrest o uo); [left; reflexivity|exact Euo|tauto].
      * cbn [bind]. destruct (IH acc Hos' Hinc) as [out [E Hout]]. exists out. split; [exact E|]. intros x. rewrite Hout.
        split; [|intros [Hx Hrest]; split; [exact Hx|intros o' uo' Hin; apply Hrest; right; exact Hin]].
        intros [Hx Hrest]. split; [exact Hx|]. intros o' uo' [<-|Hin] E'; [|apply (Hrest o'); assumption].
        rewrite Euo in E'. injection E' as <-. intros Hxu.
        assert (Ht : overlaps br bo = true).
        { destruct br as [b1 b2], bo as [b3 b4]. cbn [fst snd] in *. apply overlaps_spec; [assumption|assumption|].
          exists x. split; [apply Hubr, Hinc; exact Hx|apply Huo; exact Hxu]. }
        congruence.
    + cbn [bind]. destruct (IH acc Hos' Hinc) as [out [E Hout]]. exists out. split; [exact E|]. intros x. rewrite Hout.
      split; [|intros [Hx Hrest]; split; [exact Hx|intros o' uo' Hin; apply Hrest; right; exact Hin]].
      intros [Hx Hrest]. split; [exact Hx|]. intros o' uo' [<-|Hin] E'; [|apply (Hrest o'); assumption].
      destruct (ub_nth _ _ E') as [b [Eb _]]. congruence.
Qed.
End Unique.

Lemma nodup_fold_receive uniques bounds r br : forall os acc out,
  NoDup acc -> fold_res (receive_from uniques bounds r br) os acc = Ok out -> NoDup out.
Proof.
  induction os as [|o os IH]; intros acc out Hn E; cbn [fold_res] in E; [injection E as <-; exact Hn|].
  unfold receive_from at 1 in E. destruct (nth_error bounds o) as [bo|]; cbn [bind] in E; [|eapply IH; eassumption].
  destruct (overlaps br bo); cbn [bind] in E; [|eapply IH; eassumption].
  destruct (sent uniques bounds o r); cbn [bind] in E; [|discriminate].
  eapply IH; [|exact E]. apply NoDup_filter. exact Hn.
Qed.

Theorem create_unique_global_array_spec arrs : Forall (fun a => a <> []) arrs ->
  exists outs, create_unique_global_array arrs = Ok outs /\ List.length outs = List.length arrs /\
    (forall r a out, nth_error arrs r = Some a -> nth_error outs r = Some out -> incl out a /\ NoDup out) /\
    (forall x, In x (concat arrs) -> ExactlyOne (In x) outs) /\
    NoDup (concat outs).
Proof.
  intros Hne. unfold create_unique_global_array.
  set (uniques := map np_unique arrs).
  assert (Hbd : exists bounds, map_res (fun u => do a <- list_min u; do b <- list_max u; Ok (a, b)) uniques = Ok bounds /\
    Forall2 (fun u b => fst b <= snd b /\ (forall x, In x u -> fst b <= x <= snd b)) uniques bounds).
  { unfold uniques. clear uniques. induction Hne as [|a arrs Ha HF IH]; [exists []; split; [reflexivity|constructor]|].
    destruct IH as [bs [E H]].
    assert (Hu : np_unique a <> []).
    { destruct a as [|x t]; [congruence|]. intros E0. assert (In x (np_unique (x :: t))) by (apply in_np_unique; left; reflexivity). rewrite E0 in H0. destruct H0. }
    destruct (list_min_ok _ Hu) as [m [Em [Hm1 Hm2]]]. destruct (list_max_ok _ Hu) as [M [EM [HM1 HM2]]].
    cbn [map map_res]. rewrite Em, EM. cbn [bind]. rewrite E. cbn [bind]. exists ((m, M) :: bs). split; [reflexivity|].
    constructor; [|exact H]. cbn [fst snd]. split; [apply Hm2; exact HM1|]. intros x Hx. split; [apply Hm2|apply HM2]; exact Hx. }
  destruct Hbd as [bounds [Eb Hb]]. rewrite Eb. cbn [bind].
  assert (Hlen : List.length uniques = List.length arrs) by (unfold uniques; apply map_length).
  (* each rank *)
  assert (Hrank : forall r u, nth_error uniques r = Some u -> exists br out, nth_error bounds r = Some br /\
     fold_res (receive_from uniques bounds r br) (seq 0 r) u = Ok out /\ NoDup out /\
     (forall x, In x out <-> In x u /\ forall o uo, (o < r)%nat -> nth_error uniques o = Some uo -> ~ In x uo)).
  { intros r u Eu. destruct (ub_nth uniques bounds Hb r u Eu) as [br [Ebr [H1 H2]]].
    destruct (receive_fold uniques bounds Hb r u br Eu Ebr H2 H1 (seq 0 r) u) as [out [E Hout]].
    - apply Forall_forall. intros o Ho. apply in_seq in Ho. lia.
    - apply incl_refl.
    - exists br, out. split; [exact Ebr|]. split; [exact E|]. split.
      + eapply nodup_fold_receive; [|exact E]. unfold uniques in Eu. rewrite nth_error_map in Eu.
        destruct (nth_error arrs r) as [a|]; [|discriminate]. injection Eu as <-. apply sorted_nodup, np_unique_sorted.
      + intros x. rewrite Hout. split; intros [A B]; (split; [exact A|]); intros o uo Ho; apply B; [apply in_seq; lia|apply in_seq in Ho; lia]. }
  assert (Houts : exists outs, map_res (fun r => match nth_error uniques r, nth_error bounds r with
      | Some u, Some br => fold_res (receive_from uniques bounds r br) (seq 0 r) u | _, _ => Err IndexError end) (seq 0 (List.length arrs)) = Ok outs /\
      List.length outs = List.length arrs /\
      forall r u, nth_error uniques r = Some u -> exists out, nth_error outs r = Some out /\ NoDup out /\
        (forall x, In x out <-> In x u /\ forall o uo, (o < r)%nat -> nth_error uniques o = Some uo -> ~ In x uo)).
  { cut (forall k lo, (lo + k <= List.length uniques)%nat -> exists outs, map_res (fun r => match nth_error uniques r, nth_error bounds r with
      | Some u, Some br => fold_res (receive_from uniques bounds r br) (seq 0 r) u | _, _ => Err IndexError end) (seq lo k) = Ok outs /\
      List.length outs = k /\
      forall r u, (r < k)%nat -> nth_error uniques (lo + r) = Some u -> exists out, nth_error outs r = Some out /\ NoDup out /\
        (forall x, In x out <-> In x u /\ forall o uo, (o < lo + r)%nat -> nth_error uniques o = Some uo -> ~ In x uo)).
    { intros H. destruct (H (List.length arrs) 0%nat ltac:(lia)) as [outs [E [Hl HH]]]. exists outs. split; [exact E|]. split; [exact Hl|].
      intros r u Eu. assert ((r < List.length uniques)%nat) by (apply nth_error_Some; rewrite Eu; discriminate).
      apply (HH r u); [lia|exact Eu]. }
    induction k as [|k IH]; intros lo Hk.
    - exists []. split; [reflexivity|]. split; [reflexivity|]. intros; lia.
    - cbn [seq map_res]. destruct (nth_error uniques lo) as [u|] eqn:Eu; [|apply nth_error_None in Eu; lia].
      destruct (Hrank lo u Eu) as [br [out [Ebr [E [Hnd Hout]]]]]. rewrite Ebr, E. cbn [bind].
      destruct (IH (S lo) ltac:(lia)) as [outs [E2 [Hl HH]]]. rewrite E2. cbn [bind].
      exists (out :: outs). split; [reflexivity|]. split; [cbn; lia|].
      intros [|r] u' Hr Eu'.
      + rewrite Nat.add_0_r in *. rewrite Eu in Eu'. injection Eu' as <-. exists out. split; [reflexivity|]. tauto.
      + replace (lo + S r)%nat with (S lo + r)%nat in * by lia. cbn [nth_error]. apply HH; [lia|exact Eu']. }
  destruct Houts as [outs [E [Hl Hout]]]. exists outs. split; [exact E|]. split; [exact Hl|].
  assert (Hnthu : forall r a, nth_error arrs r = Some a -> nth_error uniques r = Some (np_unique a)) by (intros r a Ea; unfold uniques; rewrite nth_error_map, Ea; reflexivity).
  assert (Hone : forall x r1 r2 o1 o2, nth_error outs r1 = Some o1 -> nth_error outs r2 = Some o2 -> In x o1 -> In x o2 -> r1 = r2).
  { intros x r1 r2 o1 o2 E1 E2 H1 H2.
    assert (A : forall r o, nth_error outs r = Some o -> exists u, nth_error uniques r = Some u /\ forall x, In x o <-> In x u /\ forall o uo, (o < r)%nat -> nth_error uniques o = Some uo -> ~ In x uo).
    { intros r o Eo. destruct (nth_error uniques r) as [u|] eqn:Eu.
      - destruct (Hout r u Eu) as [out' [E' [_ H']]]. rewrite Eo in E'. injection E' as <-. exists u; tauto.
      - apply nth_error_None in Eu. assert ((r < List.length outs)%nat) by (apply nth_error_Some; rewrite Eo; discriminate). lia. }
    destruct (A r1 o1 E1) as [u1 [U1 S1]]. destruct (A r2 o2 E2) as [u2 [U2 S2]].
    destruct (Nat.lt_trichotomy r1 r2) as [H|[H|H]]; [|exact H|].
    - exfalso. apply S2 in H2. destruct H2 as [_ H2]. apply (H2 r1 u1 H U1). apply S1; exact H1.
    - exfalso. apply S1 in H1. destruct H1 as [_ H1]. apply (H1 r2 u2 H U2). apply S2; exact H2. }
  assert (Hnd : forall o, In o outs -> NoDup o).
  { intros o Ho. apply In_nth_error in Ho. destruct Ho as [r Er].
    destruct (nth_error uniques r) as [u|] eqn:Eu.
    - destruct (Hout r u Eu) as [out' [E' [Hn _]]]. rewrite Er in E'. injection E' as <-. exact Hn.
    - apply nth_error_None in Eu. assert ((r < List.length outs)%nat) by (apply nth_error_Some; rewrite Er; discriminate). lia. }
  split; [|split].
  - intros r a out Ea Eo. destruct (Hout r _ (Hnthu r a Ea)) as [out' [E' [Hn H']]]. rewrite Eo in E'. injection E' as <-.
    split; [|exact Hn]. intros x Hx. apply H' in Hx. apply in_np_unique. tauto.
  - intros x Hx.
    (* the lowest rank holding x *)
    assert (Hlow : exists r a, nth_error arrs r = Some a /\ In x a /\ forall o ao, (o < r)%nat -> nth_error arrs o = Some ao -> ~ In x ao).
    { clear -Hx. induction arrs as [|a t IH]; [destruct Hx|]. cbn [concat] in Hx.
      destruct (in_dec Z.eq_dec x a) as [Hin|Hnin].
      - exists 0%nat, a. split; [reflexivity|]. split; [exact Hin|]. intros; lia.
      - apply in_app_or in Hx. destruct Hx as [Hx|Hx]; [tauto|]. destruct (IH Hx) as [r [b [Eb [Hb Hn]]]].
        exists (S r), b. split; [exact Eb|]. split; [exact Hb|]. intros [|o] ao Ho Eo; [injection Eo as <-; exact Hnin|]. apply (Hn o); [lia|exact Eo]. }
    destruct Hlow as [r [a [Ea [Hin Hn]]]]. destruct (Hout r _ (Hnthu r a Ea)) as [out [Eo [_ H']]].
    assert (Hxo : In x out).
    { apply H'. split; [apply in_np_unique; exact Hin|]. intros o uo Ho Eu. unfold uniques in Eu. rewrite nth_error_map in Eu.
      destruct (nth_error arrs o) as [ao|] eqn:Eao; [|discriminate]. injection Eu as <-. intros Hi. apply (proj1 (in_np_unique _ _)) in Hi. apply (Hn o ao Ho Eao Hi). }
    exists r, out. split; [exact Eo|]. split; [exact Hxo|]. intros k' x' Ek Hx'. apply (Hone x k' r x' out); assumption.
  - assert (Hone' : forall x r1 r2 o1 o2, nth_error outs r1 = Some o1 -> nth_error outs r2 = Some o2 -> In x o1 -> In x o2 -> r1 = r2) by exact Hone.
    clear -Hone' Hnd. induction outs as [|o t IH]; [constructor|]. cbn [concat]. apply NoDup_app_intro.
    + apply Hnd; left; reflexivity.
    + apply IH; [intros y Hy; apply Hnd; right; exact Hy|]. intros x r1 r2 o1 o2 E1 E2 H1 H2.
      assert (S r1 = S r2) by (eapply Hone'; [exact E1|exact E2|exact H1|exact H2]). lia.
    + intros x Hx Hc. apply in_concat in Hc. destruct Hc as [y [Hy Hxy]]. apply In_nth_error in Hy. destruct Hy as [r Er].
      assert (0%nat = S r) by (eapply (Hone' x 0%nat (S r) o y); [reflexivity|exact Er|exact Hx|exact Hxy]). discriminate.
Qed.

Lemma create_unique_empty_raises arrs : In [] arrs -> create_unique_global_array arrs = Err ValueError.
Proof.
  intros Hin. unfold create_unique_global_array.
  assert (E : map_res (fun u => do a <- list_min u; do b <- list_max u; Ok (a, b)) (map np_unique arrs) = Err ValueError).
  { induction arrs as [|a t IH]; [destruct Hin|]. cbn [map map_res]. destruct (list_eq_dec Z.eq_dec a []) as [->|Hne]; [reflexivity|].
    destruct Hin as [->|Hin]; [congruence|].
    assert (Hu : np_unique a <> []).
    { destruct a as [|x u]; [congruence|]. intros E0. assert (H : In x (np_unique (x :: u))) by (apply in_np_unique; left; reflexivity). rewrite E0 in H. destruct H. }
    destruct (list_min_ok _ Hu) as [m [-> _]]. destruct (list_max_ok _ Hu) as [M [-> _]]. cbn [bind]. rewrite (IH Hin). reflexivity. }
  rewrite E. reflexivity.
Qed.
