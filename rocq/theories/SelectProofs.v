(** Box selection (C56, C62), multi-part coordinates (C52) and corners (C45). *)
From Verif Require Import Py Lib Spec PartitionModel PartitionProofs TimeModel TimeProofs NdModel NdSpec NdProofs MaskProofs SeasonProofs CalcModel CalcProofs AggModel AggSpec AggProofs CoordModel CoordSpec CoordProofs.
From Coq Require Import Lqa Permutation.
Local Open Scope Q_scope.

Lemma selected_iff (keep : bool) lower upper x :
  (if keep then qle lower x && qle x upper else qlt lower x && qlt x upper) = true <-> Selected keep lower upper x.
Proof.
  unfold Selected. destruct keep; rewrite andb_true_iff; [destruct (qle_spec lower x), (qle_spec x upper) | destruct (qlt_spec lower x), (qlt_spec x upper)];
    split; intros [A B]; try discriminate; try contradiction; auto.
Qed.

Lemma intersects_spec arr lower upper keep : lower <= upper ->
  exists sel, arr_intersects_bounds arr lower upper keep = Ok sel /\ Forall2 (fun x b => b = true <-> Selected keep lower upper x) arr sel.
Proof.
  intros H. unfold arr_intersects_bounds. destruct (qle_spec lower upper); [|contradiction]. cbn [negb]. eexists. split; [reflexivity|].
  apply forall2_map_r. rewrite Forall_forall. intros x _. apply selected_iff.
Qed.
Lemma intersects_rejects arr lower upper keep : upper < lower -> arr_intersects_bounds arr lower upper keep = Err AssertionError.
Proof. intros H. unfold arr_intersects_bounds. destruct (qle_spec lower upper); [lra | reflexivity]. Qed.

Lemma section_spec arr lower upper keep a b : lower <= upper -> (0 <= a <= b)%Z -> (b <= zlen arr)%Z ->
  exists sel, arr_intersects_section arr lower upper keep a b = Ok sel /\ List.length sel = List.length arr /\
    forall k x, nth_error arr k = Some x ->
      (nth_error sel k = Some true <-> (a <= Z.of_nat k < b)%Z /\ Selected keep lower upper x).
Proof.
  intros H Hab Hb. unfold arr_intersects_section. destruct (intersects_spec (py_slice arr (slice_of a b)) lower upper keep H) as [sel [E F]]. rewrite E. cbn [bind].
  assert (Sb : slice_bounds (zlen arr) (slice_of a b) = (a, b)).
  { unfold slice_bounds, clip_end, slice_of. cbn. destruct (a <? 0)%Z eqn:E1; [lia|]. destruct (b <? 0)%Z eqn:E2; [lia|]. f_equal; lia. }
  assert (L : zlen sel = (b - a)%Z).
  { unfold zlen at 1. rewrite <- (Forall2_len _ _ _ F). unfold py_slice. rewrite Sb. rewrite firstn_length, skipn_length. unfold zlen in *. lia. }
  rewrite Sb. eexists. split; [reflexivity|]. split; [rewrite map_length, zrange_length; unfold zlen; lia|].
  intros k x Hk. assert (Hl : (k < List.length arr)%nat) by (apply nth_error_Some; congruence).
  rewrite (map_nth_error _ _ _ (nth_error_zrange 0 (zlen arr) k ltac:(unfold zlen; lia))). rewrite L.
  destruct (((a <=? 0 + Z.of_nat k) && (0 + Z.of_nat k <? a + (b - a)))%Z) eqn:In.
  - assert (Hx : nth_error (py_slice arr (slice_of a b)) (k - Z.to_nat a) = Some x).
    { unfold py_slice. rewrite Sb. rewrite <- Hk.
      transitivity (nth_error (skipn (Z.to_nat a) arr) (k - Z.to_nat a)).
      - rewrite <- (firstn_skipn (Z.to_nat (b - a)) (skipn (Z.to_nat a) arr)) at 2. rewrite nth_error_app1; [reflexivity|]. rewrite firstn_length, skipn_length. unfold zlen in *. lia.
      - rewrite <- (firstn_skipn (Z.to_nat a) arr) at 2. rewrite nth_error_app2; rewrite firstn_length; [f_equal|]; unfold zlen in *; lia. }
    destruct (nth_error_forall2 _ _ _ F (k - Z.to_nat a)) as [_ X]. destruct (X _ Hx) as [bb [Hbb Hbx]].
    replace (Z.to_nat (0 + Z.of_nat k - a)) with (k - Z.to_nat a)%nat by lia. rewrite (nth_error_nth _ _ false Hbb).
    split.
    + intros T. split; [lia|]. apply Hbx. congruence.
    + intros [_ T]. apply Hbx in T. congruence.
  - split; [intros T; discriminate | intros [T _]; lia].
Qed.

Lemma and2_nth a b k : nth_error (and2 a b) k = Some true <-> nth_error a k = Some true /\ nth_error b k = Some true.
Proof.
  unfold and2. split.
  - intros H. destruct (nth_error (combine a b) k) as [[p q]|] eqn:E.
    + rewrite (map_nth_error _ _ _ E) in H. cbn in H. assert (p && q = true) by congruence. apply andb_true_iff in H0. destruct H0; subst p q.
      revert a b E H. induction k; intros [|x a] [|y b] E H; try discriminate; cbn in *; [split; congruence | eapply IHk; eauto].
    + rewrite nth_error_map, E in H. discriminate.
  - revert a b. induction k; intros [|x a] [|y b] [H1 H2]; try discriminate; cbn in *; [|apply IHk; auto].
    inversion H1; inversion H2; reflexivity.
Qed.
Lemma and2_length a b : List.length (and2 a b) = Nat.min (List.length a) (List.length b).
Proof. unfold and2. rewrite map_length, combine_length. reflexivity. Qed.

Lemma sel_nth arr sel (P : Q -> Prop) k x : Forall2 (fun x b => b = true <-> P x) arr sel -> nth_error arr k = Some x -> (nth_error sel k = Some true <-> P x).
Proof.
  intros F H. destruct (nth_error_forall2 _ _ _ F k) as [_ X]. destruct (X _ H) as [b [Hb R]]. rewrite Hb, <- R. split; congruence.
Qed.
Lemma negb_nth l k : (k < List.length l)%nat -> (nth_error (map negb l) k = Some true <-> nth_error l k <> Some true).
Proof.
  intros H. destruct (nth_error l k) as [b|] eqn:E; [|apply nth_error_None in E; lia]. rewrite (map_nth_error _ _ _ E). destruct b; cbn; split; congruence.
Qed.

Lemma xyz_select_spec x y z minx miny maxx maxy zb invert keep :
  List.length y = List.length x -> List.length z = List.length x -> minx <= maxx -> miny <= maxy ->
  match zb with None => True | Some (a, b) => a <= b end ->
  exists sel, get_xyz_select x y minx miny maxx maxy z zb invert keep false = Ok sel /\ List.length sel = List.length x /\
    forall k vx vy vz, nth_error x k = Some vx -> nth_error y k = Some vy -> nth_error z k = Some vz ->
      (nth_error sel k = Some true <-> (if invert then ~ SelectedPoint keep minx miny maxx maxy zb vx vy vz else SelectedPoint keep minx miny maxx maxy zb vx vy vz)).
Proof.
  intros Ly Lz Hx Hy Hz. unfold get_xyz_select.
  destruct (intersects_spec x minx maxx keep Hx) as [sx [Ex Fx]]. destruct (intersects_spec y miny maxy keep Hy) as [sy [Ey Fy]].
  rewrite Ex, Ey. cbn [bind]. unfold arr_touches. cbn [andb].
  assert (Lsx := Forall2_len _ _ _ Fx). assert (Lsy := Forall2_len _ _ _ Fy).
  destruct zb as [[a b]|].
  - destruct (intersects_spec z a b keep Hz) as [sz [Ez Fz]]. rewrite Ez. cbn [bind]. assert (Lsz := Forall2_len _ _ _ Fz).
    eexists. split; [reflexivity|]. split; [destruct invert; rewrite ?map_length, ?and2_length; lia|].
    intros k vx vy vz Kx Ky Kz. assert (Hk : (k < List.length x)%nat) by (apply nth_error_Some; congruence).
    assert (S : nth_error (and2 (and2 sx sy) sz) k = Some true <-> SelectedPoint keep minx miny maxx maxy (Some (a, b)) vx vy vz).
    { rewrite !and2_nth, (sel_nth _ _ _ _ _ Fx Kx), (sel_nth _ _ _ _ _ Fy Ky), (sel_nth _ _ _ _ _ Fz Kz). unfold SelectedPoint. tauto. }
    destruct invert; [rewrite negb_nth, S by (rewrite !and2_length; lia); tauto | exact S].
  - eexists. split; [reflexivity|]. split; [destruct invert; rewrite ?map_length, ?and2_length; lia|].
    intros k vx vy vz Kx Ky Kz. assert (Hk : (k < List.length x)%nat) by (apply nth_error_Some; congruence).
    assert (S : nth_error (and2 sx sy) k = Some true <-> SelectedPoint keep minx miny maxx maxy None vx vy vz).
    { rewrite !and2_nth, (sel_nth _ _ _ _ _ Fx Kx), (sel_nth _ _ _ _ _ Fy Ky). unfold SelectedPoint. tauto. }
    destruct invert; [rewrite negb_nth, S by (rewrite !and2_length; lia); tauto | exact S].
Qed.
Lemma xyz_select_rejects x y z minx miny maxx maxy zb invert keep nt : maxx < minx \/ maxy < miny \/ (exists a b, zb = Some (a, b) /\ b < a) ->
  forall sel, get_xyz_select x y minx miny maxx maxy z zb invert keep nt <> Ok sel.
Proof.
  intros H sel E. unfold get_xyz_select in E. destruct H as [H|[H|[a [b [-> H]]]]].
  - rewrite intersects_rejects in E by exact H. discriminate.
  - unfold bind in E. destruct (arr_intersects_bounds x minx maxx keep); [|discriminate]. rewrite intersects_rejects in E by exact H. discriminate.
  - unfold bind in E. destruct (arr_intersects_bounds x minx maxx keep); [|discriminate]. destruct (arr_intersects_bounds y miny maxy keep); [|discriminate].
    unfold arr_touches in E. rewrite intersects_rejects in E by exact H. discriminate.
Qed.

(** Hints on grids. *)
Lemma box_iff minx miny maxx maxy x y : (qle minx x && qle x maxx) && (qle miny y && qle y maxy) = true <-> InBox (minx, miny, maxx, maxy) x y.
Proof.
  rewrite !andb_true_iff. cbn. destruct (qle_spec minx x), (qle_spec x maxx), (qle_spec miny y), (qle_spec y maxy); split; intros; intuition discriminate.
Qed.
Lemma hint_vectorized xs ys minx miny maxx maxy invert :
  exists sel, hint_mask_vectorized xs ys minx miny maxx maxy invert false = Ok sel /\ List.length sel = List.length ys /\
    forall i j x y, nth_error xs j = Some x -> nth_error ys i = Some y ->
      exists row, nth_error sel i = Some row /\ List.length row = List.length xs /\
        (nth_error row j = Some true <-> (if invert then ~ InBox (minx, miny, maxx, maxy) x y else InBox (minx, miny, maxx, maxy) x y)).
Proof.
  unfold hint_mask_vectorized. cbn [bind]. eexists. split; [reflexivity|]. split; [rewrite !map_length; reflexivity|].
  intros i j x y Hx Hy. rewrite (map_nth_error _ i _ (map_nth_error _ i _ Hy)). eexists. split; [reflexivity|]. split; [rewrite !map_length; reflexivity|].
  rewrite (map_nth_error _ j _ (map_nth_error _ j _ Hx)). pose proof (box_iff minx miny maxx maxy x y) as B.
  destruct ((qle minx x && qle x maxx) && (qle miny y && qle y maxy)), invert; cbn [negb]; split; intros; try congruence; try tauto.
  - intros X. apply B in X. discriminate.
  - destruct B as [_ B]. specialize (B H). discriminate.
Qed.
Lemma hint_2d xs ys minx miny maxx maxy invert : Forall2 (fun a b => List.length a = List.length b) xs ys ->
  exists sel, hint_mask_2d xs ys minx miny maxx maxy invert false = Ok sel /\ List.length sel = List.length xs /\
    forall i j rx ry x y, nth_error xs i = Some rx -> nth_error ys i = Some ry -> nth_error rx j = Some x -> nth_error ry j = Some y ->
      exists row, nth_error sel i = Some row /\ List.length row = List.length rx /\
        (nth_error row j = Some true <-> (if invert then ~ InBox (minx, miny, maxx, maxy) x y else InBox (minx, miny, maxx, maxy) x y)).
Proof.
  intros F. unfold hint_mask_2d. cbn [andb]. eexists. split; [reflexivity|]. split.
  - rewrite !map_length, combine_length. rewrite <- (Forall2_len _ _ _ F). lia.
  - intros i j rx ry x y Hrx Hry Hx Hy.
    assert (C : nth_error (combine xs ys) i = Some (rx, ry)) by (apply nth_error_combine; assumption).
    rewrite (map_nth_error _ i _ (map_nth_error _ i _ C)). cbn [fst snd].
    eexists. split; [reflexivity|]. split.
    + rewrite map_length, combine_length. destruct (nth_error_forall2 _ _ _ F i) as [_ X]. destruct (X _ Hrx) as [r [Hr L]]. assert (r = ry) by congruence. subst r. lia.
    + assert (C2 : nth_error (combine rx ry) j = Some (x, y)) by (apply nth_error_combine; assumption).
      rewrite (map_nth_error _ j _ C2). cbn [fst snd]. pose proof (box_iff minx miny maxx maxy x y) as B.
      destruct ((qle minx x && qle x maxx) && (qle miny y && qle y maxy)), invert; cbn [negb]; split; intros; try congruence; try tauto.
      * intros X. apply B in X. discriminate.
      * destruct B as [_ B]. specialize (B H). discriminate.
Qed.

(** ** Multi-part coordinates (C52) *)
Local Open Scope Z_scope.
Fixpoint split_at (v : Z) (l : list Z) : list (list Z) :=
  match l with
  | [] => [[]]
  | x :: t => if x =? v then [] :: split_at v t
              else match split_at v t with [] => [[x]] | p :: ps => (x :: p) :: ps end
  end.
Lemma split_at_nonnil v l : split_at v l <> [].
Proof. destruct l as [|x t]; cbn; [discriminate|]. destruct (x =? v); [discriminate|]. destruct (split_at v t); discriminate. Qed.
Lemma join_split v : forall l, join v (split_at v l) = l.
Proof.
  induction l as [|x t IH]; [reflexivity|]. cbn. destruct (x =? v) eqn:E.
  - assert (x = v) by lia. subst x. destruct (split_at v t) as [|p ps] eqn:S; [destruct (split_at_nonnil v t S)|].
    change (join v ([] :: p :: ps)) with (v :: join v (p :: ps)). rewrite IH. reflexivity.
  - destruct (split_at v t) as [|p ps] eqn:S; [destruct (split_at_nonnil v t S)|]. rewrite <- IH. destruct ps; reflexivity.
Qed.
Lemma split_clean v : forall l p, In p (split_at v l) -> ~ In v p.
Proof.
  induction l as [|x t IH]; intros p; cbn.
  - intros [<-|[]] [].
  - destruct (x =? v) eqn:E.
    + intros [<-|H]; [intros [] | apply IH, H].
    + destruct (split_at v t) as [|q qs] eqn:S; [destruct (split_at_nonnil v t S)|]. intros [<-|H].
      * intros [H|H]; [lia|]. apply (IH q); [left; reflexivity | exact H].
      * apply IH. right. exact H.
Qed.
Lemma split_count v : forall l, zlen (split_at v l) = 1 + zlen (filter (fun x => x =? v) l).
Proof.
  induction l as [|x t IH]; [reflexivity|]. cbn [split_at filter]. destruct (x =? v) eqn:E; [rewrite !zlen_cons, IH; lia|].
  destruct (split_at v t) as [|q qs] eqn:S; [destruct (split_at_nonnil v t S)|]. rewrite !zlen_cons in *. cbn [filter]. lia.
Qed.

(** The loop over the break positions of a suffix. *)
Definition breaks_from (off : Z) (v : Z) (l : list Z) : list Z :=
  filter (fun k => match nth_error l (Z.to_nat (k - off)) with Some x => x =? v | None => false end) (zrange off (off + zlen l)).
Lemma breaks_cons off v x t : breaks_from off v (x :: t) = (if x =? v then [off] else []) ++ breaks_from (off + 1) v t.
Proof.
  unfold breaks_from. rewrite zlen_cons, (zrange_cons off) by (pose proof (zlen_nonneg t); lia). cbn [filter].
  replace (off - off) with 0 by lia. cbn [Z.to_nat nth_error].
  assert (E : filter (fun k => match nth_error (x :: t) (Z.to_nat (k - off)) with Some x0 => x0 =? v | None => false end) (zrange (off + 1) (off + (1 + zlen t))) =
              filter (fun k => match nth_error t (Z.to_nat (k - (off + 1))) with Some x0 => x0 =? v | None => false end) (zrange (off + 1) (off + 1 + zlen t))).
  { replace (off + (1 + zlen t)) with (off + 1 + zlen t) by lia. apply filter_ext_in. intros k Hk. apply in_zrange in Hk.
    replace (Z.to_nat (k - off)) with (S (Z.to_nat (k - (off + 1)))) by lia. reflexivity. }
  rewrite E. destruct (x =? v); reflexivity.
Qed.

Lemma py_slice_mid {A} (pre p rest : list A) : py_slice (pre ++ p ++ rest) (slice_of (zlen pre) (zlen pre + zlen p)) = p.
Proof.
  unfold py_slice, slice_bounds, clip_end, slice_of. cbn. pose proof (zlen_nonneg pre). pose proof (zlen_nonneg p). pose proof (zlen_nonneg rest).
  rewrite !zlen_app. destruct (zlen pre <? 0) eqn:E1; [lia|]. destruct (zlen pre + zlen p <? 0) eqn:E2; [lia|].
  replace (Z.to_nat (Z.min (zlen pre) (zlen pre + (zlen p + zlen rest)))) with (List.length pre) by (unfold zlen in *; lia).
  rewrite skipn_app, skipn_all2 by lia. rewrite Nat.sub_diag. cbn [skipn app].
  replace (Z.to_nat _) with (List.length p) by (unfold zlen in *; lia). rewrite firstn_app, firstn_all2 by lia. rewrite Nat.sub_diag, firstn_O, app_nil_r. reflexivity.
Qed.

Lemma multipart_loop v arr : forall t pre cur out start off,
  arr = pre ++ cur ++ t -> start = zlen pre -> off = zlen pre + zlen cur ->
  snd (fold_left (fun st iw => (iw + 1, snd st ++ [py_slice arr (slice_of (fst st) iw)])) (breaks_from off v t ++ [zlen arr]) (start, out)) =
  out ++ match split_at v t with [] => [] | p :: ps => (cur ++ p) :: ps end.
Proof.
  induction t as [|x t IH]; intros pre cur out start off Harr Hs Ho.
  - assert (B0 : breaks_from off v [] = []) by (unfold breaks_from; rewrite zrange_nil by (unfold zlen; cbn; lia); reflexivity).
    rewrite B0. cbn [app fold_left fst snd split_at]. rewrite app_nil_r in *. subst. f_equal. f_equal.
    pose proof (py_slice_mid pre cur []) as P. rewrite app_nil_r in P. rewrite zlen_app. exact P.
  - rewrite breaks_cons. destruct (x =? v) eqn:E.
    + cbn [app fold_left fst snd split_at]. rewrite E.
      rewrite (IH (pre ++ cur ++ [x]) [] (out ++ [py_slice arr (slice_of start off)]) (off + 1) (off + 1)).
      * rewrite <- app_assoc. f_equal. subst start off. rewrite Harr at 1. rewrite (py_slice_mid pre cur (x :: t)). rewrite app_nil_r.
        destruct (split_at v t) eqn:S; [destruct (split_at_nonnil v t S)|]. reflexivity.
      * rewrite Harr, <- !app_assoc. reflexivity.
      * subst off. rewrite !zlen_app, zlen_cons. cbn. lia.
      * subst off. rewrite !zlen_app, zlen_cons. cbn. lia.
    + cbn [app fold_left split_at]. rewrite E.
      rewrite (IH pre (cur ++ [x]) out start (off + 1)).
      * destruct (split_at v t) eqn:S; [destruct (split_at_nonnil v t S)|]. rewrite <- app_assoc. reflexivity.
      * rewrite Harr, <- !app_assoc. reflexivity.
      * exact Hs.
      * subst off. rewrite !zlen_app, zlen_cons. cbn. lia.
Qed.
Lemma multipart_split arr v : iter_multipart_coordinates arr v = split_at v arr.
Proof.
  unfold iter_multipart_coordinates. assert (W : where_eq arr v = breaks_from 0 v arr).
  { unfold where_eq, breaks_from. apply filter_ext_in. intros k _. rewrite Z.sub_0_r. reflexivity. }
  rewrite W. rewrite (multipart_loop v arr arr [] [] [] 0 0) by reflexivity. cbn. destruct (split_at v arr) eqn:S; [destruct (split_at_nonnil v arr S)|]. reflexivity.
Qed.
Lemma multipart_spec arr v : join v (iter_multipart_coordinates arr v) = arr /\
  (forall p, In p (iter_multipart_coordinates arr v) -> ~ In v p) /\
  zlen (iter_multipart_coordinates arr v) = 1 + zlen (filter (fun x => x =? v) arr).
Proof. rewrite multipart_split. split; [apply join_split|]. split; [apply split_clean | apply split_count]. Qed.

(** ** Corners (C45) *)
Lemma upd_same {B} (f : list Z -> B) b v : upd f b v b = v.
Proof. unfold upd. rewrite listZ_eqb_refl. reflexivity. Qed.
Lemma upd_other {B} (f : list Z -> B) b v idx : idx <> b -> upd f b v idx = f idx.
Proof. intros H. unfold upd. destruct (listZ_eqb idx b) eqn:E; [apply listZ_eqb_eq in E; congruence | reflexivity]. Qed.

(** Writing a value [w] that is right wherever it is written: the array is right at
    every position some step writes. *)
Lemma fold_upd_right {T B} (step : (list Z -> B) -> T -> (list Z -> B)) (right : list Z -> B) idx :
  (forall f t, step f t idx = f idx \/ step f t idx = right idx) ->
  forall l f, fold_left step l f idx = f idx \/ fold_left step l f idx = right idx.
Proof.
  intros H. induction l as [|t l IH]; intros f; cbn; [auto|]. destruct (IH (step f t)) as [E|E]; [|auto]. rewrite E. apply H.
Qed.
Lemma fold_upd_hit {T B} (step : (list Z -> B) -> T -> (list Z -> B)) (right : list Z -> B) idx (ok : T -> Prop) t0 :
  (forall f t, ok t -> step f t idx = f idx \/ step f t idx = right idx) -> (forall f, step f t0 idx = right idx) ->
  forall l f, Forall ok l -> In t0 l -> fold_left step l f idx = right idx.
Proof.
  intros H H0. induction l as [|t l IH]; intros f Hok Hin; [destruct Hin|]. inversion Hok; subst. cbn. destruct Hin as [->|Hin]; [|apply IH; assumption].
  assert (G : forall l f, Forall ok l -> fold_left step l f idx = f idx \/ fold_left step l f idx = right idx).
  { clear - H. induction l as [|t l IH]; intros f Hok; cbn; [auto|]. inversion Hok; subst. destruct (IH (step f t)) as [E|E]; [assumption| |auto]. rewrite E. apply H. assumption. }
  destruct (G l (step f t0)) as [E|E]; [assumption| |exact E]. rewrite E. apply H0.
Qed.

(** The corner of the node (a, b) of the transposed array. *)
Lemma esmf_node {A} (zero : A) (c : nd A) m n : nd_shape c = [m; n; 4] -> CornersAgree m n c ->
  exists e, esmf_from_ocgis zero c = Ok e /\ nd_shape e = [n + 1; m + 1] /\
  forall i j, 0 <= i < m -> 0 <= j < n ->
    nd_at e [j; i] = nd_at c [i; j; 0] /\ nd_at e [j + 1; i] = nd_at c [i; j; 1] /\
    nd_at e [j + 1; i + 1] = nd_at c [i; j; 2] /\ nd_at e [j; i + 1] = nd_at c [i; j; 3].
Proof.
  intros Sh Ag. unfold esmf_from_ocgis. rewrite Sh. eexists. split; [reflexivity|]. split; [reflexivity|].
  intros i j Hi Hj. cbn [nd_at]. destruct Ag as [A1 A2].
  assert (ok : Forall (fun ij => 0 <= fst ij < m /\ 0 <= snd ij < n) (list_prod (zrange 0 m) (zrange 0 n))).
  { rewrite Forall_forall. intros [a b] H. apply in_prod_iff in H. rewrite !in_zrange in H. cbn. lia. }
  assert (Hin : In (i, j) (list_prod (zrange 0 m) (zrange 0 n))) by (apply in_prod_iff; rewrite !in_zrange; lia).
  (* the value every write of a node gives *)
  assert (W : forall q p v, (forall a b k, 0 <= a < m -> 0 <= b < n -> 
      (k = 0 /\ q = b /\ p = a) \/ (k = 1 /\ q = b + 1 /\ p = a) \/ (k = 2 /\ q = b + 1 /\ p = a + 1) \/ (k = 3 /\ q = b /\ p = a + 1) ->
      nd_at c [a; b; k] = v) ->
      ((q = j /\ p = i) \/ (q = j + 1 /\ p = i) \/ (q = j + 1 /\ p = i + 1) \/ (q = j /\ p = i + 1)) ->
    fold_left (fun fill ij => let '(i, j) := ij in
         let fill := upd fill [j; i] (nd_at c [i; j; 0]) in
         let fill := upd fill [j + 1; i] (nd_at c [i; j; 1]) in
         let fill := upd fill [j + 1; i + 1] (nd_at c [i; j; 2]) in
         upd fill [j; i + 1] (nd_at c [i; j; 3])) (list_prod (zrange 0 m) (zrange 0 n)) (fun _ => zero) [q; p] = v).
  { intros q p v Hv Hq.
    apply (fold_upd_hit _ (fun _ => v) [q; p] (fun ij => 0 <= fst ij < m /\ 0 <= snd ij < n) (i, j)); [| |exact ok|exact Hin].
    - intros f [a b] [Ha Hb]. cbn [fst snd] in *. cbv zeta. unfold upd.
      destruct (listZ_eqb [q; p] [b; a + 1]) eqn:E3; [right; apply listZ_eqb_eq in E3; apply Hv; auto; right; right; right; injection E3; lia|].
      destruct (listZ_eqb [q; p] [b + 1; a + 1]) eqn:E2; [right; apply listZ_eqb_eq in E2; apply Hv; auto; right; right; left; injection E2; lia|].
      destruct (listZ_eqb [q; p] [b + 1; a]) eqn:E1; [right; apply listZ_eqb_eq in E1; apply Hv; auto; right; left; injection E1; lia|].
      destruct (listZ_eqb [q; p] [b; a]) eqn:E0; [right; apply listZ_eqb_eq in E0; apply Hv; auto; left; injection E0; lia|].
      left. reflexivity.
    - intros f. cbv zeta. unfold upd.
      destruct (listZ_eqb [q; p] [j; i + 1]) eqn:E3; [apply listZ_eqb_eq in E3; apply Hv; auto; right; right; right; injection E3; lia|].
      destruct (listZ_eqb [q; p] [j + 1; i + 1]) eqn:E2; [apply listZ_eqb_eq in E2; apply Hv; auto; right; right; left; injection E2; lia|].
      destruct (listZ_eqb [q; p] [j + 1; i]) eqn:E1; [apply listZ_eqb_eq in E1; apply Hv; auto; right; left; injection E1; lia|].
      destruct (listZ_eqb [q; p] [j; i]) eqn:E0; [apply listZ_eqb_eq in E0; apply Hv; auto; left; injection E0; lia|].
      exfalso. destruct Hq as [[-> ->]|[[-> ->]|[[-> ->]|[-> ->]]]]; rewrite listZ_eqb_refl in *; discriminate. }
  (* two cells with a common node agree there *)
  assert (B : forall a b a' b' k k', 0 <= a < m -> 0 <= b < n -> 0 <= a' < m -> 0 <= b' < n ->
     (exists q p, ((k = 0 /\ q = b /\ p = a) \/ (k = 1 /\ q = b + 1 /\ p = a) \/ (k = 2 /\ q = b + 1 /\ p = a + 1) \/ (k = 3 /\ q = b /\ p = a + 1)) /\
                  ((k' = 0 /\ q = b' /\ p = a') \/ (k' = 1 /\ q = b' + 1 /\ p = a') \/ (k' = 2 /\ q = b' + 1 /\ p = a' + 1) \/ (k' = 3 /\ q = b' /\ p = a' + 1))) ->
     nd_at c [a; b; k] = nd_at c [a'; b'; k']).
  { (* bring each to its cell of least indices *)
    assert (N : forall a b k q p, 0 <= a < m -> 0 <= b < n ->
       ((k = 0 /\ q = b /\ p = a) \/ (k = 1 /\ q = b + 1 /\ p = a) \/ (k = 2 /\ q = b + 1 /\ p = a + 1) \/ (k = 3 /\ q = b /\ p = a + 1)) ->
       nd_at c [a; b; k] =
       if q <? n then (if p <? m then nd_at c [p; q; 0] else nd_at c [m - 1; q; 3])
       else (if p <? m then nd_at c [p; n - 1; 1] else nd_at c [m - 1; n - 1; 2])).
    { intros a b k q p Ha Hb [[-> [-> ->]]|[[-> [-> ->]]|[[-> [-> ->]]|[-> [-> ->]]]]].
      - destruct (b <? n) eqn:E; [|lia]. destruct (a <? m) eqn:E'; [reflexivity|lia].
      - destruct (b + 1 <? n) eqn:E; destruct (a <? m) eqn:E'; try lia.
        + apply A1; lia.
        + replace (n - 1) with b by lia. reflexivity.
      - destruct (b + 1 <? n) eqn:E; destruct (a + 1 <? m) eqn:E'.
        + rewrite (proj2 (A1 a b ltac:(lia) ltac:(lia) ltac:(lia))). apply A2; lia.
        + replace (m - 1) with a by lia. apply A1; lia.
        + replace (n - 1) with b by lia. apply A2; lia.
        + replace (m - 1) with a by lia. replace (n - 1) with b by lia. reflexivity.
      - destruct (b <? n) eqn:E; [|lia]. destruct (a + 1 <? m) eqn:E'; [apply A2; lia|]. replace (m - 1) with a by lia. reflexivity. }
    intros a b a' b' k k' Ha Hb Ha' Hb' [q [p [H1 H2]]]. rewrite (N _ _ _ _ _ Ha Hb H1), (N _ _ _ _ _ Ha' Hb' H2). reflexivity. }
  split; [|split; [|split]]; apply W; try tauto; intros a b k Ha Hb H; (apply B; [lia..|]; do 2 eexists; split; [exact H|]); lia.
Qed.

Lemma ocgis_cell {A} (zero : A) (e : nd A) r c : nd_shape e = [r; c] ->
  exists o, ocgis_from_esmf zero e = Ok o /\ nd_shape o = [r - 1; c - 1; 4] /\
  forall i j, 0 <= i < r - 1 -> 0 <= j < c - 1 ->
    nd_at o [i; j; 0] = nd_at e [i; j] /\ nd_at o [i; j; 1] = nd_at e [i; j + 1] /\
    nd_at o [i; j; 2] = nd_at e [i + 1; j + 1] /\ nd_at o [i; j; 3] = nd_at e [i + 1; j].
Proof.
  intros Sh. unfold ocgis_from_esmf. rewrite Sh. eexists. split; [reflexivity|]. split; [reflexivity|].
  intros i j Hi Hj. cbn [nd_at].
  assert (ok : Forall (fun _ : Z * Z => True) (list_prod (zrange 0 (r - 1)) (zrange 0 (c - 1)))) by (rewrite Forall_forall; auto).
  assert (Hin : In (i, j) (list_prod (zrange 0 (r - 1)) (zrange 0 (c - 1)))) by (apply in_prod_iff; rewrite !in_zrange; lia).
  assert (W : forall k di dj, In k (zrange 0 4) -> nth (Z.to_nat k) corner_offsets (0, 0) = (di, dj) ->
    fold_left (fun fill ij => fold_left (fun fill kk => let '(di, dj) := nth (Z.to_nat kk) corner_offsets (0, 0) in
         upd fill [fst ij; snd ij; kk] (nd_at e [fst ij + di; snd ij + dj])) (zrange 0 4) fill)
         (list_prod (zrange 0 (r - 1)) (zrange 0 (c - 1))) (fun _ => zero) [i; j; k] = nd_at e [i + di; j + dj]).
  { intros k di dj Hk Hd.
    assert (Inner : forall f a b, a = i -> b = j -> fold_left (fun fill kk => let '(di, dj) := nth (Z.to_nat kk) corner_offsets (0, 0) in
         upd fill [a; b; kk] (nd_at e [a + di; b + dj])) (zrange 0 4) f [i; j; k] = nd_at e [i + di; j + dj]).
    { intros f a b -> ->. apply (fold_upd_hit _ (fun _ => nd_at e [i + di; j + dj]) [i; j; k] (fun _ => True) k); [| |rewrite Forall_forall; auto|exact Hk].
      - intros g kk _. destruct (nth (Z.to_nat kk) corner_offsets (0, 0)) as [di' dj'] eqn:En. unfold upd.
        destruct (listZ_eqb [i; j; k] [i; j; kk]) eqn:E; [|auto]. right. apply listZ_eqb_eq in E. assert (kk = k) by congruence. subst kk. rewrite Hd in En.
        inversion En. reflexivity.
      - intros g. rewrite Hd. apply upd_same. }
    apply (fold_upd_hit _ (fun _ => nd_at e [i + di; j + dj]) [i; j; k] (fun _ => True) (i, j)); [| |exact ok|exact Hin].
    - intros f [a b] _. cbn [fst snd]. destruct (Z.eq_dec a i) as [Ea|Ea]; [destruct (Z.eq_dec b j) as [Eb|Eb]|].
      + right. apply Inner; assumption.
      + left. generalize (zrange 0 4). intros l. revert f. induction l as [|kk l IH]; intros f; [reflexivity|]. cbn [fold_left]. rewrite IH.
        destruct (nth (Z.to_nat kk) corner_offsets (0, 0)). apply upd_other. congruence.
      + left. generalize (zrange 0 4). intros l. revert f. induction l as [|kk l IH]; intros f; [reflexivity|]. cbn [fold_left]. rewrite IH.
        destruct (nth (Z.to_nat kk) corner_offsets (0, 0)). apply upd_other. congruence.
    - intros f. cbn [fst snd]. apply Inner; reflexivity. }
  split; [|split; [|split]].
  - rewrite (W 0 0 0) by (try apply in_zrange; reflexivity || lia). rewrite !Z.add_0_r. reflexivity.
  - rewrite (W 1 0 1) by (try apply in_zrange; reflexivity || lia). rewrite !Z.add_0_r. reflexivity.
  - rewrite (W 2 1 1) by (try apply in_zrange; reflexivity || lia). reflexivity.
  - rewrite (W 3 1 0) by (try apply in_zrange; reflexivity || lia). rewrite !Z.add_0_r. reflexivity.
Qed.

Lemma index3 (m n : Z) idx : IndexOf [m; n; 4] idx -> exists i j k, idx = [i; j; k] /\ 0 <= i < m /\ 0 <= j < n /\ (k = 0 \/ k = 1 \/ k = 2 \/ k = 3).
Proof.
  intros H. inversion H as [|? i ? l Hi H']; subst. inversion H' as [|? j ? l' Hj H'']; subst. inversion H'' as [|? k ? l'' Hk H3]; subst. inversion H3; subst.
  exists i, j, k. repeat split; lia.
Qed.

Lemma ocgis_roundtrip {A} (zero : A) (c : nd A) m n : 0 <= m -> 0 <= n -> nd_shape c = [m; n; 4] -> CornersAgree m n c ->
  exists e o, esmf_from_ocgis zero c = Ok e /\ nd_shape e = [n + 1; m + 1] /\ ocgis_from_esmf zero (transpose e) = Ok o /\ SameArray o c.
Proof.
  intros Hm Hn Sh Ag. destruct (esmf_node zero c m n Sh Ag) as [e [E [Se Ne]]].
  destruct (ocgis_cell zero (transpose e) (m + 1) (n + 1)) as [o [O [So No]]]; [unfold transpose; cbn; rewrite Se; reflexivity|].
  exists e, o. split; [exact E|]. split; [exact Se|]. split; [exact O|]. split.
  - rewrite So, Sh. repeat f_equal; lia.
  - intros idx H. rewrite So in H. replace (m + 1 - 1) with m in * by lia. replace (n + 1 - 1) with n in * by lia.
    destruct (index3 _ _ _ H) as [i [j [k [-> [Hi [Hj Hk]]]]]]. destruct (No i j Hi Hj) as [N0 [N1 [N2 N3]]]. destruct (Ne i j Hi Hj) as [M0 [M1 [M2 M3]]].
    cbn in N0, N1, N2, N3. destruct Hk as [->|[->|[->| ->]]]; congruence.
Qed.

Lemma esmf_roundtrip {A} (zero : A) (e : nd A) r c : 2 <= r -> 2 <= c -> nd_shape e = [r; c] ->
  exists o e', ocgis_from_esmf zero e = Ok o /\ CornersAgree (r - 1) (c - 1) o /\ esmf_from_ocgis zero o = Ok e' /\ SameArray (transpose e') e.
Proof.
  intros Hr Hc Sh. destruct (ocgis_cell zero e r c Sh) as [o [O [So No]]].
  assert (Ag : CornersAgree (r - 1) (c - 1) o).
  { split.
    - intros i j Hi Hj Hj'. destruct (No i j) as [N0 [N1 [N2 N3]]]; [lia..|]. destruct (No i (j + 1)) as [P0 [P1 [P2 P3]]]; [lia..|].
      split; congruence.
    - intros i j Hi Hi' Hj. destruct (No i j) as [N0 [N1 [N2 N3]]]; [lia..|]. destruct (No (i + 1) j) as [P0 [P1 [P2 P3]]]; [lia..|].
      split; congruence. }
  destruct (esmf_node zero o (r - 1) (c - 1) So Ag) as [e' [E' [Se' Ne']]].
  exists o, e'. split; [exact O|]. split; [exact Ag|]. split; [exact E'|]. split.
  - unfold transpose. cbn. rewrite Se', Sh. cbn. f_equal; [lia|]. f_equal. lia.
  - unfold transpose. cbn [nd_shape nd_at]. rewrite Se'. cbn [rev app]. intros idx H. inversion H as [|? i ? l Hi H']; subst. inversion H' as [|? j ? l' Hj H'']; subst. inversion H''; subst.
    cbn [rev app].
    destruct (Z.eq_dec i (r - 1)) as [Ei|Ei]; destruct (Z.eq_dec j (c - 1)) as [Ej|Ej].
    + destruct (Ne' (i - 1) (j - 1)) as [_ [_ [M2 _]]]; [lia..|]. destruct (No (i - 1) (j - 1)) as [_ [_ [N2 _]]]; [lia..|].
      replace (i - 1 + 1) with i in * by lia. replace (j - 1 + 1) with j in * by lia. congruence.
    + destruct (Ne' (i - 1) j) as [_ [_ [_ M3]]]; [lia..|]. destruct (No (i - 1) j) as [_ [_ [_ N3]]]; [lia..|].
      replace (i - 1 + 1) with i in * by lia. congruence.
    + destruct (Ne' i (j - 1)) as [_ [M1 _]]; [lia..|]. destruct (No i (j - 1)) as [_ [N1 _]]; [lia..|].
      replace (j - 1 + 1) with j in * by lia. congruence.
    + destruct (Ne' i j) as [M0 _]; [lia..|]. destruct (No i j) as [N0 _]; [lia..|]. congruence.
Qed.
