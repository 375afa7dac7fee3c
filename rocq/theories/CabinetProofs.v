(** Proofs of C70 and C71. *)
From Verif Require Import Py Lib Spec PartitionModel DimensionModel DimensionSpec DimensionProofs ConvProofs CabinetModel CabinetSpec.

(** ** Index arrays and slices *)

Lemma gap_cons : forall x l, Gap l -> Gap (x :: l).
Proof. intros x l (l1 & a & b & l2 & -> & H). exists (x :: l1), a, b, l2. split; [reflexivity|exact H]. Qed.

Lemma any_diff_gap : forall l, any_diff_gt1 l = true <-> Gap l.
Proof.
  induction l as [|x [|y t] IH].
  - split; [discriminate|]. intros (l1 & a & b & l2 & E & _). destruct l1; discriminate.
  - split; [discriminate|]. intros (l1 & a & b & l2 & E & _). destruct l1 as [|? [|? ?]]; discriminate.
  - cbn [any_diff_gt1] in *. rewrite orb_true_iff, IH. split.
    + intros [H|H].
      * exists [], x, y, t. split; [reflexivity|]. apply Z.gtb_lt in H. lia.
      * apply gap_cons. exact H.
    + intros (l1 & a & b & l2 & E & H). destruct l1 as [|z l1].
      * injection E as -> -> ->. left. apply Z.gtb_lt. lia.
      * injection E as -> E. right. exists l1, a, b, l2. split; [exact E|exact H].
Qed.

Lemma any_diff_zrange : forall n a, any_diff_gt1 (zrange a (a + Z.of_nat n)) = false.
Proof.
  induction n as [|n IH]; intros a.
  - rewrite zrange_nil by lia. reflexivity.
  - rewrite zrange_cons by lia. replace (a + Z.of_nat (S n)) with ((a + 1) + Z.of_nat n) by lia. specialize (IH (a + 1)).
    destruct n as [|n].
    + rewrite zrange_nil by lia. reflexivity.
    + rewrite zrange_cons in * by lia. cbn [any_diff_gt1] in *. rewrite IH.
      destruct (Z.gtb_spec (a + 1 - a) 1); [lia|reflexivity].
Qed.

Lemma in_zrange : forall a b x, In x (zrange a b) <-> a <= x < b.
Proof.
  intros a b x. unfold zrange. rewrite in_map_iff. split.
  - intros (k & <- & H). apply in_seq in H. lia.
  - intros H. exists (Z.to_nat (x - a)). split; [lia|]. apply in_seq. lia.
Qed.

Lemma optimal_zrange : forall a b, a < b -> get_optimal_slice_from_array (zrange a b) = Ok (SSlice (slice_of a b)).
Proof.
  intros a b H. unfold get_optimal_slice_from_array.
  assert (E : any_diff_gt1 (zrange a b) = false).
  { replace b with (a + Z.of_nat (Z.to_nat (b - a))) by lia. apply any_diff_zrange. }
  rewrite E.
  assert (N : zrange a b <> []) by (rewrite zrange_cons by lia; discriminate).
  destruct (list_min_ok _ N) as (m & E1 & I1 & M1). destruct (list_max_ok _ N) as (x & E2 & I2 & M2).
  rewrite E1, E2. cbn [bind]. apply in_zrange in I1. apply in_zrange in I2.
  assert (m <= a) by (apply M1; apply in_zrange; lia).
  assert (b - 1 <= x) by (apply M2; apply in_zrange; lia).
  replace m with a by lia. replace (x + 1) with b by lia. reflexivity.
Qed.

Lemma o_itr_skip : forall fs ctr a stop, ctr <= a -> o_itr fs ctr (Some a) stop = o_itr (skipn (Z.to_nat (a - ctr)) fs) a (Some a) stop.
Proof.
  induction fs as [|f fs IH]; intros ctr a stop H.
  - rewrite skipn_nil. reflexivity.
  - destruct (Z.eq_dec ctr a) as [->|D].
    + replace (Z.to_nat (a - a)) with 0%nat by lia. reflexivity.
    + cbn [o_itr]. destruct (Z.ltb_spec ctr a) as [_|L]; [|lia].
      rewrite IH by lia. replace (Z.to_nat (a - ctr)) with (S (Z.to_nat (a - (ctr + 1)))) by lia. reflexivity.
Qed.

Lemma o_itr_take : forall fs ctr a b, a <= ctr -> ctr <= b -> o_itr fs ctr (Some a) (Some b) = Ok (firstn (Z.to_nat (b - ctr)) fs).
Proof.
  induction fs as [|f fs IH]; intros ctr a b H1 H2.
  - rewrite firstn_nil. reflexivity.
  - cbn [o_itr]. destruct (Z.ltb_spec ctr a) as [L|_]; [lia|].
    destruct (Z.eqb_spec ctr b) as [->|D].
    + replace (Z.to_nat (b - b)) with 0%nat by lia. reflexivity.
    + rewrite IH by lia. cbn [bind]. replace (Z.to_nat (b - ctr)) with (S (Z.to_nat (b - (ctr + 1)))) by lia. reflexivity.
Qed.

Lemma o_itr_rest : forall fs ctr a stop, a <= ctr -> match stop with Some b => b < ctr | None => True end ->
  o_itr fs ctr (Some a) stop = Ok fs.
Proof.
  induction fs as [|f fs IH]; intros ctr a stop H1 H2; [reflexivity|].
  cbn [o_itr]. destruct (Z.ltb_spec ctr a) as [L|_]; [lia|].
  destruct stop as [b|].
  - destruct (Z.eqb_spec ctr b) as [->|D]; [lia|]. rewrite IH by (try lia). reflexivity.
  - rewrite IH by (try lia; exact I). reflexivity.
Qed.

Lemma o_itr_slice : forall fs a b, 0 <= a < b -> o_itr fs 0 (Some a) (Some b) = Ok (py_slice fs (slice_of a b)).
Proof.
  intros fs a b H. rewrite o_itr_skip by lia. rewrite o_itr_take by lia. rewrite Z.sub_0_r. f_equal.
  unfold py_slice, slice_bounds, clip_end, slice_of; cbn [sl_start sl_stop].
  destruct (Z.ltb_spec a 0) as [L|_]; [lia|]. destruct (Z.ltb_spec b 0) as [L|_]; [lia|].
  destruct (Z.le_gt_cases (zlen fs) a) as [L|L].
  - rewrite skipn_all2 by (unfold zlen in L; lia). rewrite firstn_nil.
    rewrite skipn_all2 by (unfold zlen in *; lia). rewrite firstn_nil. reflexivity.
  - replace (Z.min a (zlen fs)) with a by lia.
    destruct (Z.le_gt_cases b (zlen fs)) as [L'|L'].
    + replace (Z.min b (zlen fs)) with b by lia. reflexivity.
    + replace (Z.min b (zlen fs)) with (zlen fs) by lia.
      rewrite !firstn_all2; [reflexivity| |]; rewrite skipn_length; unfold zlen in *; lia.
Qed.

Lemma o_itr_open : forall fs a, 0 <= a -> o_itr fs 0 (Some a) None = Ok (py_slice fs (mkslice (Some a) None)).
Proof.
  intros fs a H. rewrite o_itr_skip by lia. rewrite o_itr_rest by (try lia; exact I). rewrite Z.sub_0_r. f_equal.
  unfold py_slice, slice_bounds, clip_end; cbn [sl_start sl_stop].
  destruct (Z.ltb_spec a 0) as [L|_]; [lia|].
  destruct (Z.le_gt_cases (zlen fs) a) as [L|L].
  - rewrite skipn_all2 by (unfold zlen in L; lia). rewrite skipn_all2 by (unfold zlen in *; lia). rewrite firstn_nil. reflexivity.
  - replace (Z.min a (zlen fs)) with a by lia. rewrite firstn_all2; [reflexivity|]. rewrite skipn_length. unfold zlen in *; lia.
Qed.

Lemma find_numbered : forall fs k i ft, (forall j g, nth_error fs j = Some g -> ft_fid g = k + Z.of_nat j) ->
  nth_error fs i = Some ft -> find (fun f => ft_fid f =? k + Z.of_nat i) fs = Some ft.
Proof.
  induction fs as [|f fs IH]; intros k i ft H E.
  - destruct i; discriminate.
  - cbn [find]. pose proof (H 0%nat f eq_refl) as H0. destruct i as [|i].
    + injection E as ->. rewrite H0. rewrite Z.eqb_refl. reflexivity.
    + destruct (Z.eqb_spec (ft_fid f) (k + Z.of_nat (S i))) as [D|D]; [lia|].
      replace (k + Z.of_nat (S i)) with ((k + 1) + Z.of_nat i) by lia. apply IH; [|exact E].
      intros j g G. rewrite (H (S j) g G). lia.
Qed.

Lemma py_index_nth : forall {A} (l : list A) i x, 0 <= i -> nth_error l (Z.to_nat i) = Some x -> py_index l i = Ok x.
Proof.
  intros A l i x H E. unfold py_index. destruct (Z.ltb_spec i 0) as [L|_]; [lia|].
  destruct (Z.ltb_spec i 0) as [L|_]; [lia|]. cbn [orb].
  destruct (Z.leb_spec (zlen l) i) as [L|_].
  - assert (nth_error l (Z.to_nat i) <> None) by (rewrite E; discriminate).
    apply nth_error_Some in H0. unfold zlen in L. lia.
  - rewrite E. reflexivity.
Qed.

Lemma in_range_nth : forall {A} (l : list A) i, 0 <= i < zlen l -> exists x, nth_error l (Z.to_nat i) = Some x.
Proof.
  intros A l i H. destruct (nth_error l (Z.to_nat i)) as [x|] eqn:E; [exists x; reflexivity|].
  apply nth_error_None in E. unfold zlen in H. lia.
Qed.

Lemma numbered_get : forall f i, Numbered f -> 0 <= i < zlen (gf_features f) ->
  exists ft, get_feature (gf_features f) i = Ok ft /\ py_index (gf_features f) i = Ok ft /\ nth_error (gf_features f) (Z.to_nat i) = Some ft.
Proof.
  intros f i N H. destruct (in_range_nth _ i H) as (ft & E). exists ft. split; [|split].
  - unfold get_feature. assert (F := find_numbered (gf_features f) 0 (Z.to_nat i) ft).
    rewrite Z2Nat.id in F by lia. cbn [Z.add] in F. replace (0 + i) with i in F by lia.
    rewrite F; [reflexivity| |exact E]. intros j g G. rewrite (N j g G). lia.
  - apply py_index_nth; [lia|exact E].
  - exact E.
Qed.

Lemma map_res_ext : forall {A B} (f g : A -> res B) l, (forall x, In x l -> f x = g x) -> map_res f l = map_res g l.
Proof.
  induction l as [|x l IH]; intros H; [reflexivity|]. cbn. rewrite (H x (or_introl eq_refl)).
  rewrite (IH (fun y I => H y (or_intror I))). reflexivity.
Qed.

Lemma positions_select : forall {A} (l : list A) ps, Forall (fun i => 0 <= i < zlen l) ps ->
  exists r, map_res (py_index l) ps = Ok r /\ map Some r = map (fun i => nth_error l (Z.to_nat i)) ps.
Proof.
  intros A l ps. induction 1 as [|i ps H _ (r & E1 & E2)]; [exists []; split; reflexivity|].
  destruct (in_range_nth l i H) as (x & E). exists (x :: r). cbn. rewrite (py_index_nth l i x) by (try lia; exact E).
  cbn. rewrite E1. cbn. rewrite E, E2. split; reflexivity.
Qed.

Lemma firstn_skipn_zrange : forall {A} (l : list A) n a, 0 <= a -> a + Z.of_nat n <= zlen l ->
  map Some (firstn n (skipn (Z.to_nat a) l)) = map (fun i => nth_error l (Z.to_nat i)) (zrange a (a + Z.of_nat n)).
Proof.
  intros A l. induction n as [|n IH]; intros a H1 H2.
  - rewrite zrange_nil by lia. reflexivity.
  - rewrite zrange_cons by lia. cbn [map].
    destruct (in_range_nth l a) as (x & E); [lia|].
    assert (S1 : skipn (Z.to_nat a) l = x :: skipn (Z.to_nat (a + 1)) l).
    { replace (Z.to_nat (a + 1)) with (S (Z.to_nat a)) by lia. clear - E. revert l E. induction (Z.to_nat a) as [|k IH]; intros l E.
      - destruct l; [discriminate|]. injection E as ->. reflexivity.
      - destruct l; [discriminate|]. cbn in *. apply IH. exact E. }
    rewrite S1, E. cbn [firstn map]. f_equal. rewrite IH by lia. f_equal. f_equal. lia.
Qed.

Lemma py_slice_positions : forall {A} (l : list A) a b, 0 <= a -> a <= b -> b <= zlen l ->
  map Some (py_slice l (slice_of a b)) = map (fun i => nth_error l (Z.to_nat i)) (zrange a b).
Proof.
  intros A l a b H1 H2 H3. unfold py_slice, slice_bounds, clip_end, slice_of; cbn [sl_start sl_stop].
  destruct (Z.ltb_spec a 0) as [L|_]; [lia|]. destruct (Z.ltb_spec b 0) as [L|_]; [lia|].
  rewrite !Z.min_l by lia. rewrite firstn_skipn_zrange by lia. f_equal. f_equal. lia.
Qed.

Lemma map_Some_inj : forall {A} (a b : list A), map Some a = map Some b -> a = b.
Proof.
  induction a as [|x a IH]; intros [|y b] E; try discriminate; [reflexivity|].
  cbn in E. injection E as -> E. rewrite (IH b E). reflexivity.
Qed.

Lemma zrange_select : forall {A} (l : list A) a b, a < b -> Forall (fun i => 0 <= i < zlen l) (zrange a b) ->
  map_res (py_index l) (zrange a b) = Ok (py_slice l (slice_of a b)) /\ 0 <= a /\ b <= zlen l.
Proof.
  intros A l a b H F.
  assert (Ha : 0 <= a < zlen l) by (rewrite Forall_forall in F; apply F; apply in_zrange; lia).
  assert (Hb : 0 <= b - 1 < zlen l) by (rewrite Forall_forall in F; apply F; apply in_zrange; lia).
  split; [|split; lia].
  destruct (positions_select l (zrange a b) F) as (r & E1 & E2). rewrite E1. f_equal.
  apply map_Some_inj. rewrite E2. symmetry. apply py_slice_positions; lia.
Qed.

Lemma index_array : forall f l, ReadAsWritten f l ->
  exists s fs, index_slice (RInts l) = Ok s /\ py_select (gf_features f) (RInts l) = Ok fs /\
    map Some fs = map (fun i => nth_error (gf_features f) (Z.to_nat i)) l /\
    feature_iterator f (gf_features f) (Some s) = Ok fs.
Proof.
  intros f l (F & [(G1 & N & G2)|(a & b & H & ->)]).
  - destruct (positions_select (gf_features f) l F) as (fs & E1 & E2).
    exists (SInts l), fs. unfold index_slice, get_formatted_slice1, format_singleton, get_optimal_slice_from_array.
    rewrite (proj2 (any_diff_gap l) G2). split; [reflexivity|]. split; [exact E1|]. split; [exact E2|].
    cbn [feature_iterator]. rewrite G1. rewrite <- E1. apply map_res_ext. intros i I.
    rewrite Forall_forall in F. destruct (numbered_get f i N (F i I)) as (ft & -> & -> & _). reflexivity.
  - destruct (zrange_select (gf_features f) a b H F) as (E1 & Ha & Hb).
    exists (SSlice (slice_of a b)), (py_slice (gf_features f) (slice_of a b)).
    unfold index_slice, get_formatted_slice1, format_singleton. rewrite optimal_zrange by exact H.
    split; [reflexivity|]. split; [exact E1|]. split; [apply py_slice_positions; lia|].
    cbn [feature_iterator sl_start sl_stop slice_of]. apply o_itr_slice. lia.
Qed.

Lemma slice_core : forall f raw, SliceAsWritten f raw ->
  exists s fs, index_slice raw = Ok s /\ py_select (gf_features f) raw = Ok fs /\
    feature_iterator f (gf_features f) (Some s) = Ok fs.
Proof.
  intros f raw H. destruct raw as [i|[[a|] [b|]]|l|m|]; cbn [SliceAsWritten] in H; try contradiction.
  - destruct (in_range_nth _ i H) as (ft & E).
    exists (SSlice (slice_of i (i + 1))), [ft]. split; [reflexivity|]. cbn [py_select].
    rewrite (py_index_nth _ i ft) by (try lia; exact E). split; [reflexivity|].
    cbn [feature_iterator sl_start sl_stop slice_of]. rewrite o_itr_slice by lia. f_equal.
    apply map_Some_inj. rewrite py_slice_positions by lia. rewrite zrange_cons, zrange_nil by lia. cbn. rewrite E. reflexivity.
  - exists (SSlice (mkslice (Some a) (Some b))), (py_slice (gf_features f) (slice_of a b)).
    split; [reflexivity|]. split; [reflexivity|]. apply o_itr_slice. lia.
  - exists (SSlice (mkslice (Some a) None)), (py_slice (gf_features f) (mkslice (Some a) None)).
    split; [reflexivity|]. split; [reflexivity|]. apply o_itr_open. lia.
  - destruct (index_array f l H) as (s & fs & E1 & E2 & _ & E3). exists s, fs. split; [exact E1|split; [exact E2|exact E3]].
Qed.

(** ** Rows *)

Lemma dmem_in : forall {V} (d : list (string * V)) k, dmem String.eqb d k = true <-> In k (map fst d).
Proof.
  intros V d k. unfold dmem. induction d as [|(a, v) d IH]; cbn.
  - split; [discriminate|intros []].
  - destruct (String.eqb_spec k a) as [->|D].
    + split; [left; reflexivity|reflexivity].
    + rewrite IH. split; [right; assumption|]. intros [E|E]; [congruence|exact E].
Qed.

Lemma dset_same : forall {V} (d : list (string * V)) k v, dget String.eqb d k = Some v -> dset String.eqb d k v = d.
Proof.
  induction d as [|(a, x) d IH]; intros k v E; [discriminate|].
  cbn in *. destruct (String.eqb_spec k a) as [->|D].
  - injection E as ->. reflexivity.
  - rewrite (IH k v E). reflexivity.
Qed.

Lemma regular_in : forall f ft, Regular f -> In ft (gf_features f) -> map fst (ft_props ft) = gf_columns f /\ NoDup (map fst (ft_props ft)).
Proof.
  intros f ft (N & H) I. rewrite Forall_forall in H. rewrite (H ft I). split; [reflexivity|exact N].
Qed.

Lemma id_get : forall f u ft, Regular f -> HasIds f u -> In ft (gf_features f) ->
  exists z, dget String.eqb (ft_props ft) u = Some (CInt z) /\ In (u, CInt z) (ft_props ft).
Proof.
  intros f u ft R (_ & H) I. rewrite Forall_forall in H. destruct (H ft I) as (z & J).
  exists z. split; [|exact J]. apply dget_in; [|exact J]. exact (proj2 (regular_in f ft R I)).
Qed.

Lemma uid_name : forall f uid u add ft, Regular f -> Identifies f uid u add -> In ft (gf_features f) ->
  get_uid_from_properties (ft_props ft) uid = Ok (u, add).
Proof.
  intros f uid u add ft R H I. destruct H as [u H|H|H]; unfold get_uid_from_properties.
  - destruct (id_get f u ft R H I) as (z & E & J).
    assert (M : dmem String.eqb (ft_props ft) u = true) by (unfold dmem; rewrite E; reflexivity).
    rewrite M. cbn [bind]. rewrite E. reflexivity.
  - unfold default_uid. destruct (id_get f "UGID"%string ft R H I) as (z & E & J).
    assert (M : dmem String.eqb (ft_props ft) "UGID"%string = true) by (unfold dmem; rewrite E; reflexivity).
    rewrite M. cbn [bind]. rewrite E. reflexivity.
  - unfold default_uid. destruct (dmem String.eqb (ft_props ft) "UGID"%string) eqn:M; [|reflexivity].
    apply dmem_in in M. rewrite (proj1 (regular_in f ft R I)) in M. contradiction.
Qed.

Definition the_row (u : string) (add : bool) (ft : feature) : row :=
  mkrow u (if add then (ft_props ft ++ [(u, CInt (ft_fid ft))])%list else ft_props ft).

Lemma set_uid_row : forall f uid u add ft, Regular f -> Identifies f uid u add -> In ft (gf_features f) ->
  set_uid u add ft = Ok (the_row u add ft).
Proof.
  intros f uid u add ft R H I. unfold set_uid, the_row. destruct H as [u H|H|H].
  - destruct (id_get f u ft R H I) as (z & E & J). rewrite E. cbn. rewrite (dset_same _ _ _ E). reflexivity.
  - destruct (id_get f "UGID"%string ft R H I) as (z & E & J). rewrite E. cbn [py_int bind]. rewrite (dset_same _ _ _ E). reflexivity.
  - rewrite dset_fresh; [reflexivity|]. rewrite (proj1 (regular_in f ft R I)). exact H.
Qed.

Lemma yields_row : forall u add fs, Forall2 (Yields u add) fs (map (the_row u add) fs).
Proof. intros u add. induction fs as [|f fs IH]; [constructor|]. constructor; [split; reflexivity|exact IH]. Qed.

(** The loop over the features. *)
Lemma rows_of : forall f uid u add fs, Regular f -> Identifies f uid u add -> (forall ft, In ft fs -> In ft (gf_features f)) -> fs <> [] ->
  match fs with
  | [] => Err ValueError
  | first :: _ => do ua <- get_uid_from_properties (ft_props first) uid; map_res (set_uid (fst ua) (snd ua)) fs
  end = Ok (map (the_row u add) fs).
Proof.
  intros f uid u add [|first fs] R H I N; [destruct (N eq_refl)|].
  rewrite (uid_name f uid u add first R H (I first (or_introl eq_refl))). cbn [bind fst snd].
  apply map_res_all. intros ft J. exact (set_uid_row f uid u add ft R H (I ft J)).
Qed.

Lemma iter_all : forall f uid u add, Regular f -> Identifies f uid u add -> gf_features f <> [] ->
  exists rows, iter_geoms f uid None None None = Ok rows /\ Forall2 (Yields u add) (gf_features f) rows.
Proof.
  intros f uid u add R H N. exists (map (the_row u add) (gf_features f)). split; [|apply yields_row].
  unfold iter_geoms. cbn [bind get_features feature_iterator]. exact (rows_of f uid u add _ R H (fun _ I => I) N).
Qed.

Lemma sifted_filter : forall {A} (P : A -> Prop) (p : A -> bool) l l', (forall x, In x l -> (p x = true <-> P x)) -> Sifted P l l' -> filter p l = l'.
Proof.
  intros A P p l l' H S. induction S as [|x l l' Hx S IH|x l l' Hx S IH].
  - reflexivity.
  - cbn. rewrite (proj2 (H x (or_introl eq_refl)) Hx). rewrite IH; [reflexivity|]. intros y I. apply H. right. exact I.
  - cbn. destruct (p x) eqn:E; [destruct (Hx (proj1 (H x (or_introl eq_refl)) E))|]. apply IH. intros y I. apply H. right. exact I.
Qed.

Lemma sifted_in : forall {A} (P : A -> Prop) l l' x, Sifted P l l' -> In x l' -> In x l.
Proof.
  intros A P l l' x S. induction S as [|y l l' Hy S IH|y l l' Hy S IH]; intros I; [exact I| |].
  - destruct I as [<-|I]; [left; reflexivity|right; exact (IH I)].
  - right. exact (IH I).
Qed.

Lemma zmem_in : forall z l, zmem z l = true <-> In z l.
Proof.
  intros z l. unfold zmem. rewrite existsb_exists. split.
  - intros (x & I & E). apply Z.eqb_eq in E. subst x. exact I.
  - intros I. exists z. split; [exact I|apply Z.eqb_refl].
Qed.

Lemma nodup_unique : forall {V} (d : list (string * V)) k v w, NoDup (map fst d) -> In (k, v) d -> In (k, w) d -> v = w.
Proof.
  intros V d k v w N I J. apply (dget_in d k v N) in I. apply (dget_in d k w N) in J. congruence.
Qed.

Lemma select_features : forall f uid u l fs, Regular f -> Identifies f uid u false -> l <> [] ->
  Sifted (Chosen u l) (gf_features f) fs -> get_features f uid (Some l) None = Ok fs.
Proof.
  intros f uid u l fs R H N S. unfold get_features.
  assert (E : (match uid with Some u => u | None => default_uid end) = u) by (inversion H; reflexivity).
  rewrite E.
  assert (Ids : HasIds f u) by (inversion H; subst; assumption).
  rewrite (proj2 (existsb_eqb (gf_columns f) u) (proj1 Ids)).
  destruct l as [|z l]; [destruct (N eq_refl)|]. f_equal.
  apply (sifted_filter (Chosen u (z :: l))); [|exact S].
  intros ft I. destruct (id_get f u ft R Ids I) as (y & E1 & E2). rewrite E1. rewrite zmem_in. split.
  - intros J. exists y. split; [exact J|exact E2].
  - intros (w & J1 & J2). assert (CInt w = CInt y) by (exact (nodup_unique _ _ _ _ (proj2 (regular_in f ft R I)) J2 E2)).
    congruence.
Qed.

Lemma iter_select : forall f uid u l fs, Regular f -> Identifies f uid u false -> l <> [] ->
  Sifted (Chosen u l) (gf_features f) fs ->
  match fs with
  | [] => iter_geoms f uid (Some l) None None = Err ValueError
  | _ => exists rows, iter_geoms f uid (Some l) None None = Ok rows /\ Forall2 (Yields u false) fs rows
  end.
Proof.
  intros f uid u l fs R H N S.
  assert (E : iter_geoms f uid (Some l) None None = match fs with
    | [] => Err ValueError
    | first :: _ => do ua <- get_uid_from_properties (ft_props first) uid; map_res (set_uid (fst ua) (snd ua)) fs end).
  { unfold iter_geoms. cbn [bind]. rewrite (select_features f uid u l fs R H N S). reflexivity. }
  destruct fs as [|first fs]; [exact E|].
  exists (map (the_row u false) (first :: fs)). split; [|apply yields_row].
  rewrite E. refine (rows_of f uid u false (first :: fs) R H _ _); [|discriminate].
  intros ft I. exact (sifted_in _ _ _ ft S I).
Qed.

Lemma iter_where : forall f uid u add w fs, Regular f -> Identifies f uid u add ->
  Sifted (fun ft => w ft = true) (gf_features f) fs ->
  match fs with
  | [] => iter_geoms f uid None (Some w) None = Err ValueError
  | _ => exists rows, iter_geoms f uid None (Some w) None = Ok rows /\ Forall2 (Yields u add) fs rows
  end.
Proof.
  intros f uid u add w fs R H S.
  assert (E : iter_geoms f uid None (Some w) None = match fs with
    | [] => Err ValueError
    | first :: _ => do ua <- get_uid_from_properties (ft_props first) uid; map_res (set_uid (fst ua) (snd ua)) fs end).
  { unfold iter_geoms. cbn [bind get_features]. rewrite (sifted_filter _ w _ fs (fun x _ => iff_refl _) S). reflexivity. }
  destruct fs as [|first fs]; [exact E|].
  exists (map (the_row u add) (first :: fs)). split; [|apply yields_row].
  rewrite E. refine (rows_of f uid u add (first :: fs) R H _ _); [|discriminate].
  intros ft I. exact (sifted_in _ _ _ ft S I).
Qed.

Lemma py_index_in : forall {A} (l : list A) i x, py_index l i = Ok x -> In x l.
Proof.
  intros A l i x E. unfold py_index in E. destruct (_ || _); [discriminate|].
  destruct (nth_error l _) eqn:G; [|discriminate]. injection E as ->. exact (nth_error_In _ _ G).
Qed.

Lemma map_res_in : forall {A B} (g : A -> res B) l r y, map_res g l = Ok r -> In y r -> exists x, In x l /\ g x = Ok y.
Proof.
  induction l as [|x l IH]; intros r y E I.
  - injection E as <-. destruct I.
  - cbn in E. destruct (g x) eqn:G; [|discriminate]. cbn in E. destruct (map_res g l) eqn:M; [|discriminate].
    injection E as <-. destruct I as [<-|I].
    + exists x. split; [left; reflexivity|exact G].
    + destruct (IH _ y eq_refl I) as (x' & I' & G'). exists x'. split; [right; exact I'|exact G'].
Qed.

Lemma in_firstn : forall {A} n (l : list A) x, In x (firstn n l) -> In x l.
Proof. induction n as [|n IH]; intros [|y l] x I; cbn in *; try contradiction. destruct I as [<-|I]; [left; reflexivity|right; exact (IH l x I)]. Qed.
Lemma in_skipn : forall {A} n (l : list A) x, In x (skipn n l) -> In x l.
Proof. induction n as [|n IH]; intros [|y l] x I; cbn in *; try contradiction; try exact I. right. exact (IH l x I). Qed.

Lemma py_select_in : forall {A} (l : list A) raw fs x, py_select l raw = Ok fs -> In x fs -> In x l.
Proof.
  intros A l raw fs x E I. destruct raw as [i|s|idx|m|]; cbn in E.
  - destruct (py_index l i) eqn:G; [|discriminate]. injection E as <-. destruct I as [<-|[]]. exact (py_index_in _ _ _ G).
  - injection E as <-. unfold py_slice in I. cbn in I. apply in_firstn in I. exact (in_skipn _ _ _ I).
  - destruct (map_res_in _ _ _ x E I) as (i & _ & G). exact (py_index_in _ _ _ G).
  - destruct (_ =? _); [|discriminate]. injection E as <-. clear - I. revert l I. induction m as [|b m IH]; intros [|y l] I; cbn in I; try contradiction.
    destruct b; [|right; exact (IH l I)]. destruct I as [<-|I]; [left; reflexivity|right; exact (IH l I)].
  - injection E as <-. exact I.
Qed.

Lemma iter_slice : forall f uid u add raw, Regular f -> Identifies f uid u add -> SliceAsWritten f raw ->
  exists fs, py_select (gf_features f) raw = Ok fs /\
  match fs with
  | [] => iter_geoms f uid None None (Some raw) = Err ValueError
  | _ => exists rows, iter_geoms f uid None None (Some raw) = Ok rows /\ Forall2 (Yields u add) fs rows
  end.
Proof.
  intros f uid u add raw R H W. destruct (slice_core f raw W) as (s & fs & E1 & E2 & E3). exists fs. split; [exact E2|].
  assert (E : iter_geoms f uid None None (Some raw) = match fs with
    | [] => Err ValueError
    | first :: _ => do ua <- get_uid_from_properties (ft_props first) uid; map_res (set_uid (fst ua) (snd ua)) fs end).
  { unfold iter_geoms. cbn [bind]. rewrite E1. cbn [bind get_features]. rewrite E3. reflexivity. }
  destruct fs as [|first fs]; [exact E|].
  exists (map (the_row u add) (first :: fs)). split; [|apply yields_row].
  rewrite E. refine (rows_of f uid u add (first :: fs) R H _ _); [|discriminate].
  intros ft I. exact (py_select_in _ _ _ ft E2 I).
Qed.

(** ** Refusals and departures *)

Lemma iter_together : forall f uid l w raw, (l <> None \/ w <> None) -> iter_geoms f uid l w (Some raw) = Err ValueError.
Proof.
  intros f uid [l|] [w|] raw [H|H]; try reflexivity; destruct (H eq_refl).
Qed.

Lemma iter_both : forall f uid l w, iter_geoms f uid (Some l) (Some w) None = iter_geoms f uid None (Some w) None.
Proof. reflexivity. Qed.

Lemma iter_added : forall f l, ~ In "UGID"%string (gf_columns f) -> iter_geoms f None (Some l) None None = Err RuntimeError.
Proof.
  intros f l H. unfold iter_geoms. cbn [bind get_features]. unfold default_uid.
  destruct (existsb (String.eqb "UGID"%string) (gf_columns f)) eqn:E; [|reflexivity].
  apply existsb_eqb in E. contradiction.
Qed.

Lemma iter_wrong_stop : forall f uid u add a b, Regular f -> Identifies f uid u add -> 0 <= a < zlen (gf_features f) -> b < a ->
  exists rows, iter_geoms f uid None None (Some (RSlice (slice_of a b))) = Ok rows /\
    Forall2 (Yields u add) (skipn (Z.to_nat a) (gf_features f)) rows.
Proof.
  intros f uid u add a b R H Ha Hb. exists (map (the_row u add) (skipn (Z.to_nat a) (gf_features f))).
  split; [|apply yields_row]. unfold iter_geoms. cbn [bind index_slice get_formatted_slice1 format_singleton get_features feature_iterator slice_of sl_start sl_stop].
  rewrite o_itr_skip by lia. rewrite o_itr_rest by lia. rewrite Z.sub_0_r. cbn [bind].
  refine (rows_of f uid u add _ R H _ _).
  - intros ft I. exact (in_skipn _ _ _ I).
  - intros E. assert (length (skipn (Z.to_nat a) (gf_features f)) = 0%nat) by (rewrite E; reflexivity).
    rewrite skipn_length in H0. unfold zlen in Ha. lia.
Qed.

Lemma iter_no_start : forall f uid b, gf_features f <> [] ->
  iter_geoms f uid None None (Some (RSlice (mkslice None b))) = Err TypeError.
Proof.
  intros f uid b N. unfold iter_geoms. cbn. destruct (gf_features f); [destruct (N eq_refl)|reflexivity].
Qed.

(** ** The length *)

Lemma forall2_zlen : forall {A B} (P : A -> B -> Prop) a b, Forall2 P a b -> zlen a = zlen b.
Proof. intros A B P a b F. unfold zlen. induction F; [reflexivity|cbn [length]; lia]. Qed.

Lemma len_where : forall f uid u add w fs, Regular f -> Identifies f uid u add ->
  Sifted (fun ft => match w with Some w => w ft = true | None => True end) (gf_features f) fs ->
  cabinet_len f uid None w None = Ok (zlen fs).
Proof.
  intros f uid u add [w|] fs R H S; unfold cabinet_len; cbn [get_features bind].
  - rewrite (sifted_filter _ w _ fs (fun x _ => iff_refl _) S). reflexivity.
  - assert (fs = gf_features f) as ->; [|reflexivity].
    clear - S. induction S as [|x l l' Hx S IH|x l l' Hx S IH]; [reflexivity|rewrite IH; reflexivity|destruct (Hx I)].
Qed.

Lemma iter_length : forall f uid u add w rows, Regular f -> Identifies f uid u add ->
  iter_geoms f uid None w None = Ok rows -> cabinet_len f uid None w None = Ok (zlen rows).
Proof.
  intros f uid u add w rows R H E.
  assert (L : forall fs, match fs with [] => Err ValueError | first :: _ => do ua <- get_uid_from_properties (ft_props first) uid; map_res (set_uid (fst ua) (snd ua)) fs end = Ok rows -> zlen fs = zlen rows).
  { intros [|first fs] G; [discriminate|]. destruct (get_uid_from_properties (ft_props first) uid) as [ua|]; [|discriminate].
    cbn [bind] in G. symmetry. exact (map_res_length _ _ _ G). }
  unfold iter_geoms in E. unfold cabinet_len. destruct w as [w|]; cbn [bind get_features feature_iterator] in *.
  - rewrite (L _ E). reflexivity.
  - rewrite (L _ E). reflexivity.
Qed.

Lemma sifted_nodup : forall {A} (P : A -> Prop) l l', Sifted P l l' -> NoDup l -> NoDup l'.
Proof.
  intros A P l l' S. induction S as [|x l l' Hx S IH|x l l' Hx S IH]; intros N; [exact N| |]; inversion N; subst.
  - constructor; [|apply IH; assumption]. intros I. apply H1. exact (sifted_in _ _ _ _ S I).
  - apply IH. assumption.
Qed.

Lemma sifted_spec : forall {A} (P : A -> Prop) l l' x, Sifted P l l' -> (In x l' <-> In x l /\ P x).
Proof.
  intros A P l l' x S. induction S as [|y l l' Hy S IH|y l l' Hy S IH]; cbn.
  - tauto.
  - rewrite IH. split.
    + intros [<-|(I & Px)]; [split; [left; reflexivity|exact Hy]|split; [right; exact I|exact Px]].
    + intros ([<-|I] & Px); [left; reflexivity|right; split; assumption].
  - rewrite IH. split.
    + intros (I & Px). split; [right; exact I|exact Px].
    + intros ([<-|I] & Px); [destruct (Hy Px)|split; assumption].
Qed.

Lemma same_size : forall {A B} (R : A -> B -> Prop) (a : list A) (b : list B), NoDup a -> NoDup b ->
  (forall x, In x a -> exists y, In y b /\ R x y) -> (forall y, In y b -> exists x, In x a /\ R x y) ->
  (forall x y z, R x y -> R x z -> In y b -> In z b -> y = z) -> (forall x z y, R x y -> R z y -> In x a -> In z a -> x = z) ->
  length a = length b.
Proof.
  intros A B R. induction a as [|x a IH]; intros b Na Nb H1 H2 F1 F2.
  - destruct b as [|y b]; [reflexivity|]. destruct (H2 y (or_introl eq_refl)) as (x & [] & _).
  - destruct (H1 x (or_introl eq_refl)) as (y & I & Rxy). apply in_split in I. destruct I as (b1 & b2 & ->).
    inversion Na as [|? ? Nx Na']; subst.
    cbn [length]. rewrite (IH (b1 ++ b2)%list); [rewrite !app_length; cbn; lia|exact Na'|exact (NoDup_remove_1 _ _ _ Nb)| | | |].
    + intros x' I'. destruct (H1 x' (or_intror I')) as (y' & J & R'). exists y'. split; [|exact R'].
      apply in_app_iff in J. destruct J as [J|[<-|J]]; [apply in_app_iff; left; exact J| |apply in_app_iff; right; exact J].
      exfalso. apply Nx. assert (x' = x) by (apply (F2 x' x y R' Rxy); [right; exact I'|left; reflexivity]). subst x'. exact I'.
    + intros y' J. assert (J' : In y' (b1 ++ y :: b2)) by (apply in_app_iff in J; apply in_app_iff; destruct J as [J|J]; [left; exact J|right; right; exact J]).
      destruct (H2 y' J') as (x' & [<-|I'] & R'); [|exists x'; split; assumption].
      exfalso. apply (NoDup_remove_2 _ _ _ Nb). assert (y' = y) by (apply (F1 x y' y R' Rxy J'); apply in_app_iff; right; left; reflexivity).
      subst y'. exact J.
    + intros a0 y0 z0 R1 R2 I1 I2. apply (F1 a0 y0 z0 R1 R2); apply in_app_iff; apply in_app_iff in I1; apply in_app_iff in I2; cbn; tauto.
    + intros a0 z0 y0 R1 R2 I1 I2. apply (F2 a0 z0 y0 R1 R2); right; assumption.
Qed.

Lemma len_select : forall f uid u l fs, Regular f -> OneEach f u l -> Sifted (Chosen u l) (gf_features f) fs ->
  cabinet_len f uid (Some l) None None = Ok (zlen fs).
Proof.
  intros f uid u l fs R (N & F & Nf & U) S. unfold cabinet_len. f_equal. unfold zlen. f_equal.
  refine (same_size (fun z ft => In ft (gf_features f) /\ In (u, CInt z) (ft_props ft)) l fs N (sifted_nodup _ _ _ S Nf) _ _ _ _).
  - intros z I. rewrite Forall_forall in F. destruct (F z I) as (ft & J & K). exists ft. split; [|split; [exact J|exact K]].
    apply (sifted_spec _ _ _ ft S). split; [exact J|]. exists z. split; assumption.
  - intros ft I. apply (sifted_spec _ _ _ ft S) in I. destruct I as (J & z & K & L). exists z. split; [exact K|split; assumption].
  - intros z a b (Ia & Ra) (Ib & Rb) _ _. exact (U z a b Ia Ib Ra Rb).
  - intros z w ft (I & Rz) (_ & Rw) _ _.
    assert (E : CInt z = CInt w) by (exact (nodup_unique _ _ _ _ (proj2 (regular_in f ft R I)) Rz Rw)).
    injection E as ->. reflexivity.
Qed.

(** ** The variables *)

Lemma set_at_end : forall {A} (pre : list A) x post v, set_at (pre ++ x :: post) (length pre) v = Some (pre ++ v :: post)%list.
Proof. induction pre as [|y pre IH]; intros x post v; [reflexivity|]. cbn. rewrite IH. reflexivity. Qed.

Lemma fill_rows : forall name rows cells pre, Forall2 (fun r c => dget String.eqb (rw_props r) name = Some c) rows cells ->
  fill rows (length pre) name (pre ++ repeat (CInt 0) (length rows)) = Ok (pre ++ cells)%list.
Proof.
  intros name rows cells pre F. revert pre. induction F as [|r c rows cells E F IH]; intros pre.
  - reflexivity.
  - cbn [fill length repeat]. rewrite E, set_at_end. specialize (IH (pre ++ [c])%list).
    rewrite <- !app_assoc in IH. cbn [app] in IH. rewrite app_length in IH. cbn [length] in IH.
    replace (length pre + 1)%nat with (S (length pre)) in IH by lia. exact IH.
Qed.

Lemma row_cell : forall f uid u add ft name, Regular f -> Identifies f uid u add -> In ft (gf_features f) -> In name (gf_columns f) ->
  exists c, In (name, c) (ft_props ft) /\ dget String.eqb (rw_props (the_row u add ft)) name = Some c.
Proof.
  intros f uid u add ft name R H I J. destruct (regular_in f ft R I) as (E & N). rewrite <- E in J.
  apply in_map_iff in J. destruct J as ((k, c) & K & J). cbn in K. subst k. exists c. split; [exact J|].
  assert (D := dget_in _ _ _ N J). destruct add; cbn [the_row rw_props]; [|exact D].
  clear - D. induction (ft_props ft) as [|(k, v) d IH]; [discriminate|]. cbn in *. destruct (String.eqb name k); [exact D|exact (IH D)].
Qed.

Lemma cells_of : forall f uid u add fs name, Regular f -> Identifies f uid u add -> (forall ft, In ft fs -> In ft (gf_features f)) -> In name (gf_columns f) ->
  exists cells, Forall2 (fun ft c => In (name, c) (ft_props ft)) fs cells /\
    Forall2 (fun r c => dget String.eqb (rw_props r) name = Some c) (map (the_row u add) fs) cells.
Proof.
  intros f uid u add fs name R H I J. induction fs as [|ft fs IH]; [exists []; split; constructor|].
  destruct (row_cell f uid u add ft name R H (I ft (or_introl eq_refl)) J) as (c & C1 & C2).
  destruct IH as (cells & F1 & F2); [intros g G; apply I; right; exact G|].
  exists (c :: cells). split; constructor; assumption.
Qed.

Lemma positions_forall2 : forall {A} (l : list A) fs ps, map Some fs = map (fun i => nth_error l (Z.to_nat i)) ps ->
  Forall2 (fun i x => nth_error l (Z.to_nat i) = Some x) ps fs.
Proof.
  intros A l. induction fs as [|x fs IH]; intros [|i ps] E; try discriminate; [constructor|].
  cbn in E. injection E as E1 E2. constructor; [symmetry; exact E1|exact (IH ps E2)].
Qed.

Lemma forall2_trans : forall {A B C} (P : A -> B -> Prop) (Q : B -> C -> Prop) (R : A -> C -> Prop) a b c,
  (forall x y z, P x y -> Q y z -> R x z) -> Forall2 P a b -> Forall2 Q b c -> Forall2 R a c.
Proof.
  intros A B C P Q R a b c H F. revert c. induction F as [|x y a b Hxy F IH]; intros c G; inversion G; subst; constructor.
  - exact (H _ _ _ Hxy H2).
  - apply IH. assumption.
Qed.

Lemma vector_value_spec : forall f u add s name, Regular f -> Identifies f None u add -> SourceAsWritten f s -> In name (gf_columns f) ->
  exists cells, vector_value f (zlen (den s)) (Some s) name = Ok cells /\
    Forall2 (fun i c => exists ft, nth_error (gf_features f) (Z.to_nat i) = Some ft /\ In (name, c) (ft_props ft)) (den s) cells.
Proof.
  intros f u add s name R H W J.
  set (raw := match s with SrcBounds a b => RSlice (slice_of a b) | SrcFancy l => RInts l end).
  assert (exists sl fs, index_slice raw = Ok sl /\ feature_iterator f (gf_features f) (Some sl) = Ok fs /\
    map Some fs = map (fun i => nth_error (gf_features f) (Z.to_nat i)) (den s) /\ fs <> [] /\ (forall ft, In ft fs -> In ft (gf_features f)))
    as (sl & fs & E1 & E2 & E3 & E4 & E5).
  { destruct s as [a b|l]; cbn [SourceAsWritten den] in *; subst raw.
    - destruct W as (W1 & W2).
      exists (SSlice (slice_of a b)), (py_slice (gf_features f) (slice_of a b)).
      assert (P : map Some (py_slice (gf_features f) (slice_of a b)) = map (fun i => nth_error (gf_features f) (Z.to_nat i)) (zrange a b)) by (apply py_slice_positions; lia).
      split; [reflexivity|]. split; [cbn [feature_iterator sl_start sl_stop slice_of]; apply o_itr_slice; lia|]. split; [exact P|]. split.
      + intros E. rewrite E in P. rewrite zrange_cons in P by lia. discriminate.
      + intros ft I. refine (py_select_in (gf_features f) (RSlice (slice_of a b)) _ ft eq_refl I).
    - destruct (index_array f l W) as (sl & fs & E1 & E2 & E3 & E4). exists sl, fs.
      split; [exact E1|]. split; [exact E4|]. split; [exact E3|]. split.
      + intros ->. destruct W as (_ & [(_ & _ & l1 & x & y & l2 & -> & _)|(a & b & L & ->)]).
        * destruct l1; discriminate.
        * rewrite zrange_cons in E3 by lia. discriminate.
      + intros ft I. exact (py_select_in _ _ _ ft E2 I). }
  destruct (cells_of f None u add fs name R H E5 J) as (cells & C1 & C2).
  assert (P := positions_forall2 _ _ _ E3).
  exists cells. split.
  - unfold vector_value. fold raw. unfold iter_geoms. cbn [bind]. rewrite E1. cbn [bind get_features]. rewrite E2. cbn [bind].
    rewrite (rows_of f None u add fs R H E5 E4). cbn [bind].
    assert (L : Z.to_nat (zlen (den s)) = length (map (the_row u add) fs)).
    { rewrite map_length. unfold zlen. rewrite Nat2Z.id. clear - P. induction P; [reflexivity|cbn; lia]. }
    rewrite L. exact (fill_rows name _ cells [] C2).
  - refine (forall2_trans _ _ _ _ _ _ _ P C1). intros i ft c X Y. exists ft. split; assumption.
Qed.

(** ** Variables on a sliced dimension *)

Lemma forall2_nth : forall {A B} (R : A -> B -> Prop) a b i x, Forall2 R a b -> nth_error a i = Some x -> exists y, nth_error b i = Some y /\ R x y.
Proof.
  intros A B R a b i x F. revert i. induction F as [|u v a b H F IH]; intros [|i] E; try discriminate.
  - injection E as ->. exists v. split; [reflexivity|exact H].
  - exact (IH i E).
Qed.

Lemma py_index_rel : forall {A B} (R : A -> B -> Prop) a b i x, Forall2 R a b -> py_index a i = Ok x -> exists y, py_index b i = Ok y /\ R x y.
Proof.
  intros A B R a b i x F E. unfold py_index in *. rewrite <- (forall2_zlen R a b F). destruct (_ || _); [discriminate|].
  destruct (nth_error a _) eqn:G; [|discriminate]. injection E as ->.
  destruct (forall2_nth R a b _ x F G) as (y & -> & H). exists y. split; [reflexivity|exact H].
Qed.

Lemma forall2_firstn : forall {A B} (R : A -> B -> Prop) n a b, Forall2 R a b -> Forall2 R (firstn n a) (firstn n b).
Proof. intros A B R. induction n as [|n IH]; intros a b F; [constructor|]. destruct F; cbn; constructor; [assumption|apply IH; assumption]. Qed.
Lemma forall2_skipn : forall {A B} (R : A -> B -> Prop) n a b, Forall2 R a b -> Forall2 R (skipn n a) (skipn n b).
Proof. intros A B R. induction n as [|n IH]; intros a b F; [exact F|]. destruct F; cbn; [constructor|apply IH; assumption]. Qed.

Lemma py_select_rel : forall {A B} (R : A -> B -> Prop) a b raw x, Forall2 R a b -> py_select a raw = Ok x ->
  exists y, py_select b raw = Ok y /\ Forall2 R x y.
Proof.
  intros A B R a b raw x F E. destruct raw as [i|s|idx|m|]; cbn [py_select] in *.
  - destruct (py_index a i) as [u|] eqn:G; [|discriminate]. injection E as <-.
    destruct (py_index_rel R a b i u F G) as (v & -> & H). exists [v]. split; [reflexivity|]. constructor; [exact H|constructor].
  - injection E as <-. exists (py_slice b s). split; [reflexivity|]. unfold py_slice. rewrite <- (forall2_zlen R a b F).
    destruct (slice_bounds _ _) as (p, q). apply forall2_firstn, forall2_skipn, F.
  - revert x E. induction idx as [|i idx IH]; intros x E.
    + injection E as <-. exists []. split; [reflexivity|constructor].
    + cbn [map_res] in E. destruct (py_index a i) as [u|] eqn:G; [|discriminate]. cbn [bind] in E.
      destruct (map_res (py_index a) idx) as [us|]; [|discriminate]. injection E as <-.
      destruct (py_index_rel R a b i u F G) as (v & G' & H). destruct (IH us eq_refl) as (vs & E' & H').
      exists (v :: vs). cbn [map_res]. rewrite G'. cbn [bind]. rewrite E'. split; [reflexivity|]. constructor; assumption.
  - rewrite <- (forall2_zlen R a b F). destruct (zlen m =? zlen a); [|discriminate]. injection E as <-.
    exists (bool_select m b). split; [reflexivity|]. clear - F. revert m. induction F as [|u v a b H F IH]; intros [|c m]; cbn; try constructor.
    destruct c; [constructor; [exact H|]|]; apply IH.
  - injection E as <-. exists b. split; [reflexivity|exact F].
Qed.

Lemma increasing_nth : forall l i j x y, Increasing l -> (i < j)%nat -> nth_error l i = Some x -> nth_error l j = Some y -> x < y.
Proof.
  induction l as [|a l IH]; intros i j x y H L Ex Ey; [destruct i; discriminate|].
  destruct j as [|j]; [lia|]. cbn in Ey. destruct i as [|i].
  - injection Ex as <-. destruct l as [|b l]; [destruct j; discriminate|]. cbn [Increasing] in H. destruct H as (H1 & H2).
    destruct j as [|j]; [injection Ey as <-; exact H1|]. assert (b < y) by (exact (IH 0%nat (S j) b y H2 ltac:(lia) eq_refl Ey)). lia.
  - destruct l as [|b l]; [destruct i; discriminate|]. cbn [Increasing] in H. exact (IH i j x y (proj2 H) ltac:(lia) Ex Ey).
Qed.

Lemma nth_increasing : forall l, (forall i j x y, (i < j)%nat -> nth_error l i = Some x -> nth_error l j = Some y -> x < y) -> Increasing l.
Proof.
  induction l as [|a [|b l] IH]; intros H; cbn; try exact I. split.
  - exact (H 0%nat 1%nat a b ltac:(lia) eq_refl eq_refl).
  - apply IH. intros i j x y L Ex Ey. exact (H (S i) (S j) x y ltac:(lia) Ex Ey).
Qed.

Lemma nth_firstn : forall {A} n (l : list A) i x, nth_error (firstn n l) i = Some x -> nth_error l i = Some x.
Proof. induction n as [|n IH]; intros [|y l] [|i] x E; cbn in *; try discriminate; [exact E|exact (IH l i x E)]. Qed.
Lemma nth_skipn : forall {A} n (l : list A) i, nth_error (skipn n l) i = nth_error l (n + i).
Proof. induction n as [|n IH]; intros [|y l] i; cbn; try reflexivity; [destruct i; reflexivity|exact (IH l i)]. Qed.

Lemma increasing_slice : forall l s, Increasing l -> Increasing (py_slice l s).
Proof.
  intros l s H. unfold py_slice. destruct (slice_bounds _ _) as (p, q). apply nth_increasing. intros i j x y L Ex Ey.
  apply nth_firstn in Ex. apply nth_firstn in Ey. rewrite nth_skipn in Ex, Ey. refine (increasing_nth l _ _ x y H _ Ex Ey). lia.
Qed.

Lemma bool_select_nth : forall {A} m (l : list A) i j x y, (i < j)%nat -> nth_error (bool_select m l) i = Some x -> nth_error (bool_select m l) j = Some y ->
  exists i' j', (i' < j')%nat /\ nth_error l i' = Some x /\ nth_error l j' = Some y.
Proof.
  assert (One : forall A m (l : list A) i x, nth_error (bool_select m l) i = Some x -> exists i', nth_error l i' = Some x).
  { intros A m l i x E. apply nth_error_In in E. apply In_nth_error. revert l E. induction m as [|b m IH]; intros [|y l] E; cbn in E; try contradiction.
    destruct b; [destruct E as [<-|E]; [left; reflexivity|]|]; right; exact (IH l E). }
  intros A. induction m as [|b m IH]; intros [|z l] i j x y L Ex Ey; cbn in Ex, Ey; try (destruct i; discriminate).
  destruct b.
  - destruct j as [|j]; [lia|]. cbn in Ey. destruct i as [|i].
    + injection Ex as <-. destruct (One A m l j y Ey) as (j' & E'). exists 0%nat, (S j'). split; [lia|]. split; [reflexivity|exact E'].
    + destruct (IH l i j x y ltac:(lia) Ex Ey) as (i' & j' & L' & E1 & E2). exists (S i'), (S j'). split; [lia|]. split; [exact E1|exact E2].
  - destruct (IH l i j x y L Ex Ey) as (i' & j' & L' & E1 & E2). exists (S i'), (S j'). split; [lia|]. split; [exact E1|exact E2].
Qed.

Lemma map_res_nth : forall {A B} (g : A -> res B) l r i y, map_res g l = Ok r -> nth_error r i = Some y -> exists x, nth_error l i = Some x /\ g x = Ok y.
Proof.
  induction l as [|a l IH]; intros r i y E N.
  - injection E as <-. destruct i; discriminate.
  - cbn in E. destruct (g a) eqn:G; [|discriminate]. cbn in E. destruct (map_res g l) eqn:M; [|discriminate]. injection E as <-.
    destruct i as [|i]; [injection N as <-; exists a; split; [reflexivity|exact G]|]. exact (IH _ i y eq_refl N).
Qed.

Lemma py_index_nonneg : forall {A} (l : list A) i x, 0 <= i -> py_index l i = Ok x -> nth_error l (Z.to_nat i) = Some x.
Proof.
  intros A l i x H E. unfold py_index in E. destruct (Z.ltb_spec i 0) as [L|_]; [lia|]. destruct (_ || _); [discriminate|].
  destruct (nth_error l (Z.to_nat i)); [|discriminate]. injection E as ->. reflexivity.
Qed.

Lemma select_increasing : forall l raw l', Increasing l -> InRange (zlen l) raw -> py_select l raw = Ok l' -> Increasing l'.
Proof.
  intros l raw l' H W E. destruct raw as [i|s|idx|m|]; cbn [py_select] in E.
  - destruct (py_index l i); [|discriminate]. injection E as <-. exact I.
  - injection E as <-. apply increasing_slice. exact H.
  - cbn [InRange] in W. destruct W as (_ & W1 & W2). apply nth_increasing. intros i j x y L Ex Ey.
    destruct (map_res_nth _ _ _ i x E Ex) as (p & Ep & Gp). destruct (map_res_nth _ _ _ j y E Ey) as (q & Eq & Gq).
    assert (p < q) by (exact (increasing_nth idx i j p q W1 L Ep Eq)).
    rewrite Forall_forall in W2. assert (Hp := W2 p (nth_error_In _ _ Ep)). assert (Hq := W2 q (nth_error_In _ _ Eq)).
    apply py_index_nonneg in Gp; [|lia]. apply py_index_nonneg in Gq; [|lia].
    refine (increasing_nth l _ _ x y H _ Gp Gq). lia.
  - destruct (zlen m =? zlen l); [|discriminate]. injection E as <-. apply nth_increasing. intros i j x y L Ex Ey.
    destruct (bool_select_nth m l i j x y L Ex Ey) as (i' & j' & L' & E1 & E2). exact (increasing_nth l i' j' x y H L' E1 E2).
  - injection E as <-. exact H.
Qed.

Lemma select_history : forall f raws l fs l', Increasing l -> Forall2 (fun i ft => nth_error (gf_features f) (Z.to_nat i) = Some ft) l fs ->
  (forall i, In i l -> 0 <= i < zlen (gf_features f)) -> InRangeSeq l raws -> fold_res py_select raws l = Ok l' ->
  exists fs', fold_res py_select raws fs = Ok fs' /\ Increasing l' /\
    Forall2 (fun i ft => nth_error (gf_features f) (Z.to_nat i) = Some ft) l' fs' /\ (forall i, In i l' -> 0 <= i < zlen (gf_features f)).
Proof.
  intros f. induction raws as [|raw raws IH]; intros l fs l' H F B W E.
  - injection E as <-. exists fs. split; [reflexivity|]. split; [exact H|]. split; [exact F|exact B].
  - cbn [InRangeSeq] in W. destruct W as (P & W1 & W2). cbn [fold_res] in *.
    destruct (py_select l raw) as [l1|] eqn:S; [|discriminate]. cbn [bind] in E.
    destruct (py_select_rel _ l fs raw l1 F S) as (fs1 & S' & F'). rewrite S'. cbn [bind].
    refine (IH l1 fs1 l' _ F' _ (W2 l1 eq_refl) E).
    + exact (select_increasing l raw l1 H W1 S).
    + intros i I. apply B. exact (py_select_in l raw l1 i S I).
Qed.

Lemma zrange_increasing : forall n a, Increasing (zrange a (a + Z.of_nat n)).
Proof.
  induction n as [|n IH]; intros a; [rewrite zrange_nil by lia; exact I|].
  rewrite zrange_cons by lia. specialize (IH (a + 1)). replace (a + Z.of_nat (S n)) with (a + 1 + Z.of_nat n) by lia.
  destruct n as [|n]; [rewrite zrange_nil by lia; exact I|]. rewrite zrange_cons in * by lia. split; [lia|exact IH].
Qed.

Lemma all_features : forall f, Forall2 (fun i ft => nth_error (gf_features f) (Z.to_nat i) = Some ft) (zrange 0 (zlen (gf_features f))) (gf_features f).
Proof.
  intros f. apply positions_forall2. assert (E := firstn_skipn_zrange (gf_features f) (length (gf_features f)) 0 ltac:(lia) ltac:(unfold zlen; lia)).
  cbn [Z.to_nat skipn] in E. rewrite firstn_all in E. exact E.
Qed.

Lemma value_of_history : forall f u add d raws name, Regular f -> Numbered f -> gf_gdb f = false -> Identifies f None u add -> In name (gf_columns f) ->
  dim_len d = zlen (gf_features f) -> d_src d = Some (SrcBounds 0 (zlen (gf_features f))) ->
  InRangeSeq (zrange 0 (zlen (gf_features f))) raws ->
  exists d' fs, fold_res dim_getitem raws d = Ok d' /\ fold_res py_select raws (gf_features f) = Ok fs /\
    (fs <> [] -> exists cells, vector_value f (dim_len d') (d_src d') name = Ok cells /\
       Forall2 (fun ft c => In (name, c) (ft_props ft)) fs cells).
Proof.
  intros f u add d raws name R N G H J L S W.
  assert (Rep : Represents d (zrange 0 (zlen (gf_features f)))).
  { split; [rewrite zrange_zlen; unfold zlen in *; lia|]. rewrite S. reflexivity. }
  destruct (dim_getitem_seq raws d _ Rep W) as (d' & l' & E1 & E2 & (L' & S') & None').
  destruct (select_history f raws _ _ l' (zrange_increasing (length (gf_features f)) 0) (all_features f)
    (fun i I => proj1 (in_zrange 0 (zlen (gf_features f)) i) I) W E2) as (fs & E3 & I' & F' & B').
  exists d', fs. split; [exact E1|]. split; [exact E3|]. intros NE.
  destruct (d_src d') as [s|] eqn:S1; [|rewrite S in None'; discriminate (proj1 None' eq_refl)].
  assert (NL : l' <> []) by (intros ->; inversion F'; subst; exact (NE eq_refl)).
  assert (SW : SourceAsWritten f s).
  { destruct s as [a b|l]; cbn [den SourceAsWritten] in *.
    - destruct (Z.lt_ge_cases a b) as [Lt|Ge]; [|rewrite zrange_nil in S' by lia; congruence].
      assert (0 <= a < zlen (gf_features f)) by (apply B'; rewrite <- S'; apply in_zrange; lia).
      assert (0 <= b - 1 < zlen (gf_features f)) by (apply B'; rewrite <- S'; apply in_zrange; lia). lia.
    - subst l'. split; [rewrite Forall_forall; exact B'|]. destruct (any_diff_gt1 l) eqn:D.
      + left. split; [exact G|]. split; [exact N|]. apply any_diff_gap. exact D.
      + right. destruct l as [|x l]; [destruct (NL eq_refl)|]. destruct (contiguous_zrange l x I' D) as (b & Eb & Lb).
        exists x, b. split; [exact Lb|exact Eb]. }
  destruct (vector_value_spec f u add s name R H SW J) as (cells & V & C). exists cells.
  rewrite <- L', <- S'. split; [exact V|]. rewrite S' in C. clear - F' C.
  revert cells C. induction F' as [|i ft l' fs E F IH]; intros cells C; inversion C; subst; constructor.
  - destruct H1 as (g & E' & K). rewrite E in E'. injection E' as <-. exact K.
  - apply IH. assumption.
Qed.

Lemma value_gdb : forall f l name, gf_gdb f = true -> Gap l -> vector_value f (zlen l) (Some (SrcFancy l)) name = Err AttributeError.
Proof.
  intros f l name G H. unfold vector_value, iter_geoms. cbn [bind].
  unfold index_slice, get_formatted_slice1, format_singleton, get_optimal_slice_from_array.
  rewrite (proj2 (any_diff_gap l) H). cbn [bind get_features feature_iterator]. rewrite G. reflexivity.
Qed.

(** ** Identifiers, whatever was asked for *)

Lemma dset_in : forall {V} (d : list (string * V)) k v, In (k, v) (dset String.eqb d k v).
Proof.
  induction d as [|(a, x) d IH]; intros k v; cbn; [left; reflexivity|].
  destruct (String.eqb_spec k a) as [->|D]; [left; reflexivity|right; exact (IH k v)].
Qed.

Lemma iter_identifier : forall f uid sel cond slc rows, iter_geoms f uid sel cond slc = Ok rows ->
  exists u, (forall v, uid = Some v -> u = v) /\ (uid = None -> u = "UGID"%string) /\
    Forall (fun r => rw_uid r = u /\ exists z, In (u, CInt z) (rw_props r)) rows.
Proof.
  intros f uid sel cond slc rows E. unfold iter_geoms in E.
  destruct (match slc with Some _ => if match sel with Some _ => true | None => match cond with Some _ => true | None => false end end then Err ValueError else Ok tt | None => Ok tt end) as [[]|]; [|discriminate].
  cbn [bind] in E. destruct (match slc with None => Ok None | Some r => do s <- index_slice r; Ok (Some s) end) as [s|]; [|discriminate].
  cbn [bind] in E. destruct (get_features f uid sel cond) as [fs|]; [|discriminate].
  cbn [bind] in E. destruct (feature_iterator f fs s) as [itr|]; [|discriminate].
  cbn [bind] in E. destruct itr as [|first itr]; [discriminate|].
  destruct (get_uid_from_properties (ft_props first) uid) as [(u, add)|] eqn:G; [|discriminate]. cbn [bind fst snd] in E.
  exists u.
  assert (U : (forall v, uid = Some v -> u = v) /\ (uid = None -> u = "UGID"%string)).
  { unfold get_uid_from_properties in G. destruct uid as [v|].
    - split; [|discriminate]. intros w [= <-]. destruct (dmem _ _ v); [|discriminate]. cbn [bind] in G.
      destruct (dget _ _ v) as [c|]; [|discriminate]. destruct (py_int c); [|discriminate]. cbn in G. congruence.
    - split; [discriminate|]. intros _. destruct (dmem _ _ default_uid); cbn [bind] in G; [|unfold default_uid in G; congruence].
      destruct (dget _ _ default_uid) as [c|]; [|discriminate]. destruct (py_int c); [|discriminate]. cbn in G. unfold default_uid in G. congruence. }
  split; [exact (proj1 U)|]. split; [exact (proj2 U)|]. rewrite Forall_forall. intros r I.
  destruct (map_res_in _ _ _ r E I) as (ft & _ & S). unfold set_uid in S. destruct add.
  - injection S as <-. split; [reflexivity|]. eexists. apply dset_in.
  - destruct (dget _ _ u) as [c|]; [|discriminate]. destruct (py_int c) as [z|]; [|discriminate]. cbn [bind] in S. injection S as <-.
    split; [reflexivity|]. exists z. apply dset_in.
Qed.

Lemma iter_unknown : forall f u sel cond, Regular f -> ~ In u (gf_columns f) ->
  (exists e, iter_geoms f (Some u) sel cond None = Err e) /\ forall l, iter_geoms f (Some u) (Some l) None None = Err RuntimeError.
Proof.
  intros f u sel cond R H.
  assert (NE : existsb (String.eqb u) (gf_columns f) = false).
  { destruct (existsb _ _) eqn:E; [|reflexivity]. apply existsb_eqb in E. contradiction. }
  assert (U : forall fs, (forall ft, In ft fs -> In ft (gf_features f)) -> exists e, match fs with
    | [] => Err ValueError
    | first :: _ => do ua <- get_uid_from_properties (ft_props first) (Some u); map_res (set_uid (fst ua) (snd ua)) fs end = Err e).
  { intros [|first fs] I; [eexists; reflexivity|]. unfold get_uid_from_properties.
    destruct (dmem String.eqb (ft_props first) u) eqn:M; [|eexists; reflexivity].
    apply dmem_in in M. rewrite (proj1 (regular_in f first R (I first (or_introl eq_refl)))) in M. contradiction. }
  split.
  - unfold iter_geoms. cbn [bind]. destruct cond as [w|]; cbn [get_features bind feature_iterator].
    + apply U. intros ft I. apply filter_In in I. exact (proj1 I).
    + destruct sel as [l|].
      * rewrite NE. eexists. reflexivity.
      * cbn [get_features bind feature_iterator]. apply U. intros ft I. exact I.
  - intros l. unfold iter_geoms. cbn [bind get_features]. rewrite NE. reflexivity.
Qed.
