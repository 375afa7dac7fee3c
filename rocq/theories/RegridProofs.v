(** Proofs about regridding. *)
From Verif Require Import Py Lib Spec PartitionModel NdModel NdSpec NdProofs MaskProofs RegridModel RegridSpec.

(** ** NumPy assignment *)
Lemma bmatch_refl l : bmatch l l = true.
Proof. induction l as [|a r IH]; [reflexivity|]. cbn [bmatch]. rewrite Z.eqb_refl, IH. reflexivity. Qed.

Lemma bindex_same l : forall idx, IndexOf l idx -> bindex l idx = idx.
Proof.
  induction l as [|a r IH]; intros idx H; inversion H; subst; cbn [bindex]; [reflexivity|]. rewrite IH by assumption.
  destruct (a =? 1) eqn:E; [|reflexivity]. f_equal. lia.
Qed.

Lemma index_rev l idx : IndexOf l idx -> IndexOf (rev l) (rev idx).
Proof. intros H. unfold IndexOf in *. induction H; cbn [rev]; [constructor|]. apply Forall2_app; [assumption|]. constructor; [assumption|constructor]. Qed.

Lemma assign_same {A} (a : nd A) shape : nd_shape a = shape ->
  exists r, np_assign a shape = Ok r /\ nd_shape r = shape /\ forall idx, IndexOf shape idx -> nd_at r idx = nd_at a idx.
Proof.
  intros E. unfold np_assign. rewrite E, bmatch_refl. eexists. split; [reflexivity|]. cbn [nd_shape nd_at]. split; [reflexivity|].
  intros idx H. rewrite bindex_same by (apply index_rev; exact H). rewrite rev_involutive. reflexivity.
Qed.

Lemma bshape_refl l : bshape l l = Ok l.
Proof. induction l as [|a r IH]; [reflexivity|]. cbn [bshape]. rewrite IH. cbn [bind]. rewrite Z.eqb_refl. reflexivity. Qed.

Lemma lor_same a b shape : nd_shape a = shape -> nd_shape b = shape ->
  exists r, np_lor a b = Ok r /\ nd_shape r = shape /\ forall idx, IndexOf shape idx -> nd_at r idx = nd_at a idx || nd_at b idx.
Proof.
  intros Ea Eb. unfold np_lor. rewrite Ea, Eb, bshape_refl. cbn [bind]. rewrite rev_involutive.
  destruct (assign_same a shape Ea) as [a' [-> [Sa Ha]]]. destruct (assign_same b shape Eb) as [b' [-> [Sb Hb]]]. cbn [bind].
  eexists. split; [reflexivity|]. cbn [np_or nd_shape nd_at]. split; [exact Sa|]. intros idx H. rewrite Ha, Hb by exact H. reflexivity.
Qed.

(** ** ESMF grids *)
Lemma is_cell g c : IsCell g c <-> exists x y, c = [x; y] /\ 0 <= x < rg_nx g /\ 0 <= y < rg_ny g.
Proof.
  split.
  - intros H. inversion H as [|? x ? t Hx Ht]; subst. inversion Ht as [|? y ? u Hy Hu]; subst. inversion Hu; subst. exists x, y. tauto.
  - intros [x [y [-> [Hx Hy]]]]. unfold IsCell, IndexOf. repeat (apply Forall2_cons; [assumption|]). constructor.
Qed.

Lemma grid_mask_for g m (mask : option (nd bool)) (hidden : list Z -> bool) :
  match mask with Some k => nd_shape k = [rg_ny g; rg_nx g] | None => True end ->
  (forall c, IsCell g c -> hidden c = hidden_by mask c) -> (m = Flag Conserve -> rg_bounds g = true) ->
  exists e, (do emask <- match mask with
              | Some k => do r <- np_assign (np_swapaxes 0 1 (np_invert k)) [rg_nx g; rg_ny g]; Ok (Some r)
              | None => Ok None
              end;
  do corners <- match m with
                | Auto => Ok (rg_bounds g)
                | Flag f => if is_conserve f then (if rg_bounds g then Ok true else Err AttributeError) else Ok false
                end;
  Ok (mkegrid (rg_nx g) (rg_ny g) emask corners)) = Ok e /\ GridFor g m hidden e.
Proof.
  intros Hs Hh Hm.
  assert (Hc : exists b, match m with
                | Auto => Ok (rg_bounds g)
                | Flag f => if is_conserve f then (if rg_bounds g then Ok true else Err AttributeError) else Ok false
                end = Ok b /\ b = match m with Auto => rg_bounds g | Flag f => is_conserve f end).
  { destruct m as [|f]; [eexists; split; reflexivity|]. destruct f; cbn [is_conserve]; try (eexists; split; reflexivity). rewrite Hm by reflexivity. eexists; split; reflexivity. }
  destruct Hc as [b [-> ->]].
  destruct mask as [k|].
  - assert (Hsw : nd_shape (np_swapaxes 0 1 (np_invert k)) = [rg_nx g; rg_ny g]) by (cbn [np_swapaxes np_invert nd_shape]; rewrite Hs; reflexivity).
    destruct (assign_same _ _ Hsw) as [r [-> [Sr Hr]]]. cbn [bind]. eexists. split; [reflexivity|].
    unfold GridFor; cbn [eg_nx eg_ny eg_corners eg_mask]. split; [reflexivity|]. split; [reflexivity|]. split; [reflexivity|]. split; [exact Sr|].
    intros c Hc. rewrite Hr by exact Hc. rewrite (Hh c Hc). apply is_cell in Hc. destruct Hc as [x [y [-> _]]]. reflexivity.
  - cbn [bind]. eexists. split; [reflexivity|]. unfold GridFor; cbn [eg_nx eg_ny eg_corners eg_mask]. repeat (split; [reflexivity|]).
    intros c Hc. rewrite (Hh c Hc). reflexivity.
Qed.

Lemma create_grid g m vm : GoodGrid g -> match vm with Some k => nd_shape k = [rg_ny g; rg_nx g] | None => True end ->
  (m = Flag Conserve -> rg_bounds g = true) ->
  exists e, create_esmf_grid g m vm = Ok e /\ GridFor g m (fun c => hidden_by (rg_mask g) c || hidden_by vm c) e.
Proof.
  intros [Hx [Hy [_ Hg]]] Hv Hm. unfold create_esmf_grid. destruct vm as [v|]; cbn [bind].
  - set (gm := match rg_mask g with Some k => k | None => zeros [rg_ny g; rg_nx g] end).
    assert (Hgm : nd_shape gm = [rg_ny g; rg_nx g]) by (unfold gm; destruct (rg_mask g); [exact Hg|reflexivity]).
    destruct (lor_same v gm _ Hv Hgm) as [r [-> [Sr Hr]]]. cbn [bind].
    apply (grid_mask_for g m (Some r)); [exact Sr| |exact Hm]. intros c Hc. apply is_cell in Hc. destruct Hc as [x [y [-> [H1 H2]]]].
    cbn [hidden_by nth]. rewrite Hr by (constructor; [assumption|]; constructor; [assumption|constructor]).
    unfold gm. destruct (rg_mask g); cbn [zeros nd_at]; apply orb_comm.
  - apply (grid_mask_for g m (rg_mask g)); [exact Hg| |exact Hm]. intros c _. cbn [hidden_by]. apply orb_false_r.
Qed.

(** ** Names and positions *)
Definition lookup (names : list string) (vals : list Z) (n : string) : Z :=
  match dget String.eqb (combine names vals) n with Some i => i | None => 0 end.

Lemma lookup_map names : NoDup names -> forall vals, List.length vals = List.length names -> map (lookup names vals) names = vals.
Proof.
  induction names as [|n t IH]; intros Hn [|v vals] L; try discriminate; [reflexivity|]. inversion Hn; subst. cbn [map].
  unfold lookup at 1. cbn [combine dget]. rewrite String.eqb_refl. f_equal. rewrite <- (IH H2 vals) at 2 by (cbn in L; lia).
  apply map_ext_in. intros m Hm. unfold lookup. cbn [combine dget]. destruct (String.eqb n m) eqn:E; [apply String.eqb_eq in E; subst; tauto|].
  destruct (String.eqb m n) eqn:E'; [apply String.eqb_eq in E'; subst; tauto|reflexivity].
Qed.

Lemma dget_combine names : NoDup names -> forall vals : list Z, List.length vals = List.length names ->
  map (fun n => dget String.eqb (combine names vals) n) names = map Some vals.
Proof.
  induction names as [|n t IH]; intros Hn [|v vals] L; try discriminate; [reflexivity|]. inversion Hn; subst. cbn [map combine dget].
  rewrite String.eqb_refl. f_equal. rewrite <- (IH H2 vals) by (cbn in L; lia).
  apply map_ext_in. intros m Hm. destruct (String.eqb n m) eqn:E; [apply String.eqb_eq in E; subst; tauto|].
  destruct (String.eqb m n) eqn:E'; [apply String.eqb_eq in E'; subst; tauto|reflexivity].
Qed.

Lemma dget_combine_None names (vals : list Z) n : ~ In n names -> dget String.eqb (combine names vals) n = None.
Proof.
  revert vals. induction names as [|m t IH]; intros [|v vals] H; try reflexivity. cbn [combine dget].
  destruct (String.eqb m n) eqn:E; [apply String.eqb_eq in E; subst; exfalso; apply H; left; reflexivity|].
  destruct (String.eqb n m) eqn:E'; [apply String.eqb_eq in E'; subst; exfalso; apply H; left; reflexivity|].
  apply IH. intros Hi; apply H; right; exact Hi.
Qed.

(** ** Squeezing *)
Lemma drop_all axes : forall shape k, (forall i, (i < List.length shape)%nat -> existsb (Nat.eqb (k + i)) axes = true) -> drop_axes k axes shape = [].
Proof.
  induction shape as [|n s IH]; intros k H; [reflexivity|]. cbn [drop_axes]. pose proof (H O ltac:(cbn; lia)) as H0. rewrite Nat.add_0_r in H0. rewrite H0.
  apply IH. intros i Hi. replace (S k + i)%nat with (k + S i)%nat by lia. apply H. cbn; lia.
Qed.
Lemma add_all axes idx : forall shape k, (forall i, (i < List.length shape)%nat -> existsb (Nat.eqb (k + i)) axes = true) -> add_axes k axes shape idx = map (fun _ => 0) shape.
Proof.
  induction shape as [|n s IH]; intros k H; [reflexivity|]. cbn [add_axes map]. pose proof (H O ltac:(cbn; lia)) as H0. rewrite Nat.add_0_r in H0. rewrite H0.
  f_equal. apply IH. intros i Hi. replace (S k + i)%nat with (k + S i)%nat by lia. apply H. cbn; lia.
Qed.
Lemma drop_none axes : forall shape k, (forall i, (i < List.length shape)%nat -> existsb (Nat.eqb (k + i)) axes = false) -> drop_axes k axes shape = shape.
Proof.
  induction shape as [|n s IH]; intros k H; [reflexivity|]. cbn [drop_axes]. pose proof (H O ltac:(cbn; lia)) as H0. rewrite Nat.add_0_r in H0. rewrite H0.
  f_equal. apply IH. intros i Hi. replace (S k + i)%nat with (k + S i)%nat by lia. apply H. cbn; lia.
Qed.
Lemma add_none axes : forall shape k idx, List.length idx = List.length shape ->
  (forall i, (i < List.length shape)%nat -> existsb (Nat.eqb (k + i)) axes = false) -> add_axes k axes shape idx = idx.
Proof.
  induction shape as [|n s IH]; intros k [|i idx] L H; try discriminate; [reflexivity|]. cbn [add_axes]. pose proof (H O ltac:(cbn; lia)) as H0. rewrite Nat.add_0_r in H0. rewrite H0.
  f_equal. apply IH; [cbn in L; lia|]. intros j Hj. replace (S k + j)%nat with (k + S j)%nat by lia. apply H. cbn; lia.
Qed.
Lemma drop_lead axes keep : forall lead k, (forall i, (i < List.length lead)%nat -> existsb (Nat.eqb (k + i)) axes = true) ->
  drop_axes k axes (lead ++ keep) = drop_axes (k + List.length lead) axes keep.
Proof.
  induction lead as [|n s IH]; intros k H; cbn [app List.length]; [rewrite Nat.add_0_r; reflexivity|]. cbn [drop_axes].
  pose proof (H O ltac:(cbn; lia)) as H0. rewrite Nat.add_0_r in H0. rewrite H0.
  rewrite IH; [f_equal; lia|]. intros i Hi. replace (S k + i)%nat with (k + S i)%nat by lia. apply H. cbn; lia.
Qed.
Lemma add_lead axes keep idx : forall lead k, (forall i, (i < List.length lead)%nat -> existsb (Nat.eqb (k + i)) axes = true) ->
  add_axes k axes (lead ++ keep) idx = (map (fun _ => 0) lead ++ add_axes (k + List.length lead) axes keep idx)%list.
Proof.
  induction lead as [|n s IH]; intros k H; cbn [app List.length map]; [rewrite Nat.add_0_r; reflexivity|]. cbn [add_axes].
  pose proof (H O ltac:(cbn; lia)) as H0. rewrite Nat.add_0_r in H0. rewrite H0. f_equal.
  rewrite IH; [f_equal; f_equal; lia|]. intros i Hi. replace (S k + i)%nat with (k + S i)%nat by lia. apply H. cbn; lia.
Qed.

Lemma axes_in_at ex : forall names k0 k, existsb (Nat.eqb k) (map fst (filter (fun p : nat * string => str_mem (snd p) ex) (enumerate k0 names))) = true <->
  exists i n, k = (k0 + i)%nat /\ nth_error names i = Some n /\ In n ex.
Proof.
  induction names as [|m t IH]; intros k0 k; cbn [enumerate filter map existsb].
  - split; [discriminate|]. intros [[|i] [n [_ [H _]]]]; discriminate.
  - cbn [snd]. destruct (str_mem m ex) eqn:E; cbn [map existsb fst].
    + apply str_mem_In in E. rewrite orb_true_iff, IH, Nat.eqb_eq. split.
      * intros [->|[i [n [-> [H1 H2]]]]]; [exists O, m; split; [lia|]; split; [reflexivity|exact E]|exists (S i), n; split; [lia|]; split; assumption].
      * intros [[|i] [n [-> [H1 H2]]]]; [left; lia|right; exists i, n; split; [lia|]; split; assumption].
    + apply str_mem_nIn in E. rewrite IH. split.
      * intros [i [n [-> [H1 H2]]]]. exists (S i), n. split; [lia|]. split; assumption.
      * intros [[|i] [n [-> [H1 H2]]]]; [cbn in H1; injection H1 as <-; tauto|exists i, n; split; [lia|]; split; assumption].
Qed.
Lemma axes_in_nth names ex k n : nth_error names k = Some n -> existsb (Nat.eqb k) (axes_in names ex) = str_mem n ex.
Proof.
  intros H. unfold axes_in. destruct (str_mem n ex) eqn:E.
  - apply str_mem_In in E. apply axes_in_at. exists k, n. split; [reflexivity|]. split; assumption.
  - apply str_mem_nIn in E. apply not_true_is_false. intros H1. apply axes_in_at in H1. destruct H1 as [i [m [-> [H1 H2]]]]. cbn in H. rewrite H in H1. injection H1 as <-. tauto.
Qed.
Lemma axes_in_bound names ex a : In a (axes_in names ex) -> exists n, nth_error names a = Some n /\ In n ex.
Proof.
  intros H. assert (E : existsb (Nat.eqb a) (axes_in names ex) = true) by (apply existsb_exists; exists a; split; [exact H|apply Nat.eqb_refl]).
  apply axes_in_at in E. destruct E as [i [n [-> [H1 H2]]]]. exists n. split; assumption.
Qed.

Lemma zero_get ex n : In n (map fst ex) -> dget String.eqb (map (fun d : string * Z => (fst d, 0)) ex) n = Some 0.
Proof.
  induction ex as [|d t IH]; [intros []|]. cbn [map dget]. intros H. destruct (String.eqb n (fst d)) eqn:E; [reflexivity|]. apply IH.
  destruct H as [H|H]; [subst; rewrite String.eqb_refl in E; discriminate|exact H].
Qed.
Lemma zero_none ex n : ~ In n (map fst ex) -> dget String.eqb (map (fun d : string * Z => (fst d, 0)) ex) n = None.
Proof.
  induction ex as [|d t IH]; [reflexivity|]. cbn [map dget In]. intros H. destruct (String.eqb n (fst d)) eqn:E; [apply String.eqb_eq in E; exfalso; apply H; left; congruence|]. apply IH. tauto.
Qed.
Lemma zero_value ex n i : dget String.eqb (map (fun d : string * Z => (fst d, 0)) ex) n = Some i -> i = 0.
Proof. induction ex as [|d t IH]; [discriminate|]. cbn [map dget]. destruct (String.eqb n (fst d)); [congruence|exact IH]. Qed.

Lemma index_within ex f : IndexOf (map snd ex) (map (fun d : string * Z => f (fst d)) ex) -> Within ex f.
Proof. induction ex as [|d t IH]; intros H; [constructor|]. cbn [map] in H. inversion H; subst. constructor; [assumption|apply IH; assumption]. Qed.

Lemma zero_index ex : Forall (fun d : string * Z => 0 < snd d) ex -> IndexOf (map snd ex) (map (fun _ => 0) ex).
Proof. induction 1 as [|d t H _ IH]; cbn [map]; [constructor|]. constructor; [lia|exact IH]. Qed.

Lemma within_index ex f : Within ex f -> IndexOf (map snd ex) (map (fun d : string * Z => f (fst d)) ex).
Proof. induction 1; cbn [map]; [constructor|]. constructor; assumption. Qed.

Section One.
  Context (sg dg : rgrid) (extra : list (string * Z)).
  Hypothesis (Gs : GoodGrid sg) (Gd : GoodGrid dg).
  Hypothesis (Ns : NoDup (map fst (extra ++ rg_dims sg))) (Nd : NoDup (map fst (extra ++ rg_dims dg))).
  Hypothesis Pe : Forall (fun d => 0 < snd d) extra.
  Let exn := map fst extra.
  Let exs := map snd extra.
  Let adims := (extra ++ rg_dims sg)%list.
  Let env (sv : list Z) (c : list Z) := at_cell sg (lookup exn sv) c.

  Lemma rev_on g : rev (extra ++ rg_dims g) = rg_x g :: rg_y g :: rev extra.
  Proof. rewrite rev_app_distr. reflexivity. Qed.

  Lemma nodup_split (g : rgrid) : NoDup (map fst (extra ++ rg_dims g)) ->
    NoDup exn /\ (forall n, In n exn -> n <> fst (rg_x g) /\ n <> fst (rg_y g)) /\ fst (rg_x g) <> fst (rg_y g).
  Proof.
    intros H. rewrite map_app in H. fold exn in H. cbn [rg_dims map] in H. split; [clear -H; induction exn as [|m t IH]; [constructor|]; cbn [app] in H; inversion H as [|? ? Hm Ht]; subst; constructor; [intros Hi; apply Hm, in_or_app; left; exact Hi|exact (IH Ht)]|]. split.
    - intros n Hn. induction exn as [|m t IH]; [destruct Hn|]. cbn [app] in H. inversion H as [|? ? Hm Ht]; subst. destruct Hn as [<-|Hn]; [|apply IH; assumption].
      split; intros E; apply Hm, in_or_app; right; cbn; auto.
    - assert (H' : NoDup [fst (rg_y g); fst (rg_x g)]) by (clear -H; induction exn as [|m t IH]; [exact H|]; inversion H; auto).
      inversion H' as [|? ? Hm _]; subst. intros E. apply Hm. left. exact E.
  Qed.

  Lemma map_at_cell g f x y : NoDup (map fst (extra ++ rg_dims g)) ->
    map (at_cell g f [x; y]) (rev (map fst (extra ++ rg_dims g))) = x :: y :: rev (map f exn).
  Proof.
    intros H. destruct (nodup_split g H) as [Hn [Hd Hxy]].
    rewrite <- map_rev, rev_on. cbn [map]. unfold at_cell at 1 2. cbn [nth]. rewrite !String.eqb_refl.
    destruct (String.eqb (fst (rg_y g)) (fst (rg_x g))) eqn:E; [apply String.eqb_eq in E; congruence|]. f_equal. f_equal.
    rewrite map_rev. fold exn. rewrite <- (map_rev f exn). apply map_ext_in. intros n Hin. apply in_rev in Hin. destruct (Hd n Hin) as [A B].
    unfold at_cell. destruct (String.eqb n (fst (rg_x g))) eqn:E1; [apply String.eqb_eq in E1; congruence|].
    destruct (String.eqb n (fst (rg_y g))) eqn:E2; [apply String.eqb_eq in E2; congruence|reflexivity].
  Qed.

  Lemma map_cell_of g f : map f (rev (map fst (extra ++ rg_dims g))) = (cell_of g f ++ rev (map f exn))%list.
  Proof. rewrite <- map_rev, rev_on. cbn [map cell_of app]. unfold exn. rewrite !map_rev. reflexivity. Qed.

  Definition Source (v : nvar Z) : Prop := GoodVar v /\ forall d, In d (nv_dims v) <-> In d adims.

  Lemma source_names v : Source v -> SameNames (nv_names v) (rev (map fst adims)).
  Proof.
    intros [Hg Hd]. split; [exact (proj1 Hg)|]. split; [apply NoDup_rev; exact Ns|].
    intros n. rewrite <- in_rev. unfold nv_names. split; intros H; apply in_map_iff in H; destruct H as [d [<- H]]; apply in_map, Hd; exact H.
  Qed.

  Lemma source_dsize v d : Source v -> In d adims -> dsize (nv_dims v) (fst d) = snd d.
  Proof.
    intros [Hg Hd] Hin. unfold dsize. destruct d as [n k]. rewrite (dget_In _ n k); [reflexivity|exact (proj1 Hg)|apply Hd; exact Hin].
  Qed.

  Lemma within_dsize v f : Source v -> Within adims f -> forall n, In n (rev (map fst adims)) -> 0 <= f n < dsize (nv_dims v) n.
  Proof.
    intros Hv Hf n Hn. apply in_rev, in_map_iff in Hn. destruct Hn as [d [<- Hd]]. rewrite (source_dsize v d Hv Hd).
    unfold Within in Hf. rewrite Forall_forall in Hf. exact (Hf d Hd).
  Qed.

  Lemma source_variable v : Source v ->
    exists bv, broadcast_variable v (rev (map fst adims)) = Ok bv /\ nv_dims bv = rev adims /\ nd_shape (nv_value bv) = map snd (rev adims) /\
      (forall f, Within adims f -> nd_at (nv_value bv) (cell_of sg f ++ rev (map f exn)) = element v f).
  Proof.
    intros Hv. destruct (broadcast_variable_spec v (rev (map fst adims)) (proj1 Hv) (source_names v Hv)) as [bv [E [Hg [Hd [Hat _]]]]].
    exists bv. split; [exact E|].
    assert (Hdims : nv_dims bv = rev adims).
    { rewrite Hd, <- map_rev, map_map. transitivity (map (fun d : string * Z => d) (rev adims)); [|apply map_id]. apply map_ext_in. intros d Hin.
      apply in_rev in Hin. rewrite (source_dsize v d Hv Hin). destruct d; reflexivity. }
    split; [exact Hdims|]. destruct Hg as [_ [_ [Hsh _]]]. split; [rewrite Hsh; unfold nv_shape; rewrite Hdims; reflexivity|].
    intros f Hf. rewrite <- (map_cell_of sg f). apply Hat. apply within_dsize; assumption.
  Qed.

  (** *** One slice of the source. *)

  (** *** One slice of the source. *)
  Lemma slice_length sv : IndexOf exs sv -> List.length sv = List.length exn.
  Proof. intros H. apply Forall2_len in H. unfold exs, exn in *. rewrite map_length in *. lia. Qed.

  Lemma cut_shape_slice sv : IndexOf exs sv ->
    cut_shape (rev adims) (combine exn sv) = (rg_nx sg :: rg_ny sg :: map (fun _ => 1) (rev extra))%list.
  Proof.
    intros H. pose proof (nodup_split sg Ns) as [Hn [Hd _]]. unfold adims. rewrite rev_on. unfold cut_shape. cbn [map].
    rewrite !dget_combine_None by (intros Hi; destruct (Hd _ Hi); congruence). f_equal. f_equal.
    rewrite !map_rev. f_equal. unfold exn, exs in *. revert H Hn. clear. intros H Hn.
    assert (E : forall d, In d extra -> exists i, dget String.eqb (combine (map fst extra) sv) (fst d) = Some i /\ 0 <= i < snd d).
    { revert sv H Hn. induction extra as [|e t IH]; intros sv H Hn d Hd; [destruct Hd|]. cbn [map] in *. inversion H as [|? i ? u Hi Hu]; subst. inversion Hn as [|? ? Hm Ht]; subst.
      cbn [combine dget]. destruct Hd as [<-|Hd]; [rewrite String.eqb_refl; exists i; split; [reflexivity|exact Hi]|].
      destruct (String.eqb (fst d) (fst e)) eqn:E; [apply String.eqb_eq in E; exfalso; apply Hm; rewrite <- E; apply in_map; exact Hd|]. exact (IH u Hu Ht d Hd). }
    apply map_ext_in. intros d Hd. destruct (E d Hd) as [i [-> Hi]]. destruct (i <? snd d) eqn:E1; [reflexivity|lia].
  Qed.

  Lemma cut_index_slice sv x y : IndexOf exs sv ->
    cut_index (rev adims) (combine exn sv) (x :: y :: map (fun _ => 0) (rev extra)) = (x :: y :: rev sv)%list.
  Proof.
    intros H. pose proof (nodup_split sg Ns) as [Hn [Hd _]]. unfold adims. rewrite rev_on. cbn [cut_index].
    rewrite !dget_combine_None by (intros Hi; destruct (Hd _ Hi); congruence). f_equal. f_equal.
    assert (E : forall l, cut_index l (combine exn sv) (map (fun _ => 0) l) = map (fun d => match dget String.eqb (combine exn sv) (fst d) with Some j => j | None => 0 end) l).
    { induction l as [|d l IH]; [reflexivity|]. cbn [map cut_index]. rewrite IH. destruct (dget _ _ _); f_equal; lia. }
    rewrite E, map_rev. f_equal. transitivity (map (lookup exn sv) exn); [unfold exn; rewrite map_map; reflexivity|]. apply lookup_map; [exact Hn|apply slice_length; exact H].
  Qed.

  Lemma axes_tail : forall i, (i < List.length extra)%nat -> existsb (Nat.eqb (2 + i)) (axes_in (rev (map fst adims)) exn) = true.
  Proof.
    intros i Hi. rewrite <- map_rev. unfold adims. rewrite rev_on. cbn [map].
    destruct (nth_error (map fst (rev extra)) i) as [n|] eqn:E; [|apply nth_error_None in E; rewrite map_length, rev_length in E; lia].
    rewrite (axes_in_nth (fst (rg_x sg) :: fst (rg_y sg) :: map fst (rev extra)) _ (2 + i) n E). apply str_mem_In. apply nth_error_In in E. rewrite map_rev in E. apply in_rev in E. exact E.
  Qed.
  Lemma axes_head i : (i < 2)%nat -> existsb (Nat.eqb i) (axes_in (rev (map fst adims)) exn) = false.
  Proof.
    intros Hi. pose proof (nodup_split sg Ns) as [Hn [Hd _]]. rewrite <- map_rev. unfold adims. rewrite rev_on. cbn [map].
    destruct i as [|[|i]]; [| |lia].
    - erewrite axes_in_nth by reflexivity. apply str_mem_nIn. intros Hi'. destruct (Hd _ Hi'); congruence.
    - erewrite axes_in_nth by reflexivity. apply str_mem_nIn. intros Hi'. destruct (Hd _ Hi'); congruence.
  Qed.

  Lemma squeeze_slice {A} (a : nd A) : nd_shape a = (rg_nx sg :: rg_ny sg :: map (fun _ => 1) (rev extra))%list ->
    exists q, np_squeeze (axes_in (rev (map fst adims)) exn) a = Ok q /\ nd_shape q = [rg_nx sg; rg_ny sg] /\
      forall x y, nd_at q [x; y] = nd_at a (x :: y :: map (fun _ => 0) (rev extra)).
  Proof.
    intros Hs. unfold np_squeeze. rewrite Hs.
    assert (Hf : forallb (fun a0 : nat => match nth_error (rg_nx sg :: rg_ny sg :: map (fun _ : string * Z => 1) (rev extra)) a0 with Some n => n =? 1 | None => false end) (axes_in (rev (map fst adims)) exn) = true).
    { apply forallb_forall. intros k Hk. destruct (axes_in_bound _ _ _ Hk) as [n [H1 H2]].
      destruct k as [|[|k]].
      - exfalso. pose proof (axes_head 0 ltac:(lia)) as H. rewrite (axes_in_nth _ _ _ _ H1) in H. apply str_mem_nIn in H. tauto.
      - exfalso. pose proof (axes_head 1 ltac:(lia)) as H. rewrite (axes_in_nth _ _ _ _ H1) in H. apply str_mem_nIn in H. tauto.
      - rewrite <- map_rev in H1. unfold adims in H1. rewrite rev_on in H1. cbn [map nth_error] in *. rewrite nth_error_map in *.
        destruct (nth_error (rev extra) k); [reflexivity|discriminate]. }
    rewrite Hf. eexists. split; [reflexivity|]. cbn [nd_shape nd_at].
    assert (Ht : forall i : nat, (i < List.length (map (fun _ : string * Z => 1%Z) (rev extra)))%nat -> existsb (Nat.eqb (2 + i)) (axes_in (rev (map fst adims)) exn) = true).
    { intros i Hi. apply axes_tail. rewrite map_length, rev_length in Hi. exact Hi. }
    split.
    - cbn [drop_axes]. rewrite !axes_head by lia. rewrite drop_all by exact Ht. reflexivity.
    - intros x y. cbn [add_axes]. rewrite !axes_head by lia. rewrite add_all by exact Ht. rewrite map_map. reflexivity.
  Qed.

  Lemma within_split f : Within (extra ++ rg_dims sg) f <-> Within extra f /\ IsCell sg (cell_of sg f).
  Proof.
    unfold Within. rewrite Forall_app, is_cell. apply and_iff_compat_l. unfold rg_dims, cell_of, rg_nx, rg_ny. split.
    - intros H. inversion H as [|? ? H1 H2]; subst. inversion H2 as [|? ? H3 _]; subst. eexists _, _. split; [reflexivity|]. tauto.
    - intros [x [y [E [H1 H2]]]]. injection E as <- <-. constructor; [exact H2|]. constructor; [exact H1|constructor].
  Qed.

  Lemma env_within sv c : IndexOf exs sv -> IsCell sg c -> Within adims (env sv c) /\ cell_of sg (env sv c) = c /\ map (env sv c) exn = sv.
  Proof.
    intros H Hc. pose proof (nodup_split sg Ns) as [Hn [Hd Hxy]]. apply is_cell in Hc. destruct Hc as [x [y [-> [Hx Hy]]]].
    assert (E1 : cell_of sg (env sv [x; y]) = [x; y]).
    { unfold cell_of, env, at_cell. rewrite !String.eqb_refl. destruct (String.eqb (fst (rg_y sg)) (fst (rg_x sg))) eqn:E; [apply String.eqb_eq in E; congruence|reflexivity]. }
    assert (E2 : map (env sv [x; y]) exn = sv).
    { transitivity (map (lookup exn sv) exn); [|apply lookup_map; [exact Hn|apply slice_length; exact H]]. apply map_ext_in. intros n Hin. destruct (Hd n Hin) as [A B].
      unfold env, at_cell. destruct (String.eqb n (fst (rg_x sg))) eqn:Ea; [apply String.eqb_eq in Ea; congruence|].
      destruct (String.eqb n (fst (rg_y sg))) eqn:Eb; [apply String.eqb_eq in Eb; congruence|reflexivity]. }
    split; [|split; assumption]. apply within_split. rewrite E1. split; [|apply is_cell; eauto].
    unfold Within. apply Forall_forall. intros d Hin. rewrite <- E2 in H. unfold exs, exn in H. rewrite map_map in H.
    set (g := env sv [x; y]) in *. clearbody g. clear -H Hin. induction extra as [|e t IH]; [destruct Hin|]. cbn [map] in H. inversion H; subst. destruct Hin as [<-|Hin]; [assumption|apply IH; assumption].
  Qed.

  Lemma source_slice v bv sv : Source v -> broadcast_variable v (rev (map fst adims)) = Ok bv -> IndexOf exs sv ->
    exists q, source_data sg (rev (map fst adims)) extra bv (Some (combine exn sv)) = Ok q /\ nd_shape q = [rg_nx sg; rg_ny sg] /\
      forall c, IsCell sg c -> nd_at q c = element v (env sv c).
  Proof.
    intros Hv Hb Hsv. destruct (source_variable v Hv) as [bv' [E [Hd [Hs Hat]]]]. rewrite Hb in E. injection E as <-.
    unfold source_data. rewrite Hd. fold exn.
    destruct (squeeze_slice (cut (rev adims) (nv_value bv) (combine exn sv))) as [q [-> [Sq Hq]]]; [cbn [cut nd_shape]; apply cut_shape_slice; exact Hsv|].
    cbn [bind]. destruct (assign_same q _ Sq) as [r [-> [Sr Hr]]]. exists r. split; [reflexivity|]. split; [exact Sr|].
    intros c Hc. rewrite Hr by exact Hc. pose proof Hc as Hc'. apply is_cell in Hc. destruct Hc as [x [y [-> _]]].
    rewrite Hq. cbn [cut nd_at]. rewrite cut_index_slice by exact Hsv. destruct (env_within sv [x; y] Hsv Hc') as [W [C M]].
    rewrite <- (Hat _ W), C, M. reflexivity.
  Qed.

  Lemma source_all v bv : Source v -> broadcast_variable v (rev (map fst adims)) = Ok bv ->
    exists q, source_data sg (rev (map fst adims)) extra bv None = Ok q /\ nd_shape q = ([rg_nx sg; rg_ny sg] ++ rev exs)%list /\
      forall c sv, IsCell sg c -> IndexOf exs sv -> nd_at q (c ++ rev sv) = element v (env sv c).
  Proof.
    intros Hv Hb. destruct (source_variable v Hv) as [bv' [E [Hd [Hs Hat]]]]. rewrite Hb in E. injection E as <-.
    unfold source_data. fold exs.
    assert (Hs' : nd_shape (nv_value bv) = ([rg_nx sg; rg_ny sg] ++ rev exs)%list).
    { rewrite Hs. unfold adims. rewrite rev_on. cbn [map app]. unfold exs. rewrite map_rev. reflexivity. }
    destruct (assign_same _ _ Hs') as [r [-> [Sr Hr]]]. exists r. split; [reflexivity|]. split; [exact Sr|].
    intros c sv Hc Hsv. rewrite Hr.
    - destruct (env_within sv c Hsv Hc) as [W [C M]]. rewrite <- (Hat _ W), C, M. reflexivity.
    - apply Forall2_app; [exact Hc|]. apply index_rev; exact Hsv.
  Qed.

  (** *** What the weights give. *)
  Lemma total_hits ws c value : total ws c value = zsum (map (fun w => w_val w * value (w_src w)) (hits ws c)).
  Proof.
    induction ws as [|w t IH]; [reflexivity|]. cbn [total hits filter]. fold (hits t c). rewrite IH.
    destruct (list_eq_dec Z.eq_dec (w_dst w) c) as [E|E].
    - rewrite (proj2 (listZ_eqb_eq _ _) E). reflexivity.
    - destruct (listZ_eqb (w_dst w) c) eqn:E'; [apply listZ_eqb_eq in E'; tauto|lia].
  Qed.
  Lemma reached_hits ws c : Reached ws c <-> hits ws c <> [].
  Proof.
    unfold Reached, hits. split.
    - intros [w [Hw Hc]] E. assert (H : In w (filter (fun w0 => listZ_eqb (w_dst w0) c) ws)) by (apply filter_In; split; [exact Hw|apply listZ_eqb_eq; exact Hc]). rewrite E in H. exact H.
    - intros H. destruct (filter (fun w => listZ_eqb (w_dst w) c) ws) as [|w t] eqn:E; [congruence|].
      assert (Hw : In w (filter (fun w0 => listZ_eqb (w_dst w0) c) ws)) by (rewrite E; left; reflexivity).
      apply filter_In in Hw. destruct Hw as [Hw Hc]. exists w. split; [exact Hw|apply listZ_eqb_eq; exact Hc].
  Qed.

  Definition newval (ws : list weight) (v : nvar Z) (fv : Z) (sv c : list Z) : Z :=
    match hits ws c with [] => fv | _ => total ws c (fun s => element v (env sv s)) end.

  Lemma regrid_cells ws v fv (q d : nd Z) u sv c : (forall w, In w ws -> IsCell sg (w_src w)) ->
    (forall c', IsCell sg c' -> nd_at q (c' ++ u) = element v (env sv c')) ->
    match hits ws c with [] => fv | hs => zsum (map (fun w => w_val w * nd_at q (w_src w ++ u)) hs) end = newval ws v fv sv c.
  Proof.
    intros Hws Hq. unfold newval. rewrite total_hits. destruct (hits ws c) as [|w t] eqn:E; [reflexivity|].
    f_equal. apply map_ext_in. intros w' Hw'. rewrite Hq; [reflexivity|]. apply Hws. rewrite <- E in Hw'. apply filter_In in Hw'. exact (proj1 Hw').
  Qed.

  Definition Usable (ws : list weight) (v : nvar Z) (fv : Z) (sv : list Z) : Prop := exists c, IsCell dg c /\ newval ws v fv sv c <> fv.

  (** *** The destination variable while it is filled. *)
  Let ddims := (extra ++ rg_dims dg)%list.
  Definition Filling (ws : list weight) (v : nvar Z) (fill fv : Z) (done : list (list Z)) (cur : nvar Z) : Prop :=
    nv_dims cur = rev ddims /\ nd_shape (nv_value cur) = map snd (rev ddims) /\
    match nv_mask cur with
    | Some m => nd_shape m = map snd (rev ddims) /\
                forall c sv, IsCell dg c -> IndexOf exs sv -> nd_at m (c ++ rev sv) = if in_dec (list_eq_dec Z.eq_dec) sv done then newval ws v fv sv c =? fv else false
    | None => done = []
    end /\
    forall c sv, IsCell dg c -> IndexOf exs sv -> nd_at (nv_value cur) (c ++ rev sv) = if in_dec (list_eq_dec Z.eq_dec) sv done then newval ws v fv sv c else fill.

  Lemma matches_slice sv u : matches (map Some sv) u = listZ_eqb u sv.
  Proof.
    revert u. induction sv as [|a t IH]; intros [|i u]; cbn [map matches listZ_eqb]; try reflexivity. rewrite IH. reflexivity.
  Qed.

  Lemma template_slice sv : IndexOf exs sv ->
    map (fun d : string * Z => if str_mem (fst d) (rg_names dg) then None else dget String.eqb (combine exn sv) (fst d)) (rev ddims) = (None :: None :: map Some (rev sv))%list.
  Proof.
    intros H. pose proof (nodup_split dg Nd) as [Hn [Hd _]]. unfold ddims. rewrite rev_on. cbn [map].
    assert (E1 : str_mem (fst (rg_x dg)) (rg_names dg) = true) by (apply str_mem_In; right; left; reflexivity).
    assert (E2 : str_mem (fst (rg_y dg)) (rg_names dg) = true) by (apply str_mem_In; left; reflexivity).
    rewrite E1, E2. f_equal. f_equal. rewrite !map_rev. f_equal. rewrite <- (dget_combine exn Hn sv) by (apply slice_length; exact H).
    unfold exn. rewrite map_map. apply map_ext_in. intros d Hin.
    destruct (str_mem (fst d) (rg_names dg)) eqn:E; [|reflexivity]. apply str_mem_In in E. destruct (Hd (fst d)) as [A B]; [apply in_map; exact Hin|].
    exfalso. destruct E as [E|[E|[]]]; congruence.
  Qed.

  Lemma shape_on : map snd (rev ddims) = ([rg_nx dg; rg_ny dg] ++ rev exs)%list.
  Proof. unfold ddims. rewrite rev_on. cbn [map app]. unfold exs. rewrite map_rev. reflexivity. Qed.

  Lemma index_on idx : IndexOf (map snd (rev ddims)) idx -> exists c sv, idx = (c ++ rev sv)%list /\ IsCell dg c /\ IndexOf exs sv.
  Proof.
    rewrite shape_on. intros H. apply Forall2_app_inv_l in H. destruct H as [c [u [Hc [Hu ->]]]]. exists c, (rev u).
    rewrite rev_involutive. split; [reflexivity|]. split; [exact Hc|]. rewrite <- (rev_involutive exs). apply index_rev. exact Hu.
  Qed.

  Lemma fill_step ws v fv fill split bv done cur sv : Source v -> broadcast_variable v (rev (map fst adims)) = Ok bv ->
    (forall w, In w ws -> IsCell sg (w_src w)) -> IndexOf exs sv -> Usable ws v fv sv -> split = true -> Filling ws v fill fv done cur ->
    exists cur', regrid_step ws sg dg (rev (map fst adims)) extra extra split bv fv cur (Some (combine exn sv)) = Ok cur' /\ Filling ws v fill fv (sv :: done) cur'.
  Proof.
    intros Hv Hb Hws Hsv [c0 [Hc0 Hn0]] -> [Fd [Fs [Fm Fv]]]. unfold regrid_step.
    destruct (source_slice v bv sv Hv Hb Hsv) as [q [-> [Sq Hq]]]. cbn [bind app].
    unfold esmf_regrid. rewrite Sq. cbn [nd_shape skipn listZ_eqb bind].
    set (e := mknd [rg_nx dg; rg_ny dg] _).
    assert (He : forall c, IsCell dg c -> nd_at e c = newval ws v fv sv c).
    { intros c Hc. unfold e. cbn [nd_at]. apply is_cell in Hc. destruct Hc as [x [y [-> _]]]. cbn [firstn skipn].
      apply regrid_cells; [exact q|exact Hws|]. intros c' Hc'. rewrite app_nil_r. apply Hq; exact Hc'. }
    change (nd_shape e) with [rg_nx dg; rg_ny dg].
    destruct (forallb (fun idx => nd_at e idx =? fv) (indices [rg_nx dg; rg_ny dg])) eqn:Ef.
    { exfalso. rewrite forallb_forall in Ef. specialize (Ef c0 ltac:(apply in_indices; exact Hc0)). rewrite (He c0 Hc0) in Ef. lia. }
    eexists. split; [reflexivity|]. unfold set_slice. rewrite Fd, (template_slice sv Hsv). unfold nv_shape. rewrite Fd.
    assert (Hmatch : forall c sv', IsCell dg c -> IndexOf exs sv' -> matches (None :: None :: map Some (rev sv)) (c ++ rev sv') = if list_eq_dec Z.eq_dec sv sv' then true else false).
    { intros c sv' Hc Hsv'. apply is_cell in Hc. destruct Hc as [x [y [-> _]]]. cbn [app matches]. rewrite matches_slice.
      destruct (list_eq_dec Z.eq_dec sv sv') as [->|Hne]; [apply listZ_eqb_refl|]. destruct (listZ_eqb (rev sv') (rev sv)) eqn:E; [|reflexivity].
      apply listZ_eqb_eq in E. exfalso. apply Hne. rewrite <- (rev_involutive sv), <- E, rev_involutive. reflexivity. }
    assert (Hfirst : forall c sv', IsCell dg c -> firstn 2 (c ++ rev sv') = c).
    { intros c sv' Hc. apply is_cell in Hc. destruct Hc as [x [y [-> _]]]. reflexivity. }
    unfold Filling. cbn [nv_dims nv_value nv_mask nd_shape nd_at]. split; [reflexivity|]. split; [reflexivity|]. split.
    - split; [reflexivity|]. intros c sv' Hc Hsv'. rewrite (Hmatch c sv' Hc Hsv'), (Hfirst c sv' Hc).
      destruct (list_eq_dec Z.eq_dec sv sv') as [<-|Hne].
      + rewrite He by exact Hc. destruct (in_dec (list_eq_dec Z.eq_dec) sv (sv :: done)) as [_|N]; [reflexivity|exfalso; apply N; left; reflexivity].
      + assert (Hold : nd_at (match nv_mask cur with Some m => m | None => zeros (map snd (rev ddims)) end) (c ++ rev sv') = if in_dec (list_eq_dec Z.eq_dec) sv' done then newval ws v fv sv' c =? fv else false).
        { destruct (nv_mask cur) as [m|]; [apply (proj2 Fm); assumption|]. subst done. reflexivity. }
        rewrite Hold. destruct (in_dec (list_eq_dec Z.eq_dec) sv' done) as [I|N], (in_dec (list_eq_dec Z.eq_dec) sv' (sv :: done)) as [I'|N']; try reflexivity.
        * exfalso. apply N'. right; exact I.
        * exfalso. destruct I' as [E|I']; [tauto|tauto].
    - intros c sv' Hc Hsv'. rewrite (Hmatch c sv' Hc Hsv'), (Hfirst c sv' Hc).
      destruct (list_eq_dec Z.eq_dec sv sv') as [<-|Hne].
      + rewrite He by exact Hc. destruct (in_dec (list_eq_dec Z.eq_dec) sv (sv :: done)) as [_|N]; [reflexivity|exfalso; apply N; left; reflexivity].
      + rewrite Fv by assumption. destruct (in_dec (list_eq_dec Z.eq_dec) sv' done) as [I|N], (in_dec (list_eq_dec Z.eq_dec) sv' (sv :: done)) as [I'|N']; try reflexivity.
        * exfalso. apply N'. right; exact I.
        * exfalso. destruct I' as [E|I']; tauto.
  Qed.

  Lemma fill_all ws v fv fill bv : Source v -> broadcast_variable v (rev (map fst adims)) = Ok bv ->
    (forall w, In w ws -> IsCell sg (w_src w)) -> forall l done cur, (forall sv, In sv l -> IndexOf exs sv /\ Usable ws v fv sv) ->
    Filling ws v fill fv done cur ->
    exists cur' done', fold_res (regrid_step ws sg dg (rev (map fst adims)) extra extra true bv fv) (map Some (map (fun idx => combine exn idx) l)) cur = Ok cur' /\
      Filling ws v fill fv done' cur' /\ (forall sv, In sv done' <-> In sv l \/ In sv done).
  Proof.
    intros Hv Hb Hws. induction l as [|sv l IH]; intros done cur Hl HF.
    - exists cur, done. split; [reflexivity|]. split; [exact HF|]. intros s. split; [tauto|]. intros [[]|H]; exact H.
    - destruct (Hl sv (or_introl eq_refl)) as [H1 H2].
      destruct (fill_step ws v fv fill true bv done cur sv Hv Hb Hws H1 H2 eq_refl HF) as [cur1 [E HF1]].
      destruct (IH (sv :: done) cur1) as [cur' [done' [E' [HF' Hin]]]]; [intros s Hs; apply Hl; right; exact Hs|exact HF1|].
      exists cur', done'. cbn [map fold_res]. rewrite E. cbn [bind]. split; [exact E'|]. split; [exact HF'|]. intros s. rewrite Hin. cbn [In]. tauto.
  Qed.

  (** *** The end: back to the Python order of dimensions. *)
  Lemma good_on (cur : nvar Z) : nv_dims cur = rev ddims -> nd_shape (nv_value cur) = map snd (rev ddims) ->
    match nv_mask cur with Some m => nd_shape m = map snd (rev ddims) | None => True end -> GoodVar cur.
  Proof.
    intros Hd Hs Hm. unfold GoodVar, nv_names, nv_shape. rewrite Hd. split; [rewrite map_rev; apply NoDup_rev; exact Nd|]. split; [|split; [exact Hs|exact Hm]].
    rewrite shape_on. destruct Gd as [Hx [Hy _]]. cbn [app]. constructor; [lia|]. constructor; [lia|]. apply Forall_rev. apply Forall_map. eapply Forall_impl; [|exact Pe]. cbn beta. intros; lia.
  Qed.

  Lemma back_order (cur : nvar Z) (val : list Z -> list Z -> Z) (hid : list Z -> list Z -> bool) :
    nv_dims cur = rev ddims -> nd_shape (nv_value cur) = map snd (rev ddims) ->
    match nv_mask cur with Some m => nd_shape m = map snd (rev ddims) | None => True end ->
    (forall c sv, IsCell dg c -> IndexOf exs sv -> nd_at (nv_value cur) (c ++ rev sv) = val sv c /\ masked cur (c ++ rev sv) = hid sv c) ->
    exists out, broadcast_variable cur (rev (map fst (rev ddims))) = Ok out /\ nv_dims out = ddims /\ GoodVar out /\
      forall f, Within ddims f -> element out f = val (map f exn) (cell_of dg f) /\ hidden_at out f = hid (map f exn) (cell_of dg f).
  Proof.
    intros Hd Hs Hm Hat. pose proof (good_on cur Hd Hs Hm) as Hg.
    assert (En : rev (map fst (rev ddims)) = map fst ddims) by (rewrite map_rev, rev_involutive; reflexivity). rewrite En.
    assert (Hn : nv_names cur = rev (map fst ddims)) by (unfold nv_names; rewrite Hd, map_rev; reflexivity).
    assert (Hsn : SameNames (nv_names cur) (map fst ddims)).
    { rewrite Hn. split; [apply NoDup_rev; exact Nd|]. split; [exact Nd|]. intros n. rewrite <- in_rev. tauto. }
    destruct (broadcast_variable_spec cur (map fst ddims) Hg Hsn) as [out [E [Hgo [Hdo [Hv Hmo]]]]].
    assert (Hsz : forall d, In d ddims -> dsize (nv_dims cur) (fst d) = snd d).
    { intros [n k] Hin. unfold dsize. rewrite (dget_In _ n k); [reflexivity|exact (proj1 Hg)|]. rewrite Hd. apply in_rev in Hin. exact Hin. }
    assert (Hdims : nv_dims out = ddims).
    { rewrite Hdo, map_map. transitivity (map (fun d : string * Z => d) ddims); [|apply map_id]. apply map_ext_in. intros d Hin. rewrite (Hsz d Hin). destruct d; reflexivity. }
    exists out. split; [exact E|]. split; [exact Hdims|]. split; [exact Hgo|]. intros f Hf.
    assert (Hrange : forall n, In n (map fst ddims) -> 0 <= f n < dsize (nv_dims cur) n).
    { intros n Hin. apply in_map_iff in Hin. destruct Hin as [d [<- Hin]]. rewrite (Hsz d Hin). unfold Within in Hf. rewrite Forall_forall in Hf. exact (Hf d Hin). }
    assert (Hidx : map f (nv_names cur) = (cell_of dg f ++ rev (map f exn))%list) by (rewrite Hn; apply map_cell_of).
    assert (Hcell : IsCell dg (cell_of dg f) /\ IndexOf exs (map f exn)).
    { unfold Within, ddims in Hf. apply Forall_app in Hf. destruct Hf as [Hf1 Hf2]. split.
      - inversion Hf2 as [|? ? H1 H2]; subst. inversion H2 as [|? ? H3 _]; subst. constructor; [exact H3|]. constructor; [exact H1|constructor].
      - unfold exs, exn. rewrite map_map. clear -Hf1. induction Hf1; cbn [map]; constructor; assumption. }
    destruct (Hat _ _ (proj1 Hcell) (proj2 Hcell)) as [A B].
    assert (Hno : nv_names out = map fst ddims) by (unfold nv_names; rewrite Hdims; reflexivity).
    unfold element, hidden_at, masked. rewrite Hno. split; [rewrite (Hv f Hrange), Hidx; exact A|].
    unfold masked in B. destruct (nv_mask cur) as [m|], (nv_mask out) as [m'|]; try contradiction.
    - rewrite (Hmo f Hrange), Hidx. exact B.
    - exact B.
  Qed.

  (** *** One data variable. *)
  Lemma env_same v f s : Source v -> Within extra f -> element v (env (map f exn) s) = element v (at_cell sg f s).
  Proof.
    intros [Hg Hd] Hf. unfold element. f_equal. apply map_ext_in. intros n Hn. unfold env, at_cell.
    destruct (String.eqb n (fst (rg_x sg))) eqn:E1; [reflexivity|]. destruct (String.eqb n (fst (rg_y sg))) eqn:E2; [reflexivity|].
    unfold nv_names in Hn. apply in_map_iff in Hn. destruct Hn as [d [<- Hin]]. apply Hd in Hin. unfold adims in Hin. apply in_app_iff in Hin.
    destruct Hin as [Hin|Hin].
    - pose proof (nodup_split sg Ns) as [Hn _]. pose proof (lookup_map exn Hn (map f exn) ltac:(rewrite map_length; reflexivity)) as E.
      assert (Hx : forall l, map (lookup exn (map f exn)) l = map f l -> forall n, In n l -> lookup exn (map f exn) n = f n).
      { induction l as [|a t IH]; intros Hm n [].
        - subst a. injection Hm as H1 _. exact H1.
        - injection Hm as _ H2. apply IH; assumption. }
      apply (Hx exn E). apply in_map. exact Hin.
    - exfalso. destruct Hin as [<-|[<-|[]]]; [rewrite String.eqb_refl in E2; discriminate|rewrite String.eqb_refl in E1; discriminate].
  Qed.

  Lemma total_ext ws c (f g : list Z -> Z) : (forall s, f s = g s) -> total ws c f = total ws c g.
  Proof. intros H. induction ws as [|w t IH]; [reflexivity|]. cbn [total]. rewrite H, IH. reflexivity. Qed.

  Lemma newval_spec ws v fv f c : Source v -> Within extra f ->
    (Reached ws c -> newval ws v fv (map f exn) c = total ws c (fun s => element v (at_cell sg f s))) /\
    (~ Reached ws c -> newval ws v fv (map f exn) c = fv).
  Proof.
    intros Hv Hf. rewrite reached_hits. unfold newval. destruct (hits ws c) as [|w t].
    - split; [congruence|reflexivity].
    - split; [|intros H; exfalso; apply H; discriminate]. intros _. apply total_ext. intros s. apply env_same; assumption.
  Qed.

  Lemma slice_function sv : IndexOf exs sv -> exists f, Within extra f /\ map f exn = sv.
  Proof.
    intros H. exists (lookup exn sv). pose proof (nodup_split sg Ns) as [Hn _].
    assert (E : map (lookup exn sv) exn = sv) by (apply lookup_map; [exact Hn|apply slice_length; exact H]). split; [|exact E].
    rewrite <- E in H. unfold exs, exn in H. rewrite map_map in H. apply index_within. exact H.
  Qed.

  Lemma overlap_usable ws fill_value v : Source (rv_var v) -> Overlap ws sg dg extra fill_value v ->
    forall sv, IndexOf exs sv -> Usable ws (rv_var v) (fv_of fill_value v) sv.
  Proof.
    intros Hv Ho sv H. destruct (slice_function sv H) as [f [Hf <-]]. destruct (Ho f Hf) as [c [Hc [Hr Hn]]]. exists c. split; [exact Hc|].
    rewrite (proj1 (newval_spec ws (rv_var v) (fv_of fill_value v) f c Hv Hf) Hr). exact Hn.
  Qed.

  Lemma regridded_from ws v fv out (marks : bool) : Source v -> nv_dims out = ddims -> GoodVar out ->
    (forall f, Within ddims f -> element out f = newval ws v fv (map f exn) (cell_of dg f) /\ hidden_at out f = marks && (newval ws v fv (map f exn) (cell_of dg f) =? fv)) ->
    Regridded ws sg dg extra fv marks v out.
  Proof.
    intros Hv Hd Hg Hat. split; [exact Hd|]. split; [exact Hg|]. rewrite Hd. intros f Hf. destruct (Hat f Hf) as [Ev Eh].
    assert (Hf' : Within extra f) by (unfold Within, ddims in Hf; apply Forall_app in Hf; exact (proj1 Hf)).
    destruct (newval_spec ws v fv f (cell_of dg f) Hv Hf') as [A B]. rewrite Eh, Ev. split; [exact A|]. split; [exact B|reflexivity].
  Qed.

  Lemma variable_split ws fill_value v : Source (rv_var v) -> (forall w, In w ws -> IsCell sg (w_src w)) -> Overlap ws sg dg extra fill_value v ->
    exists v', regrid_variable ws sg dg (map fst adims) extra extra true (map Some (iter_dict_slices extra)) fill_value v = Ok v' /\
      rv_name v' = rv_name v /\ rv_fill v' = rv_fill v /\ Regridded ws sg dg extra (fv_of fill_value v) true (rv_var v) (rv_var v').
  Proof.
    intros Hv Hws Ho. unfold regrid_variable. destruct (source_variable (rv_var v) Hv) as [bv [Hb _]]. rewrite Hb. cbn [bind]. fold (fv_of fill_value v). fold ddims.
    set (cur := mknvar (rev ddims) (mknd (map snd (rev ddims)) (fun _ => rv_fill v)) None).
    assert (HF : Filling ws (rv_var v) (rv_fill v) (fv_of fill_value v) [] cur).
    { split; [reflexivity|]. split; [reflexivity|]. split; [reflexivity|]. intros c sv _ _. cbn [cur nv_value nd_at]. destruct (in_dec _ sv []) as [[]|]; reflexivity. }
    destruct (fill_all ws (rv_var v) (fv_of fill_value v) (rv_fill v) bv Hv Hb Hws (indices exs) [] cur) as [cur' [done' [E [[Fd [Fs [Fm Fv]]] Hin]]]]; [|exact HF|].
    { intros sv Hsv. apply in_indices in Hsv. split; [exact Hsv|]. apply (overlap_usable ws fill_value v Hv Ho sv Hsv). }
    unfold iter_dict_slices. fold exn exs. rewrite E. cbn [bind].
    assert (Hdone : forall sv, IndexOf exs sv -> In sv done') by (intros sv Hsv; apply Hin; left; apply in_indices; exact Hsv).
    assert (Hex : exists sv, IndexOf exs sv).
    { exists (map (fun _ => 0) extra). apply zero_index. exact Pe. }
    destruct (nv_mask cur') as [m|] eqn:Em; [|subst done'; destruct Hex as [sv Hsv]; destruct (Hdone sv Hsv)].
    destruct (back_order cur' (newval ws (rv_var v) (fv_of fill_value v)) (fun sv c => newval ws (rv_var v) (fv_of fill_value v) sv c =? fv_of fill_value v)) as [out [Eo [Do [Go Ao]]]];
      [exact Fd|exact Fs|rewrite Em; exact (proj1 Fm)| |].
    { intros c sv Hc Hsv. unfold masked. rewrite Em, Fv, (proj2 Fm) by assumption.
      destruct (in_dec (list_eq_dec Z.eq_dec) sv done') as [_|N]; [split; reflexivity|exfalso; apply N; apply Hdone; exact Hsv]. }
    rewrite Eo. cbn [bind]. eexists. split; [reflexivity|]. cbn [rv_name rv_fill rv_var]. split; [reflexivity|]. split; [reflexivity|].
    apply regridded_from; [exact Hv|exact Do|exact Go|]. intros f Hf. destruct (Ao f Hf) as [-> ->]. split; reflexivity.
  Qed.

  Lemma variable_bulk ws fill_value v : Source (rv_var v) -> (forall w, In w ws -> IsCell sg (w_src w)) ->
    (exists sv, IndexOf exs sv /\ Usable ws (rv_var v) (fv_of fill_value v) sv) ->
    exists v', regrid_variable ws sg dg (map fst adims) extra extra false [None] fill_value v = Ok v' /\
      rv_name v' = rv_name v /\ rv_fill v' = rv_fill v /\ Regridded ws sg dg extra (fv_of fill_value v) false (rv_var v) (rv_var v').
  Proof.
    intros Hv Hws [sv0 [Hsv0 [c0 [Hc0 Hn0]]]]. unfold regrid_variable. destruct (source_variable (rv_var v) Hv) as [bv [Hb _]]. rewrite Hb. cbn [bind]. fold (fv_of fill_value v). fold ddims.
    cbn [fold_res]. unfold regrid_step at 1. destruct (source_all (rv_var v) bv Hv Hb) as [q [-> [Sq Hq]]]. cbn [bind].
    unfold esmf_regrid. rewrite Sq. cbn [nd_shape app skipn]. fold exs. rewrite listZ_eqb_refl. cbn [bind].
    set (e := mknd (rg_nx dg :: rg_ny dg :: rev exs) _).
    assert (He : forall c sv, IsCell dg c -> IndexOf exs sv -> nd_at e (c ++ rev sv) = newval ws (rv_var v) (fv_of fill_value v) sv c).
    { intros c sv Hc Hsv. unfold e. cbn [nd_at]. apply is_cell in Hc. destruct Hc as [x [y [-> _]]]. cbn [firstn skipn app].
      apply regrid_cells; [exact q|exact Hws|]. intros c' Hc'. apply Hq; assumption. }
    change (nd_shape e) with (rg_nx dg :: rg_ny dg :: rev exs)%list.
    destruct (forallb (fun idx => nd_at e idx =? fv_of fill_value v) (indices (rg_nx dg :: rg_ny dg :: rev exs))) eqn:Ef.
    { exfalso. rewrite forallb_forall in Ef. specialize (Ef (c0 ++ rev sv0)%list).
      rewrite (He c0 sv0 Hc0 Hsv0) in Ef. apply Hn0. apply Z.eqb_eq. apply Ef. apply in_indices. change (rg_nx dg :: rg_ny dg :: rev exs)%list with ([rg_nx dg; rg_ny dg] ++ rev exs)%list.
      apply Forall2_app; [exact Hc0|apply index_rev; exact Hsv0]. }
    unfold nv_shape. cbn [nv_dims nv_mask]. destruct (assign_same e (map snd (rev ddims))) as [r [-> [Sr Hr]]]; [rewrite shape_on; reflexivity|]. cbn [bind].
    destruct (back_order (mknvar (rev ddims) r None) (newval ws (rv_var v) (fv_of fill_value v)) (fun _ _ => false)) as [out [Eo [Do [Go Ao]]]]; [reflexivity|exact Sr|exact I| |].
    { intros c sv Hc Hsv. cbn [nv_value]. split; [|reflexivity]. rewrite Hr, He; [reflexivity|exact Hc|exact Hsv|].
      rewrite shape_on. apply Forall2_app; [exact Hc|apply index_rev; exact Hsv]. }
    rewrite Eo. cbn [bind]. eexists. split; [reflexivity|]. cbn [rv_name rv_fill rv_var]. split; [reflexivity|]. split; [reflexivity|].
    apply regridded_from; [exact Hv|exact Do|exact Go|]. intros f Hf. destruct (Ao f Hf) as [-> ->]. split; reflexivity.
  Qed.

  (** *** Slices without overlap. *)
  Lemma usable_dec ws v fv sv : Usable ws v fv sv \/ ~ Usable ws v fv sv.
  Proof.
    destruct (existsb (fun c => negb (newval ws v fv sv c =? fv)) (indices [rg_nx dg; rg_ny dg])) eqn:E.
    - left. apply existsb_exists in E. destruct E as [c [Hc E]]. apply in_indices in Hc. exists c. split; [exact Hc|]. intros H. rewrite H, Z.eqb_refl in E. discriminate.
    - right. intros [c [Hc Hn]]. assert (H : existsb (fun c => negb (newval ws v fv sv c =? fv)) (indices [rg_nx dg; rg_ny dg]) = true); [|congruence].
      apply existsb_exists. exists c. split; [apply in_indices; exact Hc|]. destruct (newval ws v fv sv c =? fv) eqn:E'; [lia|reflexivity].
  Qed.
  Lemma usable_overlap ws v fv f : Source v -> Within extra f ->
    Usable ws v fv (map f exn) <-> exists c, IsCell dg c /\ Reached ws c /\ total ws c (fun s => element v (at_cell sg f s)) <> fv.
  Proof.
    intros Hv Hf. split.
    - intros [c [Hc Hn]]. exists c. split; [exact Hc|]. destruct (newval_spec ws v fv f c Hv Hf) as [A B].
      assert (Hr : Reached ws c). { apply reached_hits. intros E. apply Hn. unfold newval. rewrite E. reflexivity. }
      split; [exact Hr|]. rewrite <- (A Hr). exact Hn.
    - intros [c [Hc [Hr Hn]]]. exists c. split; [exact Hc|]. rewrite (proj1 (newval_spec ws v fv f c Hv Hf) Hr). exact Hn.
  Qed.
  Lemma overlap_all ws fill_value v : Source (rv_var v) ->
    Overlap ws sg dg extra fill_value v <-> forall sv, In sv (indices exs) -> Usable ws (rv_var v) (fv_of fill_value v) sv.
  Proof.
    intros Hv. split.
    - intros Ho sv Hsv. apply in_indices in Hsv. apply overlap_usable; assumption.
    - intros H f Hf. apply usable_overlap; [exact Hv|exact Hf|]. apply H. apply in_indices. unfold exs, exn. rewrite map_map. apply within_index. exact Hf.
  Qed.
  Lemma overlap_some ws fill_value v : Source (rv_var v) ->
    SomeOverlap ws sg dg extra fill_value v <-> exists sv, In sv (indices exs) /\ Usable ws (rv_var v) (fv_of fill_value v) sv.
  Proof.
    intros Hv. split.
    - intros [f [c [Hf H]]]. exists (map f exn). split; [apply in_indices; unfold exs, exn; rewrite map_map; apply within_index; exact Hf|]. apply usable_overlap; [exact Hv|exact Hf|]. exists c. exact H.
    - intros [sv [Hsv Hu]]. apply in_indices in Hsv. destruct (slice_function sv Hsv) as [f [Hf <-]]. apply usable_overlap in Hu; [|exact Hv|exact Hf]. destruct Hu as [c Hc]. exists f, c. split; [exact Hf|exact Hc].
  Qed.
  Lemma list_dec {A} (P : A -> Prop) l : (forall a, P a \/ ~ P a) -> (forall a, In a l -> P a) \/ exists a, In a l /\ ~ P a.
  Proof.
    intros D. induction l as [|a t IH]; [left; intros a []|]. destruct (D a) as [Ha|Ha]; [|right; exists a; split; [left; reflexivity|exact Ha]].
    destruct IH as [H|[b [Hb H]]]; [left; intros b [<-|Hb]; auto|right; exists b; split; [right; exact Hb|exact H]].
  Qed.
  Lemma overlaps_dec every ws fill_value v : Source (rv_var v) -> Overlaps every ws sg dg extra fill_value v \/ ~ Overlaps every ws sg dg extra fill_value v.
  Proof.
    intros Hv. destruct every; cbn [Overlaps].
    - rewrite (overlap_all ws fill_value v Hv). destruct (list_dec (Usable ws (rv_var v) (fv_of fill_value v)) (indices exs) (usable_dec ws _ _)) as [H|[sv [Hs H]]]; [left; exact H|right; intros H'; apply H, H', Hs].
    - rewrite (overlap_some ws fill_value v Hv). destruct (list_dec (fun sv => ~ Usable ws (rv_var v) (fv_of fill_value v) sv) (indices exs)) as [H|[sv [Hs H]]].
      + intros sv. destruct (usable_dec ws (rv_var v) (fv_of fill_value v) sv); tauto.
      + right. intros [sv [Hs Hu]]. exact (H sv Hs Hu).
      + left. exists sv. split; [exact Hs|]. destruct (usable_dec ws (rv_var v) (fv_of fill_value v) sv); tauto.
  Qed.

  Lemma step_fail ws v fv bv cur sv : Source v -> broadcast_variable v (rev (map fst adims)) = Ok bv ->
    (forall w, In w ws -> IsCell sg (w_src w)) -> IndexOf exs sv -> ~ Usable ws v fv sv ->
    regrid_step ws sg dg (rev (map fst adims)) extra extra true bv fv cur (Some (combine exn sv)) = Err RegriddingError.
  Proof.
    intros Hv Hb Hws Hsv Hn. unfold regrid_step.
    destruct (source_slice v bv sv Hv Hb Hsv) as [q [-> [Sq Hq]]]. cbn [bind app].
    unfold esmf_regrid. rewrite Sq. cbn [nd_shape skipn listZ_eqb bind].
    set (e := mknd [rg_nx dg; rg_ny dg] _).
    assert (He : forall c, IsCell dg c -> nd_at e c = newval ws v fv sv c).
    { intros c Hc. unfold e. cbn [nd_at]. apply is_cell in Hc. destruct Hc as [x [y [-> _]]]. cbn [firstn skipn].
      apply regrid_cells; [exact q|exact Hws|]. intros c' Hc'. rewrite app_nil_r. apply Hq; exact Hc'. }
    change (nd_shape e) with [rg_nx dg; rg_ny dg].
    destruct (forallb (fun idx => nd_at e idx =? fv) (indices [rg_nx dg; rg_ny dg])) eqn:Ef; [reflexivity|]. exfalso.
    assert (H : forallb (fun idx => nd_at e idx =? fv) (indices [rg_nx dg; rg_ny dg]) = true); [|congruence]. apply forallb_forall. intros c Hc. apply in_indices in Hc.
    rewrite (He c Hc). destruct (newval ws v fv sv c =? fv) eqn:E; [reflexivity|]. exfalso. apply Hn. exists c. split; [exact Hc|lia].
  Qed.

  Lemma fill_fail ws v fv fill bv : Source v -> broadcast_variable v (rev (map fst adims)) = Ok bv ->
    (forall w, In w ws -> IsCell sg (w_src w)) -> forall l done cur, (forall sv, In sv l -> IndexOf exs sv) -> (exists sv, In sv l /\ ~ Usable ws v fv sv) ->
    Filling ws v fill fv done cur ->
    fold_res (regrid_step ws sg dg (rev (map fst adims)) extra extra true bv fv) (map Some (map (fun idx => combine exn idx) l)) cur = Err RegriddingError.
  Proof.
    intros Hv Hb Hws. induction l as [|sv l IH]; intros done cur Hl [s [Hs Hn]] HF; [destruct Hs|]. cbn [map fold_res].
    destruct (usable_dec ws v fv sv) as [U|U].
    - destruct (fill_step ws v fv fill true bv done cur sv Hv Hb Hws (Hl sv (or_introl eq_refl)) U eq_refl HF) as [cur1 [E HF1]]. rewrite E. cbn [bind].
      apply (IH (sv :: done)); [intros s' Hs'; apply Hl; right; exact Hs'| |exact HF1]. exists s. split; [|exact Hn]. destruct Hs as [<-|Hs]; [contradiction|exact Hs].
    - rewrite (step_fail ws v fv bv cur sv Hv Hb Hws (Hl sv (or_introl eq_refl)) U). reflexivity.
  Qed.

  Lemma variable_split_fail ws fill_value v : Source (rv_var v) -> (forall w, In w ws -> IsCell sg (w_src w)) -> ~ Overlap ws sg dg extra fill_value v ->
    regrid_variable ws sg dg (map fst adims) extra extra true (map Some (iter_dict_slices extra)) fill_value v = Err RegriddingError.
  Proof.
    intros Hv Hws Ho. unfold regrid_variable. destruct (source_variable (rv_var v) Hv) as [bv [Hb _]]. rewrite Hb. cbn [bind]. fold (fv_of fill_value v). fold ddims.
    set (cur := mknvar (rev ddims) (mknd (map snd (rev ddims)) (fun _ => rv_fill v)) None).
    assert (HF : Filling ws (rv_var v) (rv_fill v) (fv_of fill_value v) [] cur).
    { split; [reflexivity|]. split; [reflexivity|]. split; [reflexivity|]. intros c sv _ _. cbn [cur nv_value nd_at]. destruct (in_dec _ sv []) as [[]|]; reflexivity. }
    unfold iter_dict_slices. fold exn exs.
    rewrite (fill_fail ws (rv_var v) (fv_of fill_value v) (rv_fill v) bv Hv Hb Hws (indices exs) [] cur); [reflexivity| | |exact HF].
    - intros sv Hsv. apply in_indices. exact Hsv.
    - rewrite (overlap_all ws fill_value v Hv) in Ho. destruct (list_dec (Usable ws (rv_var v) (fv_of fill_value v)) (indices exs) (usable_dec ws _ _)) as [H|H]; [contradiction|exact H].
  Qed.

  Lemma variable_bulk_fail ws fill_value v : Source (rv_var v) -> (forall w, In w ws -> IsCell sg (w_src w)) -> ~ SomeOverlap ws sg dg extra fill_value v ->
    regrid_variable ws sg dg (map fst adims) extra extra false [None] fill_value v = Err RegriddingError.
  Proof.
    intros Hv Hws Ho. rewrite (overlap_some ws fill_value v Hv) in Ho. unfold regrid_variable. destruct (source_variable (rv_var v) Hv) as [bv [Hb _]]. rewrite Hb. cbn [bind]. fold (fv_of fill_value v). fold ddims.
    cbn [fold_res]. unfold regrid_step at 1. destruct (source_all (rv_var v) bv Hv Hb) as [q [-> [Sq Hq]]]. cbn [bind].
    unfold esmf_regrid. rewrite Sq. cbn [nd_shape app skipn]. fold exs. rewrite listZ_eqb_refl. cbn [bind].
    set (e := mknd (rg_nx dg :: rg_ny dg :: rev exs) _).
    assert (He : forall c sv, IsCell dg c -> IndexOf exs sv -> nd_at e (c ++ rev sv) = newval ws (rv_var v) (fv_of fill_value v) sv c).
    { intros c sv Hc Hsv. unfold e. cbn [nd_at]. apply is_cell in Hc. destruct Hc as [x [y [-> _]]]. cbn [firstn skipn app].
      apply regrid_cells; [exact q|exact Hws|]. intros c' Hc'. apply Hq; assumption. }
    change (nd_shape e) with (rg_nx dg :: rg_ny dg :: rev exs)%list.
    destruct (forallb (fun idx => nd_at e idx =? fv_of fill_value v) (indices (rg_nx dg :: rg_ny dg :: rev exs))) eqn:Ef; [reflexivity|]. exfalso.
    assert (H : forallb (fun idx => nd_at e idx =? fv_of fill_value v) (indices (rg_nx dg :: rg_ny dg :: rev exs)) = true); [|congruence]. apply forallb_forall. intros idx Hi.
    apply in_indices in Hi. change (rg_nx dg :: rg_ny dg :: rev exs)%list with ([rg_nx dg; rg_ny dg] ++ rev exs)%list in Hi. rewrite <- shape_on in Hi. destruct (index_on idx Hi) as [c [sv [-> [Hc Hsv]]]].
    rewrite (He c sv Hc Hsv). destruct (newval ws (rv_var v) (fv_of fill_value v) sv c =? fv_of fill_value v) eqn:E; [reflexivity|]. exfalso. apply Ho. exists sv. split; [apply in_indices; exact Hsv|].
    exists c. split; [exact Hc|lia].
  Qed.

  (** *** The mask of the first slice. *)
  Lemma axes_extra i : (i < List.length extra)%nat -> existsb (Nat.eqb i) (axes_in (map fst adims) exn) = true.
  Proof.
    intros Hi. unfold adims. rewrite map_app. destruct (nth_error (map fst extra) i) as [n|] eqn:E; [|apply nth_error_None in E; rewrite map_length in E; lia].
    rewrite (axes_in_nth _ _ i n); [apply str_mem_In; apply nth_error_In in E; exact E|]. rewrite nth_error_app1; [exact E|]. rewrite map_length. exact Hi.
  Qed.
  Lemma axes_grid i : (i < 2)%nat -> existsb (Nat.eqb (List.length extra + i)) (axes_in (map fst adims) exn) = false.
  Proof.
    intros Hi. pose proof (nodup_split sg Ns) as [Hn [Hd _]]. unfold adims. rewrite map_app.
    assert (E : exists n, nth_error (map fst extra ++ map fst (rg_dims sg))%list (List.length extra + i) = Some n /\ ~ In n exn).
    { rewrite nth_error_app2 by (rewrite map_length; lia). rewrite map_length. replace (List.length extra + i - List.length extra)%nat with i by lia.
      destruct i as [|[|i]]; [| |lia]; eexists; (split; [reflexivity|]); intros Hi'; destruct (Hd _ Hi'); congruence. }
    destruct E as [n [E1 E2]]. rewrite (axes_in_nth _ _ _ n E1). apply str_mem_nIn. exact E2.
  Qed.


  Lemma cut_shape_first : cut_shape adims (map (fun d : string * Z => (fst d, 0)) extra) = (map (fun _ => 1) extra ++ [rg_ny sg; rg_nx sg])%list.
  Proof.
    pose proof (nodup_split sg Ns) as [Hn [Hd _]]. unfold cut_shape, adims. rewrite map_app. f_equal.
    - apply map_ext_in. intros d Hin. rewrite zero_get by (apply in_map; exact Hin). rewrite Forall_forall in Pe. specialize (Pe d Hin). destruct (0 <? snd d) eqn:E; [reflexivity|lia].
    - cbn [rg_dims map]. rewrite !zero_none; [reflexivity| |]; intros Hi'; destruct (Hd _ Hi'); congruence.
  Qed.
  Lemma cut_index_first x y : cut_index adims (map (fun d : string * Z => (fst d, 0)) extra) (map (fun _ => 0) extra ++ [y; x]) = (map (fun _ => 0) extra ++ [y; x])%list.
  Proof.
    unfold adims. generalize (map (fun d : string * Z => (fst d, 0)) extra) as slc, (zero_value extra). intros slc Hz.
    assert (H : forall dims idx, cut_index dims slc idx = idx).
    { induction dims as [|d t IH]; intros [|i idx]; try reflexivity. cbn [cut_index]. rewrite IH. destruct (dget String.eqb slc (fst d)) as [j|] eqn:E; [|reflexivity].
      rewrite (Hz _ _ E). reflexivity. }
    apply H.
  Qed.

  Lemma first_mask_spec (v : nvar Z) : nv_dims v = adims -> GoodVar v ->
    exists vm, first_mask v extra = Ok vm /\ match vm with Some k => nd_shape k = [rg_ny sg; rg_nx sg] | None => True end /\
      forall c, IsCell sg c -> hidden_by vm c = first_slice sg v c.
  Proof.
    intros Hd Hg. pose proof (nodup_split sg Ns) as [Hn [Hdj Hxy]].
    assert (Hpos : forall x y, map (at_cell sg (fun _ => 0) [x; y]) (nv_names v) = (map (fun _ => 0) extra ++ [y; x])%list).
    { intros x y. unfold nv_names. rewrite Hd. unfold adims. rewrite !map_app, map_map. f_equal.
      - apply map_ext_in. intros d Hin. destruct (Hdj (fst d)) as [A B]; [apply in_map; exact Hin|]. unfold at_cell. apply String.eqb_neq in A, B. rewrite A, B. reflexivity.
      - cbn [rg_dims map]. unfold at_cell. rewrite !String.eqb_refl. destruct (String.eqb (fst (rg_y sg)) (fst (rg_x sg))) eqn:E; [apply String.eqb_eq in E; exfalso; congruence|reflexivity]. }
    unfold first_mask. destruct (nv_mask v) as [m|] eqn:Em.
    2:{ exists None. split; [reflexivity|]. split; [exact I|]. intros c Hc. unfold first_slice, hidden_at, masked. rewrite Em. reflexivity. }
    assert (Sm : nd_shape m = map snd adims).
    { destruct Hg as [_ [_ [_ H]]]. rewrite Em in H. unfold nv_shape in H. rewrite Hd in H. exact H. }
    destruct (any_true m) eqn:Ea.
    2:{ exists None. split; [reflexivity|]. split; [exact I|]. intros c Hc. unfold first_slice, hidden_at, masked. rewrite Em. cbn [hidden_by].
        apply is_cell in Hc. destruct Hc as [x [y [-> [Hx Hy]]]]. rewrite Hpos. destruct (nd_at m (map (fun _ => 0) extra ++ [y; x])) eqn:E; [|reflexivity].
        unfold any_true in Ea. assert (any_true m = true); [|unfold any_true in *; congruence]. apply existsb_exists. eexists. split; [|exact E].
        apply in_indices. rewrite Sm. unfold adims. rewrite map_app. apply Forall2_app.
        - apply zero_index. exact Pe.
        - constructor; [exact Hy|]. constructor; [exact Hx|constructor]. }
    set (s := cut (nv_dims v) m (map (fun d => (fst d, 0)) extra)).
    assert (Ss : nd_shape s = (map (fun _ => 1) extra ++ [rg_ny sg; rg_nx sg])%list) by (unfold s, cut; cbn [nd_shape]; rewrite Hd; apply cut_shape_first).
    assert (As : forall x y, nd_at s (map (fun _ => 0) extra ++ [y; x]) = hidden_at v (at_cell sg (fun _ => 0) [x; y])).
    { intros x y. unfold s, cut. cbn [nd_at]. rewrite Hd, cut_index_first. unfold hidden_at, masked. rewrite Em, Hpos. reflexivity. }
    assert (Hsq : exists q, (match extra with [] => Ok (Some s) | _ => do q <- np_squeeze (axes_in (nv_names v) (map fst extra)) s; Ok (Some q) end) = Ok (Some q) /\
              nd_shape q = [rg_ny sg; rg_nx sg] /\ forall x y, nd_at q [y; x] = nd_at s (map (fun _ => 0) extra ++ [y; x])).
    { assert (Hq : exists q, np_squeeze (axes_in (nv_names v) (map fst extra)) s = Ok q /\ nd_shape q = [rg_ny sg; rg_nx sg] /\ forall x y, nd_at q [y; x] = nd_at s (map (fun _ => 0) extra ++ [y; x])).
      { unfold nv_names. rewrite Hd. fold exn. unfold np_squeeze. rewrite Ss.
        assert (Hf : forallb (fun a0 : nat => match nth_error (map (fun _ : string * Z => 1) extra ++ [rg_ny sg; rg_nx sg])%list a0 with Some n => n =? 1 | None => false end) (axes_in (map fst adims) exn) = true).
        { apply forallb_forall. intros a Ha. destruct (axes_in_bound _ _ _ Ha) as [n [E Hin]]. destruct (Nat.lt_ge_cases a (List.length extra)) as [L|L].
          - rewrite nth_error_app1 by (rewrite map_length; exact L). destruct (nth_error (map (fun _ : string * Z => 1) extra) a) as [k|] eqn:Ek; [|apply nth_error_None in Ek; rewrite map_length in Ek; lia].
            apply nth_error_In in Ek. apply in_map_iff in Ek. destruct Ek as [d [<- _]]. reflexivity.
          - exfalso. assert (Ht : existsb (Nat.eqb a) (axes_in (map fst adims) exn) = true) by (apply existsb_exists; exists a; split; [exact Ha|apply Nat.eqb_refl]).
            assert (La : (a < List.length extra + 2)%nat).
            { assert (a < List.length (map fst adims))%nat by (apply nth_error_Some; congruence). unfold adims in H. rewrite map_length, app_length in H. cbn in H. lia. }
            replace a with (List.length extra + (a - List.length extra))%nat in Ht by lia. rewrite axes_grid in Ht by lia. discriminate. }
        rewrite Hf. eexists. split; [reflexivity|]. cbn [nd_shape nd_at].
        assert (Hl : forall i, (i < List.length (map (fun _ : string * Z => 1%Z) extra))%nat -> existsb (Nat.eqb (0 + i)) (axes_in (map fst adims) exn) = true)
          by (intros i Hi; rewrite map_length in Hi; apply axes_extra; exact Hi).
        assert (Hk : forall i, (i < List.length [rg_ny sg; rg_nx sg])%nat -> existsb (Nat.eqb (0 + List.length (map (fun _ : string * Z => 1%Z) extra) + i)) (axes_in (map fst adims) exn) = false)
          by (intros i Hi; rewrite map_length; apply axes_grid; exact Hi).
        split; [rewrite drop_lead by exact Hl; apply drop_none; exact Hk|]. intros x y. rewrite add_lead by exact Hl. rewrite map_map.
        rewrite add_none; [reflexivity|reflexivity|exact Hk]. }
      destruct Hq as [q [Eq Hq]]. destruct extra as [|d t] eqn:Ee.
      - exists s. split; [reflexivity|]. split; [exact Ss|reflexivity].
      - exists q. rewrite Eq. split; [reflexivity|exact Hq]. }
    destruct Hsq as [q [-> [Sq Aq]]]. exists (Some q). split; [reflexivity|]. split; [exact Sq|]. intros c Hc. apply is_cell in Hc. destruct Hc as [x [y [-> _]]].
    cbn [hidden_by nth]. rewrite Aq, As. reflexivity.
  Qed.
End One.
