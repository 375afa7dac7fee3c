(** Regridding whole fields. *)
From Verif Require Import Py Lib Spec PartitionModel NdModel NdSpec NdProofs MaskProofs RegridModel RegridSpec RegridProofs.

Lemma filter_extra (extra : list (string * Z)) (sg : rgrid) (p : string * Z -> bool) : NoDup (map fst (extra ++ rg_dims sg)) ->
  (forall d, In d extra -> p d = true) -> filter (fun d => p d && negb (str_mem (fst d) (rg_names sg))) (extra ++ rg_dims sg) = extra.
Proof.
  intros N Hp. rewrite filter_app.
  assert (E2 : filter (fun d => p d && negb (str_mem (fst d) (rg_names sg))) (rg_dims sg) = []).
  { cbn [rg_dims filter].
    assert (E1 : str_mem (fst (rg_x sg)) (rg_names sg) = true) by (apply str_mem_In; right; left; reflexivity).
    assert (E2 : str_mem (fst (rg_y sg)) (rg_names sg) = true) by (apply str_mem_In; left; reflexivity).
    rewrite E1, E2. cbn [negb]. rewrite !andb_false_r. reflexivity. }
  rewrite E2, app_nil_r. pose proof (nodup_split sg extra sg N) as [_ [Hd _]].
  assert (H : forall d, In d extra -> p d && negb (str_mem (fst d) (rg_names sg)) = true).
  { intros d Hin. rewrite (Hp d Hin). cbn [andb]. rewrite (proj2 (str_mem_nIn _ _)); [reflexivity|]. intros Hi. destruct (Hd (fst d)) as [A B]; [apply in_map; exact Hin|].
    destruct Hi as [E|[E|[]]]; congruence. }
  clear -H. induction extra as [|d t IH]; [reflexivity|]. cbn [filter]. rewrite H by (left; reflexivity). f_equal. apply IH. intros d' H'. apply H. right; exact H'.
Qed.

Lemma map_res_forall2 {A B} (f : A -> res B) (P : A -> B -> Prop) l : (forall a, In a l -> exists b, f a = Ok b /\ P a b) ->
  exists out, map_res f l = Ok out /\ Forall2 P l out.
Proof.
  induction l as [|a t IH]; intros H; [exists []; split; [reflexivity|constructor]|]. destruct (H a (or_introl eq_refl)) as [b [E Hb]].
  destruct IH as [out [E' Ho]]; [intros a' Ha'; apply H; right; exact Ha'|]. exists (b :: out). cbn [map_res]. rewrite E. cbn [bind]. rewrite E'. split; [reflexivity|]. constructor; assumption.
Qed.

Lemma grid_corners g m e hidden : GridFor g m hidden e -> eg_corners e = match m with Auto => rg_bounds g | Flag f => is_conserve f end.
Proof. intros [_ [_ [H _]]]. exact H. Qed.

Lemma gridfor_ext g m h h' e : (forall c, IsCell g c -> h c = h' c) -> GridFor g m h e -> GridFor g m h' e.
Proof.
  intros H [A [B [C D]]]. split; [exact A|]. split; [exact B|]. split; [exact C|]. destruct (eg_mask e) as [k|].
  - split; [exact (proj1 D)|]. intros c Hc. rewrite <- H by exact Hc. apply (proj2 D). exact Hc.
  - intros c Hc. rewrite <- H by exact Hc. apply D. exact Hc.
Qed.

Section Field.
  Context (lib : esmf_lib) (src dst : rfield) (sg dg : rgrid) (extra : list (string * Z)) (m : rrequest) (vm : option (nd bool)).
  Hypothesis HC : Compatible src dst sg dg m.
  Hypothesis HO : OnGrid sg dg extra (rf_vars src).
  Hypothesis HMs : MaskFits vm sg.
  Hypothesis HMd : MaskFits vm dg.

  Lemma grids : exists a t vm' se de, rf_vars src = a :: t /\ nv_dims (rv_var a) = (extra ++ rg_dims sg)%list /\
    match vm with Some v => Ok (Some v) | None => first_mask (rv_var a) extra end = Ok vm' /\
    create_esmf_grid sg m vm' = Ok se /\ create_esmf_grid dg m vm = Ok de /\
    GridFor sg m (source_hidden sg vm (rf_vars src)) se /\ GridFor dg m (destination_hidden dg vm) de.
  Proof.
    destruct HO as [Gs [Gd [Ns [Nd [Pe [[a [t [Ev Ed]]] Hall]]]]]]. destruct HC as [_ [_ [_ [_ Hcons]]]]. exists a, t.
    assert (Hvm : exists vm', match vm with Some v => Ok (Some v) | None => first_mask (rv_var a) extra end = Ok vm' /\ MaskFits vm' sg /\
              forall c, IsCell sg c -> hidden_by vm' c = match vm with Some _ => hidden_by vm c | None => first_slice sg (rv_var a) c end).
    { destruct vm as [v|].
      - exists (Some v). split; [reflexivity|]. split; [exact HMs|reflexivity].
      - rewrite Ev in Hall. apply (first_mask_spec sg dg extra Ns Nd Pe (rv_var a) Ed (proj1 (Forall_inv Hall))). }
    destruct Hvm as [vm' [Evm [Hfit Hvm]]]. exists vm'.
    destruct (create_grid sg m vm' Gs Hfit (fun H => proj1 (Hcons H))) as [se [Ese Hse]].
    destruct (create_grid dg m vm Gd HMd (fun H => proj2 (Hcons H))) as [de [Ede Hde]]. exists se, de.
    split; [exact Ev|]. split; [exact Ed|]. split; [exact Evm|]. split; [exact Ese|]. split; [exact Ede|]. split; [|exact Hde].
    eapply gridfor_ext; [|exact Hse]. cbn beta. intros c Hc. unfold source_hidden. rewrite Ev, (Hvm c Hc). reflexivity.
  Qed.

  Lemma methods se de hs hd : GridFor sg m hs se -> GridFor dg m hd de ->
    match m with Auto => if eg_corners de && eg_corners se then Some Conserve else None | Flag f => Some f end = method_of m sg dg.
  Proof.
    intros A B. apply grid_corners in A, B. unfold method_of. destruct m as [|f]; [|reflexivity]. rewrite A, B, andb_comm. reflexivity.
  Qed.

  Definition marks_of (split : bool) : bool := split && match extra with [] => false | _ => true end.

  Lemma field_outcome_at a t vm' se de : rf_vars src = a :: t -> nv_dims (rv_var a) = (extra ++ rg_dims sg)%list ->
    match vm with Some v => Ok (Some v) | None => first_mask (rv_var a) extra end = Ok vm' ->
    create_esmf_grid sg m vm' = Ok se -> create_esmf_grid dg m vm = Ok de ->
    GridFor sg m (source_hidden sg vm (rf_vars src)) se -> GridFor dg m (destination_hidden dg vm) de ->
    forall split fill_value weights_in ws, ws = match weights_in with Some ws => ws | None => lib se de (method_of m sg dg) end ->
      (forall w, In w ws -> IsCell sg (w_src w)) ->
      ((forall v, In v (rf_vars src) -> Overlaps (marks_of split) ws sg dg extra fill_value v) ->
       exists out, regrid_field lib src dst m vm split fill_value weights_in false = Ok (Some out) /\
         AllRegridded ws sg dg extra fill_value (marks_of split) (rf_vars src) out) /\
      ((exists v, In v (rf_vars src) /\ ~ Overlaps (marks_of split) ws sg dg extra fill_value v) ->
       regrid_field lib src dst m vm split fill_value weights_in false = Err RegriddingError).
  Proof.
    intros Ev Ed Evm Ese Ede Hse Hde.
    intros split fill_value weights_in ws Ews Hin. destruct HO as [Gs [Gd [Ns [Nd [Pe [_ Hall]]]]]]. destruct HC as [C1 [C2 [C3 [C4 C5]]]].
    unfold regrid_field, check_fields. rewrite C1, C2, C3, C4. cbn [andb].
    assert (Ec : match m with Flag Conserve => if rg_bounds sg && rg_bounds dg then Ok (sg, dg) else Err CornersInconsistentError | _ => Ok (sg, dg) end = Ok (sg, dg)).
    { destruct m as [|[]]; try reflexivity. destruct (C5 eq_refl) as [-> ->]. reflexivity. }
    rewrite Ec. cbn [bind]. rewrite Ev. rewrite <- Ev. rewrite Ed.
    rewrite (filter_extra extra sg (fun d => negb (str_mem (fst d) (rg_names dg))) Ns).
    2:{ intros d Hd. rewrite (proj2 (str_mem_nIn _ _)); [reflexivity|]. pose proof (nodup_split dg extra dg Nd) as [_ [Hx _]]. intros Hi.
        destruct (Hx (fst d)) as [A B]; [apply in_map; exact Hd|]. destruct Hi as [E|[E|[]]]; congruence. }
    pose proof (filter_extra extra sg (fun _ => true) Ns (fun _ _ => eq_refl)) as Ef. cbn [andb] in Ef. rewrite Ef.
    rewrite Evm. cbn [bind]. rewrite Ese, Ede. cbn [bind]. rewrite (methods se de _ _ Hse Hde). rewrite <- Ews.
    assert (Em : split && negb (0 =? zlen extra) = marks_of split).
    { unfold marks_of. destruct split; [|reflexivity]. destruct extra as [|d l]; [reflexivity|]. cbn [andb]. unfold zlen. cbn [List.length]. destruct (0 =? Z.of_nat (S (List.length l))) eqn:E; [lia|reflexivity]. }
    rewrite Em. unfold AllRegridded. rewrite Forall_forall in Hall.
    assert (Hs : exists s ss, (if marks_of split then map Some (iter_dict_slices extra) else [None]) = s :: ss).
    { destruct (marks_of split); [|eauto]. destruct (map Some (iter_dict_slices extra)) as [|s ss] eqn:E; [|eauto]. exfalso. unfold iter_dict_slices in E.
      assert (Hi : In (map (fun _ => 0) extra) (indices (map snd extra))) by (apply in_indices; apply zero_index; exact Pe).
      destruct (indices (map snd extra)); [exact Hi|discriminate]. }
    destruct Hs as [s [ss Es']]. rewrite Es'. rewrite <- Es'.
    set (run := regrid_variable ws sg dg (map fst (extra ++ rg_dims sg)) extra extra (marks_of split) (if marks_of split then map Some (iter_dict_slices extra) else [None]) fill_value).
    assert (Hok : forall v, In v (rf_vars src) -> Overlaps (marks_of split) ws sg dg extra fill_value v ->
      exists v', run v = Ok v' /\ rv_name v' = rv_name v /\ rv_fill v' = rv_fill v /\ Regridded ws sg dg extra (fv_of fill_value v) (marks_of split) (rv_var v) (rv_var v')).
    { intros v Hv Hov. destruct (Hall v Hv) as [H1 H2]. unfold run. destruct (marks_of split); cbn [Overlaps] in Hov.
      - apply (variable_split sg dg extra Gd Ns Nd Pe ws fill_value v); [split; assumption|exact Hin|exact Hov].
      - apply (variable_bulk sg dg extra Gd Ns Nd Pe ws fill_value v); [split; assumption|exact Hin|].
        apply (overlap_some sg dg extra Ns ws fill_value v) in Hov; [|split; assumption]. destruct Hov as [sv [Hsv Hu]]. exists sv. split; [apply in_indices; exact Hsv|exact Hu]. }
    assert (Hbad : forall v, In v (rf_vars src) -> ~ Overlaps (marks_of split) ws sg dg extra fill_value v -> run v = Err RegriddingError).
    { intros v Hv Hov. destruct (Hall v Hv) as [H1 H2]. unfold run. destruct (marks_of split); cbn [Overlaps] in Hov.
      - apply (variable_split_fail sg dg extra Ns Nd ws fill_value v); [split; assumption|exact Hin|exact Hov].
      - apply (variable_bulk_fail sg dg extra Ns ws fill_value v); [split; assumption|exact Hin|exact Hov]. }
    split.
    - intros Hov. destruct (map_res_forall2 run (fun v v' => rv_name v' = rv_name v /\ rv_fill v' = rv_fill v /\ Regridded ws sg dg extra (fv_of fill_value v) (marks_of split) (rv_var v) (rv_var v')) (rf_vars src)) as [out [E Ho]].
      { intros v Hv. apply Hok; [exact Hv|apply Hov; exact Hv]. }
      rewrite E. exists out. split; [reflexivity|exact Ho].
    - intros Hov. assert (E : map_res run (rf_vars src) = Err RegriddingError); [|rewrite E; reflexivity].
      assert (Hd : forall v, In v (rf_vars src) -> (exists v', run v = Ok v') \/ run v = Err RegriddingError).
      { intros v Hv. destruct (overlaps_dec sg dg extra Ns (marks_of split) ws fill_value v) as [H|H]; [destruct (Hall v Hv); split; assumption| |right; apply Hbad; assumption].
        destruct (Hok v Hv H) as [v' [E _]]. left. exists v'. exact E. }
      assert (Hx : exists v, In v (rf_vars src) /\ run v = Err RegriddingError) by (destruct Hov as [v [Hv H]]; exists v; split; [exact Hv|apply Hbad; assumption]).
      revert Hd Hx. generalize (rf_vars src). clearbody run. intros l. induction l as [|v l IH]; intros Hd [v0 [Hv0 E0]]; [destruct Hv0|]. cbn [map_res].
      destruct (Hd v (or_introl eq_refl)) as [[v' E]|E]; [|rewrite E; reflexivity]. rewrite E. cbn [bind]. rewrite IH; [reflexivity|intros v1 H1; apply Hd; right; exact H1|].
      exists v0. split; [|exact E0]. destruct Hv0 as [<-|Hv0]; [congruence|exact Hv0].
  Qed.

  Lemma field_outcome : exists se de, GridFor sg m (source_hidden sg vm (rf_vars src)) se /\ GridFor dg m (destination_hidden dg vm) de /\
    forall split fill_value weights_in ws, ws = match weights_in with Some ws => ws | None => lib se de (method_of m sg dg) end ->
      (forall w, In w ws -> IsCell sg (w_src w)) ->
      ((forall v, In v (rf_vars src) -> Overlaps (marks_of split) ws sg dg extra fill_value v) ->
       exists out, regrid_field lib src dst m vm split fill_value weights_in false = Ok (Some out) /\
         AllRegridded ws sg dg extra fill_value (marks_of split) (rf_vars src) out) /\
      ((exists v, In v (rf_vars src) /\ ~ Overlaps (marks_of split) ws sg dg extra fill_value v) ->
       regrid_field lib src dst m vm split fill_value weights_in false = Err RegriddingError).
  Proof.
    destruct grids as [a [t [vm' [se [de [Ev [Ed [Evm [Ese [Ede [Hse Hde]]]]]]]]]]]. exists se, de. split; [exact Hse|]. split; [exact Hde|].
    exact (field_outcome_at a t vm' se de Ev Ed Evm Ese Ede Hse Hde).
  Qed.
End Field.

Lemma field_outcome_prop lib src dst sg dg extra m vm : Compatible src dst sg dg m -> OnGrid sg dg extra (rf_vars src) -> MaskFits vm sg -> MaskFits vm dg ->
  exists se de, GridFor sg m (source_hidden sg vm (rf_vars src)) se /\ GridFor dg m (destination_hidden dg vm) de /\
    forall (split : bool) fill_value weights_in, let ws := match weights_in with Some ws => ws | None => lib se de (method_of m sg dg) end in
      let marks := split && match extra with [] => false | _ => true end in
      (forall w, In w ws -> IsCell sg (w_src w)) ->
      ((forall v, In v (rf_vars src) -> Overlaps marks ws sg dg extra fill_value v) ->
       exists out, regrid_field lib src dst m vm split fill_value weights_in false = Ok (Some out) /\
         AllRegridded ws sg dg extra fill_value marks (rf_vars src) out) /\
      ((exists v, In v (rf_vars src) /\ ~ Overlaps marks ws sg dg extra fill_value v) ->
       regrid_field lib src dst m vm split fill_value weights_in false = Err RegriddingError).
Proof.
  intros A B C D. destruct (field_outcome lib src dst sg dg extra m vm A B C D) as [se [de [E [F H]]]]. exists se, de. split; [exact E|]. split; [exact F|].
  intros split fill_value weights_in ws marks. exact (H split fill_value weights_in ws eq_refl).
Qed.

(** ** Masked values *)
Lemma at_cell_cell g f x y : fst (rg_x g) <> fst (rg_y g) -> cell_of g (at_cell g f [x; y]) = [x; y].
Proof.
  intros H. unfold cell_of, at_cell. rewrite !String.eqb_refl. destruct (String.eqb (fst (rg_y g)) (fst (rg_x g))) eqn:E; [apply String.eqb_eq in E; congruence|reflexivity].
Qed.
Lemma at_cell_within g (extra : list (string * Z)) f c : NoDup (map fst (extra ++ rg_dims g)) -> Within extra f -> IsCell g c -> Within (extra ++ rg_dims g) (at_cell g f c).
Proof.
  intros N Hf Hc. pose proof (nodup_split g extra g N) as [_ [Hd Hxy]]. apply is_cell in Hc. destruct Hc as [x [y [-> [Hx Hy]]]]. unfold Within. apply Forall_app. split.
  - unfold Within in Hf. rewrite Forall_forall in *. intros d Hin. destruct (Hd (fst d)) as [A B]; [apply in_map; exact Hin|]. unfold at_cell. apply String.eqb_neq in A, B. rewrite A, B. apply Hf. exact Hin.
  - constructor; [|constructor; [|constructor]]; unfold at_cell; rewrite !String.eqb_refl; [|exact Hx]. destruct (String.eqb (fst (rg_y g)) (fst (rg_x g))) eqn:E; [apply String.eqb_eq in E; congruence|exact Hy].
Qed.
Lemma total_ext_in ws c (f g : list Z -> Z) : (forall w, In w ws -> f (w_src w) = g (w_src w)) -> total ws c f = total ws c g.
Proof. induction ws as [|w t IH]; intros H; [reflexivity|]. cbn [total]. rewrite (H w (or_introl eq_refl)), IH; [reflexivity|]. intros w' Hw'. apply H. right; exact Hw'. Qed.

Lemma gridfor_hidden g m h e c : GridFor g m h e -> IndexOf [eg_nx e; eg_ny e] c -> match eg_mask e with Some k => nd_at k c = true | None => True end -> IsCell g c /\ h c = false.
Proof.
  intros [A [B [_ D]]] Hc Hm. rewrite A, B in Hc. split; [exact Hc|]. destruct (eg_mask e) as [k|].
  - rewrite (proj2 D c Hc) in Hm. destruct (h c); [discriminate|reflexivity].
  - apply D. exact Hc.
Qed.

Lemma forall2_in {A B} (P : A -> B -> Prop) l l' : Forall2 P l l' -> (forall a, In a l -> exists b, In b l' /\ P a b) /\ (forall b, In b l' -> exists a, In a l /\ P a b).
Proof.
  induction 1 as [|a b t t' Hab _ [I1 I2]]; [split; intros ? []|]. split.
  - intros x [<-|Hx]; [exists b; split; [left; reflexivity|exact Hab]|]. destruct (I1 x Hx) as [y [Hy H]]. exists y. split; [right; exact Hy|exact H].
  - intros x [<-|Hx]; [exists a; split; [left; reflexivity|exact Hab]|]. destruct (I2 x Hx) as [y [Hy H]]. exists y. split; [right; exact Hy|exact H].
Qed.

Lemma reached_dec ws c : Reached ws c \/ ~ Reached ws c.
Proof. rewrite reached_hits. destruct (hits ws c); [right; intros H; apply H; reflexivity|left; discriminate]. Qed.

Lemma hidden_cells lib src src' dst sg dg extra m vm (split : bool) fill_value : Respectful lib ->
  Compatible src dst sg dg m -> OnGrid sg dg extra (rf_vars src) -> MaskFits vm sg -> MaskFits vm dg ->
  SameOutsideField sg (source_hidden sg vm (rf_vars src)) src src' ->
  SameOutcomes (regrid_field lib src dst m vm split fill_value None false) (regrid_field lib src' dst m vm split fill_value None false).
Proof.
  intros HR HC HO Ms Md [S1 [S2 S3]]. set (Same := SameOutside sg (source_hidden sg vm (rf_vars src))) in *. pose proof HO as [Gs [Gd [Ns [Nd [Pe [Ha Hall]]]]]].
  assert (HC' : Compatible src' dst sg dg m) by (destruct HC as [C1 [C2 [C3 [C4 C5]]]]; split; [congruence|]; split; [exact C2|]; split; [congruence|]; split; [exact C4|exact C5]).
  assert (HO' : OnGrid sg dg extra (rf_vars src')).
  { split; [exact Gs|]. split; [exact Gd|]. split; [exact Ns|]. split; [exact Nd|]. split; [exact Pe|]. split.
    - destruct Ha as [a [t [Ev Ed]]]. rewrite Ev in S3. inversion S3 as [|? a' ? t' Hs Ht]; subst. exists a', t'. split; [reflexivity|]. destruct Hs as [_ [_ [E _]]]. rewrite E. exact Ed.
    - rewrite Forall_forall in *. intros v' Hv'. destruct (proj2 (forall2_in _ _ _ S3) v' Hv') as [v [Hv [_ [_ [Ed [Em [Es _]]]]]]]. destruct (Hall v Hv) as [G D]. split; [|intros d; rewrite Ed; apply D].
      destruct G as [G1 [G2 [G3 G4]]]. unfold GoodVar, nv_names, nv_shape in *. rewrite Ed, Em, Es. split; [exact G1|]. split; [exact G2|]. split; [exact G3|exact G4]. }
  destruct (grids src dst sg dg extra m vm HC HO Ms Md) as [a [t [vm' [se [de [Ev [Ed [Evm [Ese [Ede [Hse Hde]]]]]]]]]]].
  assert (Ha' : exists a' t', rf_vars src' = a' :: t' /\ Same a a').
  { rewrite Ev in S3. inversion S3 as [|? a' ? t' Hs Ht]; subst. exists a', t'. split; [reflexivity|exact Hs]. }
  destruct Ha' as [a' [t' [Ev' Hs]]]. pose proof Hs as [_ [_ [Ed' [Em' _]]]].
  assert (Hse' : GridFor sg m (source_hidden sg vm (rf_vars src')) se).
  { eapply gridfor_ext; [|exact Hse]. intros c Hc. unfold source_hidden. rewrite Ev, Ev'. f_equal. destruct vm; [reflexivity|]. unfold first_slice, hidden_at, masked, nv_names. rewrite Ed', Em'. reflexivity. }
  set (ws := lib se de (method_of m sg dg)).
  assert (Hin : forall w, In w ws -> IsCell sg (w_src w) /\ source_hidden sg vm (rf_vars src) (w_src w) = false).
  { intros w Hw. destruct (HR se de (method_of m sg dg) w Hw) as [R1 [_ [R2 _]]]. exact (gridfor_hidden sg m _ se (w_src w) Hse R1 R2). }
  pose proof (field_outcome_at lib src dst sg dg extra m vm HC HO a t vm' se de Ev Ed Evm Ese Ede Hse Hde split fill_value None ws eq_refl (fun w Hw => proj1 (Hin w Hw))) as [Ok1 Bad1].
  assert (Evm' : match vm with Some v => Ok (Some v) | None => first_mask (rv_var a') extra end = Ok vm') by (rewrite <- Evm; unfold first_mask, nv_names; rewrite Ed', Em'; reflexivity).
  pose proof (field_outcome_at lib src' dst sg dg extra m vm HC' HO' a' t' vm' se de Ev' ltac:(congruence) Evm' Ese Ede Hse' Hde split fill_value None ws eq_refl (fun w Hw => proj1 (Hin w Hw))) as [Ok2 Bad2].
  (* sums agree *)
  assert (Htot : forall v v' f c, In v (rf_vars src) -> Same v v' -> Within extra f ->
            total ws c (fun s => element (rv_var v') (at_cell sg f s)) = total ws c (fun s => element (rv_var v) (at_cell sg f s))).
  { intros v v' f c Hv Hsv Hf. apply total_ext_in. intros w Hw. destruct (Hin w Hw) as [H1 H2]. destruct Hsv as [_ [_ [_ [_ [_ Hel]]]]].
    rewrite Forall_forall in Hall. destruct (Hall v Hv) as [_ Dv].
    assert (Hw' : Within (nv_dims (rv_var v)) (at_cell sg f (w_src w))).
    { pose proof (at_cell_within sg extra f (w_src w) Ns Hf H1) as W. unfold Within in *. rewrite Forall_forall in *. intros d Hd. apply W. apply Dv. exact Hd. }
    apply Hel; [exact Hw'|]. apply is_cell in H1. destruct H1 as [x [y [Ew _]]]. rewrite Ew in H2 |- *. rewrite at_cell_cell; [exact H2|]. destruct Gs as [_ [_ [G _]]]. exact G. }
  assert (Hfv : forall v v', Same v v' -> fv_of fill_value v' = fv_of fill_value v) by (intros v v' [_ [E _]]; unfold fv_of; rewrite E; reflexivity).
  assert (Hov : forall v v' every, In v (rf_vars src) -> Same v v' -> Overlaps every ws sg dg extra fill_value v <-> Overlaps every ws sg dg extra fill_value v').
  { intros v v' every Hv Hsv. destruct every; cbn [Overlaps]; unfold Overlap, SomeOverlap.
    - split; intros H f Hf; destruct (H f Hf) as [c [Hc [Hr Hn]]]; exists c; (split; [exact Hc|]); (split; [exact Hr|]);
        [rewrite (Htot v v' f c Hv Hsv Hf), (Hfv v v' Hsv)|rewrite <- (Htot v v' f c Hv Hsv Hf), <- (Hfv v v' Hsv)]; exact Hn.
    - split; intros [f [c [Hf [Hc [Hr Hn]]]]]; exists f, c; (split; [exact Hf|]); (split; [exact Hc|]); (split; [exact Hr|]);
        [rewrite (Htot v v' f c Hv Hsv Hf), (Hfv v v' Hsv)|rewrite <- (Htot v v' f c Hv Hsv Hf), <- (Hfv v v' Hsv)]; exact Hn. }
  assert (Hcase : (forall v, In v (rf_vars src) -> Overlaps (marks_of extra split) ws sg dg extra fill_value v) \/ exists v, In v (rf_vars src) /\ ~ Overlaps (marks_of extra split) ws sg dg extra fill_value v).
  { assert (D : forall v, In v (rf_vars src) -> Overlaps (marks_of extra split) ws sg dg extra fill_value v \/ ~ Overlaps (marks_of extra split) ws sg dg extra fill_value v).
    { intros v Hv. apply (overlaps_dec sg dg extra Ns). rewrite Forall_forall in Hall. destruct (Hall v Hv). split; assumption. }
    revert D. generalize (rf_vars src). clear. intros l. induction l as [|v l IH]; intros D; [left; intros v []|]. destruct (D v (or_introl eq_refl)) as [H|H]; [|right; exists v; split; [left; reflexivity|exact H]].
    destruct IH as [H'|[v' [Hv' H']]]; [intros v' Hv'; apply D; right; exact Hv'|left; intros v' [<-|Hv']; auto|right; exists v'; split; [right; exact Hv'|exact H']]. }
  destruct Hcase as [Hgood|[v [Hv Hbad]]].
  - destruct (Ok1 Hgood) as [out [E1 A1]]. destruct Ok2 as [out' [E2 A2]].
    { intros v' Hv'. destruct (proj2 (forall2_in _ _ _ S3) v' Hv') as [v [Hv Hsv]]. apply (Hov v v' _ Hv Hsv). apply Hgood; exact Hv. }
    rewrite E1, E2. cbn [SameOutcomes]. clear -A1 A2 S3 Htot Hfv Nd.
    assert (H : forall l l', (forall v, In v l -> In v (rf_vars src)) -> Forall2 Same l l' -> forall o o', AllRegridded ws sg dg extra fill_value (marks_of extra split) l o -> AllRegridded ws sg dg extra fill_value (marks_of extra split) l' o' -> Forall2 SameElements o o').
    { intros l l' Hsub HF. induction HF as [|v v' t t' Hv HF IH]; intros o o' A B; inversion A; inversion B; subst; constructor.
      - destruct H1 as [N1 [F1 [D1 [G1 R1]]]]. destruct H6 as [N2 [F2 [D2 [G2 R2]]]]. pose proof Hv as [N3 [F3 _]]. split; [congruence|]. split; [congruence|]. split; [congruence|].
        intros f Hf. destruct (R1 f Hf) as [X1 [X2 X3]]. destruct (R2 f) as [Y1 [Y2 Y3]]; [rewrite D2, <- D1; exact Hf|].
        assert (Hfe : Within extra f) by (rewrite D1 in Hf; unfold Within in Hf; apply Forall_app in Hf; exact (proj1 Hf)).
        assert (E : element (rv_var y0) f = element (rv_var y) f).
        { destruct (reached_dec ws (cell_of dg f)) as [R|R]; [rewrite X1, Y1 by exact R; apply Htot; [apply Hsub; left; reflexivity|exact Hv|exact Hfe]|rewrite X2, Y2 by exact R; apply Hfv; exact Hv]. }
        split; [exact E|]. rewrite X3, Y3, E, (Hfv v v' Hv). reflexivity.
      - apply IH; [intros v0 Hv0; apply Hsub; right; exact Hv0|assumption|assumption]. }
    exact (H _ _ (fun v Hv => Hv) S3 out out' A1 A2).
  - rewrite (Bad1 (ex_intro _ v (conj Hv Hbad))). destruct (proj1 (forall2_in _ _ _ S3) v Hv) as [v' [Hv' Hsv]].
    rewrite Bad2; [reflexivity|]. exists v'. split; [exact Hv'|]. intros H. apply Hbad. apply (Hov v v' _ Hv Hsv). exact H.
Qed.

Lemma noninterference lib src src' dst sg dg extra m (split : bool) fill_value : Respectful lib ->
  Compatible src dst sg dg m -> OnGrid sg dg extra (rf_vars src) -> SameShownField src src' -> MaskedAlike sg (rf_vars src) ->
  SameOutcomes (regrid_field lib src dst m None split fill_value None false) (regrid_field lib src' dst m None split fill_value None false).
Proof.
  intros HR HC HO [S1 [S2 S3]] HA. apply (hidden_cells lib src src' dst sg dg extra m None split fill_value HR HC HO I I). split; [exact S1|]. split; [exact S2|].
  destruct HO as [_ [_ [_ [_ [_ [[a [t [Ev _]]] _]]]]]].
  assert (H : forall l l', (forall v, In v l -> In v (rf_vars src)) -> Forall2 SameShown l l' -> Forall2 (SameOutside sg (source_hidden sg None (rf_vars src))) l l').
  { intros l l' Hsub HF. induction HF as [|v v' r r' Hv HF IH]; constructor; [|apply IH; intros x Hx; apply Hsub; right; exact Hx].
    destruct Hv as [H1 [H2 [H3 [H4 [H5 H6]]]]]. split; [exact H1|]. split; [exact H2|]. split; [exact H3|]. split; [exact H4|]. split; [exact H5|].
    intros f Hf Hh. apply H6; [exact Hf|]. destruct (hidden_at (rv_var v) f) eqn:E; [|reflexivity]. exfalso.
    pose proof (HA a t v f Ev (Hsub v (or_introl eq_refl)) Hf E) as Hfs. unfold source_hidden in Hh. rewrite Ev in Hh. apply orb_false_iff in Hh. destruct Hh. congruence. }
  apply H; [tauto|exact S3].
Qed.

(** Cells masked in the destination grid have no weights. *)
Lemma masked_destination lib src dst sg dg extra m vm fill_value out : Respectful lib ->
  Compatible src dst sg dg m -> OnGrid sg dg extra (rf_vars src) -> MaskFits vm sg -> MaskFits vm dg ->
  regrid_field lib src dst m vm true fill_value None false = Ok (Some out) -> extra <> [] ->
  forall v' f, In v' out -> Within (extra ++ rg_dims dg) f -> destination_hidden dg vm (cell_of dg f) = true -> hidden_at (rv_var v') f = true.
Proof.
  intros HR HC HO Ms Md E Hne v' f Hv' Hf Hh. destruct (field_outcome lib src dst sg dg extra m vm HC HO Ms Md) as [se [de [Hse [Hde H]]]].
  set (ws := lib se de (method_of m sg dg)).
  assert (Hin : forall w, In w ws -> IsCell sg (w_src w) /\ destination_hidden dg vm (w_dst w) = false).
  { intros w Hw. destruct (HR se de (method_of m sg dg) w Hw) as [R1 [R3 [R2 R4]]]. split; [exact (proj1 (gridfor_hidden sg m _ se (w_src w) Hse R1 R2))|exact (proj2 (gridfor_hidden dg m _ de (w_dst w) Hde R3 R4))]. }
  destruct (H true fill_value None ws eq_refl (fun w Hw => proj1 (Hin w Hw))) as [Ok1 Bad1].
  assert (Hm : marks_of extra true = true) by (unfold marks_of; destruct extra; [congruence|reflexivity]). rewrite Hm in *.
  assert (Hall : forall v, In v (rf_vars src) -> Overlaps true ws sg dg extra fill_value v).
  { intros v Hv. destruct HO as [_ [_ [Ns [_ [_ [_ Hal]]]]]]. rewrite Forall_forall in Hal. destruct (Hal v Hv) as [A B]. destruct (overlaps_dec sg dg extra Ns true ws fill_value v (conj A B)) as [O|O]; [exact O|].
    rewrite Bad1 in E; [discriminate|]. exists v. split; assumption. }
  destruct (Ok1 Hall) as [out' [E' A]]. rewrite E in E'. injection E' as <-. destruct (proj2 (forall2_in _ _ _ A) v' Hv') as [v [_ [_ [_ [Dv [_ R]]]]]].
  destruct (R f) as [_ [R2 R3]]; [rewrite Dv; exact Hf|]. rewrite R3, R2; [rewrite Z.eqb_refl; reflexivity|]. intros [w [Hw Ew]]. destruct (Hin w Hw) as [_ X]. congruence.
Qed.
