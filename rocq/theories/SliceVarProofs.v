(** Proofs for C65: slicing a variable of a collection. *)
From Verif Require Import Py Lib Spec PartitionModel DimensionModel DimensionSpec DimensionProofs NdModel NdProofs ScopeProofs ScopeInside SliceModel SliceSpec SliceProofs.

Lemma formatted_select n raw : 0 <= n -> InRange n raw -> exists s,
  format_singleton raw = Ok s /\ InRange n (slc_raw s) /\
  (forall l : list Z, zlen l = n -> py_select l (slc_raw s) = py_select l raw) /\
  (ByArray (slc_raw s) -> ByArray raw).
Proof.
  intros N H. destruct (in_range_select n raw N H) as [s [ps [F [_ [_ AR]]]]]. exists s. split; [exact F|].
  split; [|split].
  - destruct raw as [i|sl|l|m|]; cbn in F.
    + injection F as <-. cbn in *. lia.
    + injection F as <-. exact H.
    + unfold get_optimal_slice_from_array in F. destruct (any_diff_gt1 l); [injection F as <-; exact H|].
      cbn in H. destruct H as [NE [_ FA]]. destruct (list_min_ok l NE) as [a [EA [IA LA]]]. destruct (list_max_ok l NE) as [b [EB [IB LB]]].
      rewrite EA, EB in F. cbn in F. injection F as <-. cbn. rewrite Forall_forall in FA.
      specialize (LA b IB). apply FA in IA. apply FA in IB. lia.
    + injection F as <-. exact H.
    + injection F as <-. exact I.
  - intros l ZL. destruct (format_select_all l raw) as [s' [F' S]]; [rewrite ZL; apply in_range_formattable, H|].
    unfold get_formatted_slice1 in F'. rewrite F in F'. injection F' as <-. rewrite <- S. destruct s; reflexivity.
  - intros B. apply AR. destruct s; [contradiction|reflexivity|reflexivity].
Qed.

Definition SameSelections {A} (c : scoll A) (ds1 ds2 : list (string * item)) : Prop :=
  Forall2 (fun p q => fst p = fst q /\ forall d, In (fst p, d) (sc_dims c) ->
     forall l : list Z, zlen l = dim_len d -> py_select l (item_raw (snd p)) = py_select l (item_raw (snd q))) ds1 ds2.

Lemma same_get {A} (c : scoll A) ds1 ds2 n : SameSelections c ds1 ds2 ->
  match dget String.eqb ds1 n, dget String.eqb ds2 n with
  | None, None => True
  | Some i, Some j => forall d, In (n, d) (sc_dims c) ->
     forall l : list Z, zlen l = dim_len d -> py_select l (item_raw i) = py_select l (item_raw j)
  | _, _ => False
  end.
Proof.
  induction 1 as [|[n1 i] [n2 j] ds1 ds2 [E H] F IH]; cbn; [exact I|]. cbn in E, H. subst n2.
  destruct (String.eqb_spec n n1) as [->|NE]; [exact H|exact IH].
Qed.

Lemma sliced_same {A} (c : scoll A) ds1 ds2 c' : Congruent c -> SameSelections c ds1 ds2 -> SlicedTo c ds1 c' -> SlicedTo c ds2 c'.
Proof.
  intros CG SS [KD [RD RV]]. split; [exact KD|]. split.
  - intros n d I. destruct (RD n d I) as [d' [I' H]]. exists d'. split; [assumption|].
    pose proof (same_get c ds1 ds2 n SS) as SG.
    destruct (dget String.eqb ds1 n) as [i|], (dget String.eqb ds2 n) as [j|]; try contradiction; [|exact H].
    destruct H as [NM H]. split; [assumption|]. intros l RL. destruct (H l RL) as [l' [E R]]. exists l'. split; [|assumption].
    rewrite <- (SG d I l); [assumption|apply RL].
  - apply (forall2_pos _ _ _ _ RV). intros [k v] [k' v'] _ [E1 [E2 [sels [FP B]]]]. split; [assumption|]. split; [assumption|].
    exists sels. split; [|exact B]. apply (forall2_pos _ _ _ _ FP). intros n ps _ [d [I P]]. exists d. split; [assumption|].
    unfold Positions in *. pose proof (same_get c ds1 ds2 n SS) as SG.
    destruct (dget String.eqb ds1 n) as [i|], (dget String.eqb ds2 n) as [j|]; try contradiction; [|exact P].
    rewrite <- (SG d I (zrange 0 (dim_len d))); [assumption|].
    destruct CG as [_ [DN _]]. destruct (DN n d I) as [_ [l [ZL _]]]. rewrite zlen_zrange by (rewrite <- ZL; unfold zlen; lia). lia.
Qed.

Lemma dset_fold_nodup : forall (l acc : list (string * item)), NoDup (map fst (acc ++ l)) ->
  fold_left (fun d p => dset String.eqb d (fst p) (snd p)) l acc = acc ++ l.
Proof.
  induction l as [|[n i] t IH]; intros acc ND; [cbn; rewrite app_nil_r; reflexivity|]. cbn [fold_left fst snd].
  rewrite dset_keys_new.
  - rewrite IH by (rewrite <- app_assoc; exact ND). rewrite <- app_assoc. reflexivity.
  - apply dget_str_none. rewrite map_app in ND. cbn in ND. apply NoDup_remove_2 in ND. intros I. apply ND, in_or_app. left. assumption.
Qed.

Lemma map_fst_combine {B} : forall (a : list string) (b : list B), List.length a = List.length b -> map fst (combine a b) = a.
Proof. induction a as [|x t IH]; intros [|y u] E; try discriminate; cbn; [reflexivity|]. rewrite IH by (cbn in E; lia). reflexivity. Qed.

Theorem slice_variable_spec {A} (c : scoll A) name v items : Congruent c -> In (name, v) (sc_vars c) ->
  sv_dims v <> [] -> List.length items = List.length (sv_dims v) ->
  Sliceable c (combine (sv_dims v) (map as_given items)) ->
  exists c' v', slice_variable c name items = Ok (c', v') /\ In (name, v') (sc_vars c') /\
    SlicedTo c (combine (sv_dims v) (map as_given items)) c'.
Proof.
  intros CG IV NE LEN SL.
  assert (CG' := CG). destruct CG' as [ND [DN [NV VS]]].
  destruct (VS name v IV) as [NDv _].
  set (names := sv_dims v) in *.
  (* format every slice *)
  assert (FM : exists ss, map_res (fun i => format_singleton (item_raw i)) items = Ok ss /\
     Forall2 (fun p s => exists d, In (fst p, d) (sc_dims c) /\ 0 < dim_len d /\ InRange (dim_len d) (slc_raw s) /\
        (forall l : list Z, zlen l = dim_len d -> py_select l (slc_raw s) = py_select l (item_raw (snd p))) /\
        (ByArray (slc_raw s) -> ByArray (item_raw (snd p)))) (combine names (map as_given items)) ss).
  { destruct SL as [_ [_ [DS _]]].
    assert (DS' : forall p, In p (combine names (map as_given items)) -> exists d, In (fst p, d) (sc_dims c) /\ 0 < dim_len d /\ InRange (dim_len d) (item_raw (snd p))).
    { intros [n i] I. apply (DS n i I). }
    clear DS VS NDv IV NE. clearbody names. revert names LEN DS'. induction items as [|i t IH]; intros [|n names] LEN DS'; try discriminate.
    - exists []. split; [reflexivity|constructor].
    - cbn [List.length map combine] in *. destruct (IH names) as [ss [E F]]; [lia|intros p I; apply DS'; right; assumption|].
      destruct (DS' (n, as_given i) (or_introl eq_refl)) as [d [ID [P R]]]. cbn [fst snd] in *.
      destruct (formatted_select (dim_len d) (item_raw (as_given i)) (Z.lt_le_incl _ _ P) R) as [s [FS [RS [SS BS]]]].
      assert (FS' : format_singleton (item_raw i) = Ok s).
      { rewrite <- FS. unfold as_given. cbn. destruct (item_raw i); reflexivity. }
      exists (s :: ss). cbn [map_res]. rewrite FS'. cbn [bind]. rewrite E. split; [reflexivity|].
      constructor; [|assumption]. exists d. auto. }
  destruct FM as [ss [EF FS]].
  set (ds := combine names (map (fun s => Given (slc_raw s)) ss)).
  assert (LS : List.length ss = List.length names).
  { apply map_res_length in EF. unfold zlen in EF. lia. }
  assert (KD : map fst ds = names) by (unfold ds; apply map_fst_combine; rewrite map_length; lia).
  assert (KG : map fst (combine names (map as_given items)) = names) by (apply map_fst_combine; rewrite map_length; lia).
  assert (ZIP : Forall2 (fun q p => fst q = fst p /\ exists s, snd q = Given (slc_raw s) /\
      exists d, In (fst p, d) (sc_dims c) /\ 0 < dim_len d /\ InRange (dim_len d) (slc_raw s) /\
        (forall l : list Z, zlen l = dim_len d -> py_select l (slc_raw s) = py_select l (item_raw (snd p))) /\
        (ByArray (slc_raw s) -> ByArray (item_raw (snd p)))) ds (combine names (map as_given items))).
  { unfold ds. clear - FS LEN LS. clearbody names. revert names ss LEN LS FS.
    induction items as [|i t IH]; intros [|n names] [|s ss] LEN LS FS; try discriminate; cbn [map combine List.length] in *; [constructor|].
    inversion FS; subst. constructor.
    - cbn [fst snd]. split; [reflexivity|]. exists s. split; [reflexivity|]. exact H2.
    - apply IH; [lia|lia|assumption]. }
  assert (SAME : SameSelections c ds (combine names (map as_given items))).
  { apply (forall2_pos _ _ _ _ ZIP). intros p q _ [E [s [ES [d [ID [P [R [SS BS]]]]]]]]. split; [assumption|].
    intros d2 I2 l ZL. rewrite E in I2. rewrite (nodup_fst_eq _ _ _ _ ND I2 ID) in ZL. rewrite ES. apply SS, ZL. }
  assert (IN : forall n i, In (n, i) ds -> exists s j d, i = Given (slc_raw s) /\ In (n, j) (combine names (map as_given items)) /\
      In (n, d) (sc_dims c) /\ 0 < dim_len d /\ InRange (dim_len d) (slc_raw s) /\ (ByArray (slc_raw s) -> ByArray (item_raw j))).
  { intros n i I. clear - ZIP I. induction ZIP as [|[n1 i1] [n2 j2] l l' [E [s [ES [d H]]]] F IH]; [contradiction|].
    cbn in E, ES, H. subst n2. destruct I as [X|I].
    - injection X as -> ->. exists s, j2, d. split; [assumption|]. split; [left; reflexivity|]. tauto.
    - destruct (IH I) as [s' [j [d' [HA [HB HC]]]]]. exists s', j, d'. split; [assumption|]. split; [right; assumption|exact HC]. }
  assert (SLF : Sliceable c ds).
  { destruct SL as [NEd [NKd [DS SV]]]. split; [assumption|]. split; [rewrite KD; assumption|]. split.
    - intros n i I. destruct (IN n i I) as [s [j [d [-> [J [ID [P [R _]]]]]]]]. exists d. auto.
    - intros k w W. destruct (SV k w W) as [ONE SING]. split.
      + intros n n' i i' N N' I I' B B'. destruct (IN n i I) as [s [j [d [-> [J [_ [_ [_ BS]]]]]]]].
        destruct (IN n' i' I') as [s' [j' [d' [-> [J' [_ [_ [_ BS']]]]]]]].
        apply (ONE n n' j j' N N' J J'); auto.
      + intros n i SD I. destruct (IN n i I) as [s [j [d [-> _]]]]. destruct s; exact Logic.I. }
  destruct (slice_collection_spec c ds CG SLF) as [c' [EC SC]].
  destruct (sliced_same c ds _ c' CG SAME SC) as [KD' [RD' RV']].
  assert (FO : exists v', dget String.eqb (sc_vars c') name = Some v').
  { destruct (dget String.eqb (sc_vars c') name) as [v'|] eqn:G; [eauto|]. exfalso. apply dget_str_none in G. apply G.
    replace (map fst (sc_vars c')) with (map fst (sc_vars c)); [apply (in_map fst) in IV; exact IV|].
    clear - RV'. induction RV' as [|x y l l' [E _] F IH]; cbn; congruence. }
  destruct FO as [v' G]. exists c', v'. unfold slice_variable.
  rewrite (proj2 (dget_str_In (sc_vars c) name v NV) IV).
  replace (zlen (sv_dims v) =? 0) with false by (symmetry; apply Z.eqb_neq; unfold zlen; fold names; destruct names; [congruence|cbn [List.length]; lia]).
  replace (zlen items =? zlen (sv_dims v)) with true by (symmetry; apply Z.eqb_eq; unfold zlen; fold names; lia).
  rewrite EF. cbn [bind]. fold names. rewrite dset_fold_nodup by (cbn; fold ds; rewrite KD; assumption).
  cbn [app]. fold ds. rewrite EC. cbn [bind]. rewrite G. split; [reflexivity|].
  split; [|exact (conj KD' (conj RD' RV'))].
  apply dget_str_In; [|assumption]. replace (map fst (sc_vars c')) with (map fst (sc_vars c)); [assumption|].
  clear - RV'. induction RV' as [|x y l l' [E _] F IH]; cbn; congruence.
Qed.

(** * Refusals *)
Lemma slice_dims_missing dims : forall ds acc n i, In (n, i) ds -> ~ In n (map fst dims) ->
  exists e, fold_res (fun acc p =>
    match dget String.eqb dims (fst p) with
    | None => Err KeyError
    | Some d => do d' <- dim_getitem d (item_raw (snd p)); Ok (dset String.eqb acc (fst p) d')
    end) ds acc = Err e.
Proof.
  induction ds as [|[m j] t IH]; intros acc n i I N; [contradiction|]. cbn [fold_res fst snd].
  destruct (dget String.eqb dims m) as [d|] eqn:G; [|exists KeyError; reflexivity].
  destruct I as [X|I].
  - injection X as -> ->. exfalso. apply N. destruct (in_dec string_dec n (map fst dims)) as [K|K]; [exact K|]. apply dget_str_none in K. congruence.
  - destruct (dim_getitem d (item_raw j)) as [d'|e]; cbn [bind]; [|exists e; reflexivity]. apply (IH _ n i I N).
Qed.

Lemma slice_refused {A} (c : scoll A) dslice :
  (sc_dims c = [] -> slice_collection c dslice = Err DimensionsRequiredError) /\
  (forall n i, In (n, i) dslice -> ~ In n (map fst (sc_dims c)) -> exists e, slice_collection c dslice = Err e).
Proof.
  split; [intros E; unfold slice_collection; rewrite E; reflexivity|]. intros n i I N.
  unfold slice_collection. destruct (sc_dims c) as [|p t] eqn:E; [eauto|].
  destruct (slice_dims_missing (p :: t) dslice (p :: t) n i I N) as [e X]. exists e.
  unfold slice_dims. rewrite X. reflexivity.
Qed.
