(** Proofs for C66. *)
From Verif Require Import Py Lib Spec PartitionModel DimensionModel DimensionSpec NdModel NdProofs ScopeModel ScopeSpec ScopeProofs ScopeInside SliceModel SliceSpec SliceProofs FieldModel FieldSpec.
From Coq Require Import Permutation.

Lemma renames_rn mapping names n m : CleanMapping mapping names -> RenamesTo mapping n m -> m = rn mapping n.
Proof.
  intros CL [[v [I J]]|[N ->]]; [symmetry; apply (rn_key mapping names CL m v n I J)|].
  unfold rn. destruct (first_key mapping n) as [k|] eqn:F; [|reflexivity]. exfalso. apply first_key_in in F. destruct F as [v [I J]]. apply (N k v I J).
Qed.

(** * Entering *)
Lemma back_nodup : forall l (dims : list (string * Z)) (r : renaming * option exc), NoDup (map fst (rn_back (fst r))) ->
  NoDup (map fst (rn_back (fst (fold_left (fun r kv => fold_left (rename_dim (fst kv) (snd kv)) dims r) l r)))).
Proof.
  assert (ONE : forall k v (r : renaming * option exc) kv, NoDup (map fst (rn_back (fst r))) -> NoDup (map fst (rn_back (fst (rename_dim k v r kv))))).
  { intros k v [r e] [ki vi] N. unfold rename_dim. cbn [fst snd] in *. destruct e; [exact N|]. destruct (str_mem ki v); [|exact N].
    destruct (String.eqb (rn_names r vi) k); cbn [fst rn_back]; [apply dset_nodup, N|].
    match goal with |- context [dmem ?a ?b ?c] => destruct (dmem a b c) end; cbn [fst rn_back]; apply dset_nodup, N. }
  assert (IN : forall k v (l : list (string * Z)) (r : renaming * option exc), NoDup (map fst (rn_back (fst r))) -> NoDup (map fst (rn_back (fst (fold_left (rename_dim k v) l r))))).
  { intros k v l. induction l as [|x t IH]; intros r N; [exact N|]. cbn [fold_left]. apply IH, ONE, N. }
  induction l as [|kv t IH]; intros dims r N; [exact N|]. cbn [fold_left]. apply IH, IN, N.
Qed.

Lemma enter_full c mapping : WellKeyed c -> DimsKnown c -> CleanMapping mapping (map fst (cs_dims c)) ->
  exists c1 back, rename_enter c mapping = (c1, back, None) /\
    NoDup (map fst (cs_dims c1)) /\
    (forall m d, dget String.eqb (cs_dims c1) m = Some d <-> exists n, In (n, d) (cs_dims c) /\ m = rn mapping n) /\
    (forall n d, In (n, d) (cs_dims c) -> cs_names c1 d = rn mapping n) /\
    cs_vars c1 = cs_vars c /\ cs_vname c1 = cs_vname c /\
    (forall k v, In (k, v) (cs_vars c) -> cs_vdims c1 v = map (rn mapping) (cs_vdims c v)) /\
    NoDup (map fst back) /\
    (forall n m, dget String.eqb back n = Some m <-> In n (map fst (cs_dims c)) /\ exists v, In (m, v) mapping /\ In n v).
Proof.
  intros [ND [NDo [KD [NV KV]]]] DK CL. unfold rename_enter.
  destruct (rename_dims_clean mapping (cs_dims c) CL ND NDo (cs_names c) KD) as [r [E [NR [NM [DM BK]]]]].
  assert (NB : NoDup (map fst (rn_back r))).
  { pose proof (back_nodup mapping (cs_dims c) (mkren (cs_names c) (cs_dims c) [], None) (NoDup_nil _)) as X. unfold rename_dims in E. rewrite E in X. exact X. }
  rewrite E.
  rewrite (map_res_ok _ (fun p => (fst p, map (rn mapping) (snd p)))).
  2:{ intros p I. destruct (original_vdims_vals c p I) as [k [v [J EV]]]. rewrite EV.
      rewrite (rename_vdims_clean mapping (map fst (cs_dims c)) CL); [reflexivity|].
      intros n X. apply (DK k v n J X). }
  destruct (assign_all (cs_vname c) (map (fun p => (fst p, map (rn mapping) (snd p))) (original_vdims c))
              (fun v => map (rn mapping) (cs_vdims c v)) (cs_vars c) (cs_vdims c)) as [f' [EA [FA FB]]].
  { intros k v I. rewrite dget_map_val. rewrite (KV k v I), (original_vdims_get c NV KV k v I). reflexivity. }
  rewrite EA. eexists. eexists. split; [reflexivity|]. cbn.
  split; [exact NR|]. split; [exact DM|]. split; [exact NM|]. split; [reflexivity|]. split; [reflexivity|].
  split; [exact FA|]. split; [exact NB|exact BK].
Qed.

(** * Reverting the dimensions *)
Section Revert.
Variable rho : string -> string.
Variable names : list string.
Variable back : list (string * string).
Variable dims : list (string * dim).
Hypothesis inj : forall n n', In n names -> In n' names -> rho n = rho n' -> n = n'.
Hypothesis keys : forall m, In m (map fst dims) <-> exists n, In n names /\ m = rho n.
Hypothesis nodup_dims : NoDup (map fst dims).
Hypothesis nodup_back : NoDup (map fst back).
Hypothesis back_in : forall n m, In (n, m) back -> In n names /\ m = rho n.
Hypothesis back_all : forall n, In n names -> rho n <> n -> In (n, rho n) back.
Hypothesis moved : forall n, In n names -> rho n <> n -> ~ In n (map fst dims).

Lemma swap_skip k r b : ~ (k = snd b /\ fst b <> snd b) -> swap_back k r b = r.
Proof.
  intros N. destruct b as [ki vi]. unfold swap_back. cbn [fst snd] in N.
  destruct (String.eqb_spec k vi); destruct (String.eqb_spec ki vi); cbn; try reflexivity. tauto.
Qed.
Lemma swap_skip_all k : forall l r, (forall b, In b l -> ~ (k = snd b /\ fst b <> snd b)) -> fold_left (swap_back k) l r = r.
Proof.
  induction l as [|b t IH]; intros r H; [reflexivity|]. cbn [fold_left]. rewrite swap_skip by (apply H; left; reflexivity).
  apply IH. intros b' I. apply H. right. exact I.
Qed.
Lemma inner_swap n r : In n names ->
  fold_left (swap_back (rho n)) back r = if String.eqb n (rho n) then r else swap_back (rho n) r (n, rho n).
Proof.
  intros I. destruct (String.eqb_spec n (rho n)) as [E|NE].
  - apply swap_skip_all. intros [ki vi] IB [E1 E2]. cbn [fst snd] in *. destruct (back_in ki vi IB) as [IK ->].
    apply inj in E1; [|assumption|assumption]. congruence.
  - assert (IB := back_all n I (fun e => NE (eq_sym e))). destruct (in_split _ _ IB) as [l1 [l2 EB]].
    assert (SK : forall b, In b l1 \/ In b l2 -> ~ (rho n = snd b /\ fst b <> snd b)).
    { intros [ki vi] J [E1 E2]. cbn [fst snd] in *.
      assert (JB : In (ki, vi) back) by (rewrite EB; apply in_or_app; cbn; tauto).
      destruct (back_in ki vi JB) as [IK ->]. apply inj in E1; [|assumption|assumption]. subst ki.
      rewrite EB, map_app in nodup_back. cbn [map fst] in nodup_back. apply NoDup_remove_2 in nodup_back. apply nodup_back.
      apply in_or_app. destruct J as [J|J]; [left|right]; apply (in_map fst) in J; exact J. }
    rewrite EB, fold_left_app. cbn [fold_left]. rewrite (swap_skip_all _ l1) by (intros b J; apply SK; left; exact J).
    rewrite (swap_skip_all _ l2) by (intros b J; apply SK; right; exact J). reflexivity.
Qed.

Definition RInv (done : list string) (r : list (string * dim) * list string) : Prop :=
  NoDup (map fst (fst r)) /\
  (forall x, In x names -> rho x <> x -> In (rho x) done ->
     dget String.eqb (fst r) x = option_map (fun d => named d x) (dget String.eqb dims (rho x))) /\
  (forall x, In x (map fst dims) -> ~ In x done -> dget String.eqb (fst r) x = dget String.eqb dims x) /\
  (forall x, In x names -> rho x = x -> dget String.eqb (fst r) x = dget String.eqb dims x) /\
  (forall x, ~ In x (map fst dims) -> ~ (In x names /\ In (rho x) done) -> dget String.eqb (fst r) x = None) /\
  (forall k, In k (snd r) <-> In k done /\ exists n, In n names /\ rho n = k /\ n <> k).

Lemma revert_step n done r : In n names -> ~ In (rho n) done -> RInv done r ->
  RInv (rho n :: done) (fold_left (swap_back (rho n)) back r).
Proof.
  intros I ND [N1 [R1 [R2 [R3 [R4 R5]]]]]. rewrite inner_swap by assumption.
  assert (KM : In (rho n) (map fst dims)) by (apply keys; eauto).
  destruct (String.eqb_spec n (rho n)) as [E|NE].
  - split; [assumption|]. split; [|split; [|split; [assumption|split]]].
    + intros x IX RX [X|X]; [|auto]. apply inj in X; [|assumption|assumption]. congruence.
    + intros x IX NX. apply R2; [assumption|]. intros X. apply NX. right. exact X.
    + intros x NX NN. apply R4; [assumption|]. intros [X1 X2]. apply NN. split; [assumption|right; assumption].
    + intros k. rewrite R5. split.
      * intros [D [m H]]. split; [right; assumption|eauto].
      * intros [[X|D] [m [IM [EM NM]]]]; [|split; [assumption|eauto]]. exfalso. subst k.
        apply inj in EM; [|assumption|assumption]. congruence.
  - unfold swap_back. rewrite String.eqb_refl. cbn [andb]. destruct (String.eqb_spec n (rho n)) as [E|_]; [congruence|]. cbn [negb].
    rewrite (R2 (rho n) KM ND). destruct (dget String.eqb dims (rho n)) as [d|] eqn:G; [|apply dget_str_none in G; contradiction].
    assert (NM : ~ In n (map fst dims)) by (apply moved; congruence).
    split; [|split; [|split; [|split; [|split]]]]; cbn [fst snd].
    + apply dset_nodup, dset_nodup, N1.
    + intros x IX RX [X|X].
      * apply inj in X; [|assumption|assumption]. subst x. rewrite dget_dset_same, G. reflexivity.
      * destruct (String.eqb_spec x n) as [->|NX]; [contradiction|]. rewrite dget_dset_other by assumption.
        rewrite dget_dset_other; [apply R1; assumption|]. intros ->. apply (moved _ IX RX KM).
    + intros x IX NX. rewrite dget_dset_other by (intros ->; contradiction).
      rewrite dget_dset_other by (intros ->; apply NX; left; reflexivity). apply R2; [assumption|]. intros X. apply NX. right. exact X.
    + intros x IX RX. rewrite dget_dset_other by (intros ->; congruence).
      rewrite dget_dset_other; [apply R3; assumption|]. intros E. rewrite <- RX in E. apply inj in E; [|assumption|assumption]. congruence.
    + intros x NX NN. rewrite dget_dset_other by (intros ->; apply NN; split; [assumption|left; reflexivity]).
      rewrite dget_dset_other by (intros ->; contradiction). apply R4; [assumption|]. intros [X1 X2]. apply NN. split; [assumption|right; assumption].
    + assert (NS : ~ In (rho n) (snd r)) by (rewrite R5; tauto). apply str_mem_nIn in NS. rewrite NS. intros k. rewrite in_app_iff, R5. cbn [In]. split.
      * intros [[D H]|[<-|[]]]; [split; [right; assumption|assumption]|]. split; [left; reflexivity|]. exists n. auto.
      * intros [[<-|D] H]; [right; left; reflexivity|left; auto].
Qed.

Lemma revert_fold : forall ms done r, NoDup ms -> (forall m, In m ms -> In m (map fst dims) /\ ~ In m done) -> RInv done r ->
  exists r' done', fold_left (fun r k => fold_left (swap_back k) back r) ms r = r' /\ RInv done' r' /\ forall k, In k done' <-> In k done \/ In k ms.
Proof.
  induction ms as [|m t IH]; intros done r ND H R; [exists r, done; split; [reflexivity|]; split; [assumption|]; cbn; tauto|].
  inversion ND; subst. destruct (H m (or_introl eq_refl)) as [KM NM]. apply keys in KM. destruct KM as [n [I ->]].
  cbn [fold_left]. destruct (IH (rho n :: done) (fold_left (swap_back (rho n)) back r)) as [r' [done' [E [R' D]]]].
  - assumption.
  - intros m J. destruct (H m (or_intror J)) as [A B]. split; [assumption|]. intros [X|X]; [subst m; contradiction|contradiction].
  - apply revert_step; assumption.
  - exists r', done'. split; [exact E|]. split; [assumption|]. intros k. rewrite D. cbn. tauto.
Qed.

Lemma remove_fold {V} : forall ks (d : list (string * V)), NoDup (map fst d) ->
  NoDup (map fst (fold_left (fun d k => dremove String.eqb d k) ks d)) /\
  forall x, dget String.eqb (fold_left (fun d k => dremove String.eqb d k) ks d) x = if str_mem x ks then None else dget String.eqb d x.
Proof.
  induction ks as [|k t IH]; intros d N; [split; [assumption|reflexivity]|]. cbn [fold_left].
  destruct (dremove_keys d k N) as [N1 G1]. destruct (IH _ N1) as [N2 G2]. split; [assumption|]. intros x. rewrite G2, G1.
  unfold str_mem. cbn [existsb]. destruct (String.eqb x k); cbn; [destruct (existsb (String.eqb x) t); reflexivity|reflexivity].
Qed.

Lemma revert_dims_spec : NoDup (map fst (revert_dims back dims)) /\
  (forall x, In x names -> dget String.eqb (revert_dims back dims) x =
     option_map (fun d => if String.eqb x (rho x) then d else named d x) (dget String.eqb dims (rho x))) /\
  (forall x, ~ In x names -> dget String.eqb (revert_dims back dims) x = None).
Proof.
  unfold revert_dims.
  destruct (revert_fold (map fst dims) [] (dims, []) nodup_dims) as [[D ts] [done [E [[N1 [R1 [R2 [R3 [R4 R5]]]]] DN]]]].
  { intros m I. split; [assumption|intros []]. }
  { split; [assumption|]. cbn [fst snd]. split; [intros x _ _ []|]. split; [reflexivity|]. split; [reflexivity|]. split.
    - intros x NX _. apply dget_str_none, NX.
    - intros k. split; [intros []|intros [[] _]]. }
  rewrite E. cbn [fst snd] in *. destruct (remove_fold ts D N1) as [N2 G2]. split; [assumption|].
  assert (DN' : forall k, In k done <-> In k (map fst dims)) by (intros k; rewrite DN; cbn; tauto).
  split; intros x IX; rewrite G2.
  - destruct (String.eqb_spec x (rho x)) as [EX|NX].
    + assert (NT : ~ In x ts). { rewrite R5. intros [_ [n [I [RN NN]]]]. rewrite EX in RN. apply inj in RN; [|assumption|assumption]. congruence. }
      apply str_mem_nIn in NT. rewrite NT, <- EX. rewrite (R3 x IX (eq_sym EX)). destruct (dget String.eqb dims x); reflexivity.
    + assert (NM : ~ In x (map fst dims)) by (apply moved; congruence).
      assert (NT : ~ In x ts) by (rewrite R5, DN'; tauto). apply str_mem_nIn in NT. rewrite NT.
      apply R1; [assumption|congruence|]. apply DN', keys. eauto.
  - destruct (str_mem x ts) eqn:M; [reflexivity|]. apply str_mem_nIn in M. destruct (in_dec string_dec x (map fst dims)) as [K|K].
    + exfalso. apply M. apply R5. split; [apply DN', K|]. apply keys in K. destruct K as [n [I ->]]. exists n. split; [assumption|]. split; [reflexivity|]. intros E'. apply IX. rewrite <- E'. exact I.
    + apply R4; [assumption|tauto].
Qed.
End Revert.

(** * A collection with its dimensions renamed *)
Definition Renamed {A} (rho : string -> string) (c c1 : scoll A) : Prop :=
  NoDup (map fst (sc_dims c1)) /\
  (forall n d, In (n, d) (sc_dims c) -> In (rho n, named d (rho n)) (sc_dims c1)) /\
  (forall m d1, In (m, d1) (sc_dims c1) -> exists n d, In (n, d) (sc_dims c) /\ m = rho n /\ d1 = named d m) /\
  Forall2 (fun p q => fst q = fst p /\ snd q = mksvar (map rho (sv_dims (snd p))) (sv_value (snd p)) (sv_mask (snd p))) (sc_vars c) (sc_vars c1).

Lemma forall2_in_r {X Y} (R : X -> Y -> Prop) l l' y : Forall2 R l l' -> In y l' -> exists x, In x l /\ R x y.
Proof. induction 1 as [|a b l l' H F IH]; [intros []|]. intros [<-|I]; [exists a; split; [left; reflexivity|assumption]|]. destruct (IH I) as [x [J K]]. exists x. split; [right; assumption|assumption]. Qed.
Lemma forall2_in_l {X Y} (R : X -> Y -> Prop) l l' x : Forall2 R l l' -> In x l -> exists y, In y l' /\ R x y.
Proof. induction 1 as [|a b l l' H F IH]; [intros []|]. intros [<-|I]; [exists b; split; [left; reflexivity|assumption]|]. destruct (IH I) as [y [J K]]. exists y. split; [right; assumption|assumption]. Qed.
Lemma nodup_map_inj {X Y} (g : X -> Y) l : (forall a b, In a l -> In b l -> g a = g b -> a = b) -> NoDup l -> NoDup (map g l).
Proof.
  intros H N. induction N as [|x l NI N IH]; [constructor|]. cbn [map]. constructor.
  - intros K. apply in_map_iff in K. destruct K as [y [E J]]. apply NI. rewrite (H x y); [assumption|left; reflexivity|right; assumption|congruence].
  - apply IH. intros a b Ha Hb. apply H; right; assumption.
Qed.

Section Transport.
Context {A : Type}.
Variable rho : string -> string.
Variable c c1 : scoll A.
Hypothesis congr : Congruent c.
Hypothesis inj : forall n n', In n (map fst (sc_dims c)) -> In n' (map fst (sc_dims c)) -> rho n = rho n' -> n = n'.
Hypothesis ren : Renamed rho c c1.

Lemma vdims_known k v n : In (k, v) (sc_vars c) -> In n (sv_dims v) -> In n (map fst (sc_dims c)).
Proof.
  intros I J. destruct congr as [_ [_ [_ VS]]]. destruct (VS k v I) as [_ [shape [F _]]].
  destruct (forall2_in_l _ _ _ _ F J) as [s [_ [d [ID _]]]]. apply (in_map fst) in ID. exact ID.
Qed.

Lemma renamed_congruent : Congruent c1.
Proof.
  destruct congr as [ND [DN [NV VS]]]. destruct ren as [N1 [F1 [B1 V1]]].
  split; [assumption|]. split; [|split].
  - intros m d1 I. destruct (B1 m d1 I) as [n [d [J [-> ->]]]]. split; [reflexivity|]. destruct (DN n d J) as [_ [l R]]. exists l. exact R.
  - replace (map fst (sc_vars c1)) with (map fst (sc_vars c)); [assumption|].
    clear - V1. induction V1 as [|p q l l' [E _] F IH]; cbn; [reflexivity|congruence].
  - intros k v1 I. destruct (forall2_in_r _ _ _ _ V1 I) as [[k0 v] [J [E1 E2]]]. cbn [fst snd] in E1, E2. subst k0 v1.
    destruct (VS k v J) as [NDv [shape [FS [HV HM]]]]. cbn [sv_dims sv_value sv_mask]. split.
    + apply nodup_map_inj; [|assumption]. intros a b Ha Hb. apply inj; apply (vdims_known k v); assumption.
    + exists shape. split; [|split; assumption]. clear - FS F1. induction FS as [|n s l l' [d [ID ->]] F IH]; [constructor|]. cbn [map]. constructor; [|exact IH].
      exists (named d (rho n)). split; [apply F1, ID|reflexivity].
Qed.

Variable ds own : list (string * item).
Hypothesis trans : Forall2 (fun p q => snd p = snd q /\ In (fst q) (map fst (sc_dims c)) /\ fst p = rho (fst q)) ds own.

Lemma trans_in m i : In (m, i) ds -> exists n, In (n, i) own /\ m = rho n /\ In n (map fst (sc_dims c)).
Proof.
  intros I. destruct (forall2_in_l _ _ _ _ trans I) as [[n j] [J [E1 [E2 E3]]]]. cbn [fst snd] in *. subst j m. exists n. auto.
Qed.

Lemma renamed_sliceable : Sliceable c own -> Sliceable c1 ds.
Proof.
  intros [NE [NK [DS SV]]]. destruct ren as [N1 [F1 [B1 V1]]].
  split; [|split; [|split]].
  - intros E. destruct (sc_dims c) as [|[n d] t] eqn:EC; [congruence|]. specialize (F1 n d (or_introl eq_refl)). rewrite E in F1. exact F1.
  - assert (EK : map fst ds = map rho (map fst own)).
    { clear - trans. induction trans as [|p q l l' [_ [_ E]] F IH]; cbn [map]; [reflexivity|]. rewrite E. f_equal. exact (IH F). }
    rewrite EK. apply nodup_map_inj; [|assumption]. intros a b Ha Hb. apply inj.
    + apply in_map_iff in Ha. destruct Ha as [q [<- IQ]]. destruct (forall2_in_r _ _ _ _ trans IQ) as [p [_ [_ [H _]]]]. exact H.
    + apply in_map_iff in Hb. destruct Hb as [q [<- IQ]]. destruct (forall2_in_r _ _ _ _ trans IQ) as [p [_ [_ [H _]]]]. exact H.
  - intros m i I. destruct (trans_in m i I) as [n [J [-> _]]]. destruct (DS n i J) as [d [ID H]]. exists (named d (rho n)). split; [apply F1, ID|exact H].
  - intros k v1 IV. destruct (forall2_in_r _ _ _ _ V1 IV) as [[k0 v] [J [E1 E2]]]. cbn [fst snd] in E1, E2. subst k0 v1. cbn [sv_dims].
    destruct (SV k v J) as [ONE SING]. split.
    + intros m m' i i' IM IM' ID ID' BA BA'.
      destruct (trans_in m i ID) as [n [JN [-> KN]]]. destruct (trans_in m' i' ID') as [n' [JN' [-> KN']]].
      apply in_map_iff in IM. destruct IM as [x [EX IX]]. apply in_map_iff in IM'. destruct IM' as [x' [EX' IX']].
      apply inj in EX; [|apply (vdims_known k v); assumption|assumption]. apply inj in EX'; [|apply (vdims_known k v); assumption|assumption]. subst x x'.
      f_equal. apply (ONE n n' i i'); assumption.
    + intros m i E I. destruct (trans_in m i I) as [n [JN [-> KN]]]. apply (SING n i); [|assumption].
      destruct (sv_dims v) as [|x [|y t]] eqn:EV; try discriminate. cbn [map] in E. injection E as E.
      apply inj in E; [congruence| |assumption]. apply (vdims_known k v); [assumption|]. rewrite EV. left. reflexivity.
Qed.

Lemma trans_get n : In n (map fst (sc_dims c)) -> dget String.eqb ds (rho n) = dget String.eqb own n.
Proof.
  intros I. clear - trans I inj. induction trans as [|[m i] [n' i'] l l' [E1 [E2 E3]] F IH]; [reflexivity|]. cbn [fst snd] in *. subst i' m. cbn [dget].
  destruct (String.eqb_spec (rho n) (rho n')) as [E|NE].
  - apply inj in E; [|assumption|assumption]. subst n'. rewrite String.eqb_refl. reflexivity.
  - destruct (String.eqb_spec n n') as [->|_]; [congruence|exact (IH F)].
Qed.
End Transport.

Lemma named_named d a b : named (named d a) b = named d b.
Proof. reflexivity. Qed.
Lemma named_self d n : d_name d = n -> named d n = d.
Proof. intros <-. destruct d. reflexivity. Qed.

Lemma sliced_back {A} rho (c c1 : scoll A) ds own (back : list (string * string)) vdims c2 :
  Congruent c -> (forall n n', In n (map fst (sc_dims c)) -> In n' (map fst (sc_dims c)) -> rho n = rho n' -> n = n') -> Renamed rho c c1 ->
  Forall2 (fun p q => snd p = snd q /\ In (fst q) (map fst (sc_dims c)) /\ fst p = rho (fst q)) ds own ->
  NoDup (map fst back) -> (forall n m, In (n, m) back -> In n (map fst (sc_dims c)) /\ m = rho n) ->
  (forall n, In n (map fst (sc_dims c)) -> rho n <> n -> In (n, rho n) back) ->
  (forall n n', In n (map fst (sc_dims c)) -> In n' (map fst (sc_dims c)) -> rho n <> n -> n <> rho n') ->
  (forall k v, In (k, v) (sc_vars c) -> dget String.eqb vdims k = Some (sv_dims v)) ->
  SlicedTo c1 ds c2 -> exists r, revert vdims back c2 = Ok r /\ SlicedField c own r.
Proof.
  intros CG INJ RN TR NB BI BA MV VD [KD [RD RV]]. assert (CG' := CG). destruct CG' as [ND [DN [NV VS]]].
  assert (CG1 : Congruent c1) by (apply (renamed_congruent rho c); assumption).
  destruct RN as [N1 [F1 [B1 V1]]]. set (names := map fst (sc_dims c)) in *.
  assert (KEYS : forall m, In m (map fst (sc_dims c2)) <-> exists n, In n names /\ m = rho n).
  { intros m. rewrite KD. split.
    - intros I. apply in_map_iff in I. destruct I as [[m' d1] [E I]]. cbn in E. subst m'. destruct (B1 m d1 I) as [n [d [J [E _]]]]. exists n. split; [|exact E]. apply (in_map fst) in J. exact J.
    - intros [n [I ->]]. apply in_map_iff in I. destruct I as [[n' d] [E I]]. cbn in E. subst n'. apply F1 in I. apply (in_map fst) in I. exact I. }
  assert (ND2 : NoDup (map fst (sc_dims c2))) by (rewrite KD; apply CG1).
  destruct (revert_dims_spec rho names back (sc_dims c2) INJ KEYS ND2 NB BI BA) as [NR [GR GN]].
  { intros n I R K. apply KEYS in K. destruct K as [n' [I' E]]. apply (MV n n' I I' R E). }
  (* variables *)
  assert (VARS : exists vars, map_res (fun p => match dget String.eqb vdims (fst p) with None => Err KeyError
      | Some names => Ok (fst p, mksvar names (sv_value (snd p)) (sv_mask (snd p))) end) (sc_vars c2) = Ok vars /\
      Forall2 (fun kv kv' => fst kv' = fst kv /\ sv_dims (snd kv') = sv_dims (snd kv) /\
     exists sels, Forall2 (fun n ps => exists d, In (n, d) (sc_dims c) /\ Positions own n (dim_len d) ps)
                          (sv_dims (snd kv)) sels /\
       Both (Selected sels) (sv_value (snd kv)) (sv_value (snd kv')) /\
       Both (Selected sels) (sv_mask (snd kv)) (sv_mask (snd kv'))) (sc_vars c) vars).
  { assert (VK : forall k v n, In (k, v) (sc_vars c) -> In n (sv_dims v) -> In n names) by (intros k v n; apply (vdims_known c CG)).
    clear NV VS KEYS ND2 NR GR GN RD KD. revert VD VK RV V1. generalize (sc_vars c), (sc_vars c1), (sc_vars c2).
    intros l l1 l2 VD VK RV V1. revert l2 RV. induction V1 as [|[k v] [k1 v1] l l1 [E1 E2] F IH]; intros l2 RV; inversion RV as [|? [k2 v2] ? l2' [E3 [E4 [sels [FP [BV BM]]]]] RV']; subst.
    - exists []. split; [reflexivity|constructor].
    - cbn [fst snd] in *. subst v1 k1 k2. destruct (IH (fun k' v' I => VD k' v' (or_intror I)) (fun k' v' n I => VK k' v' n (or_intror I)) l2' RV') as [vars [EV FV]].
      exists ((k, mksvar (sv_dims v) (sv_value v2) (sv_mask v2)) :: vars). cbn [map_res fst snd]. rewrite (VD k v (or_introl eq_refl)). cbn [bind]. rewrite EV. split; [reflexivity|].
      constructor; [|assumption]. cbn [fst snd sv_dims sv_value sv_mask]. split; [reflexivity|]. split; [reflexivity|]. exists sels. cbn [sv_dims sv_value sv_mask] in *. split; [|split; assumption].
      assert (VK' : forall n, In n (sv_dims v) -> In n names) by (intros n; apply (VK k v n); left; reflexivity).
      clear - FP VK' B1 TR INJ ND. revert sels FP VK'. generalize (sv_dims v). induction l as [|n t IHt]; intros sels FP VK'; inversion FP as [|? ps ? sels' [d1 [I1 P1]] FP']; subst; [constructor|].
      constructor; [|apply IHt; [assumption|intros; apply VK'; right; assumption]].
      destruct (B1 _ _ I1) as [n' [d [J [E ->]]]]. assert (n' = n).
      { symmetry. apply INJ; [apply VK'; left; reflexivity|apply (in_map fst) in J; exact J|exact E]. }
      subst n'. exists d. split; [assumption|]. unfold Positions in *. rewrite (trans_get rho c INJ ds own TR n) in P1 by (apply VK'; left; reflexivity). exact P1. }
  destruct VARS as [vars [EV FV]]. exists (mkscoll (revert_dims back (sc_dims c2)) vars). unfold revert. rewrite EV. split; [reflexivity|].
  split; [|split]; cbn [sc_dims sc_vars]; [|..|exact FV].
  - apply NoDup_Permutation; [assumption|assumption|]. intros x. split.
    + intros I. destruct (in_dec string_dec x names) as [K|K]; [exact K|]. apply GN in K. apply dget_str_none in K. contradiction.
    + intros I. fold names in I. destruct (in_dec string_dec x (map fst (revert_dims back (sc_dims c2)))) as [K|K]; [exact K|]. exfalso.
      apply dget_str_none in K. rewrite (GR x I) in K. destruct (dget String.eqb (sc_dims c2) (rho x)) eqn:G; [discriminate|]. apply dget_str_none in G. apply G, KEYS. eauto.
  - intros n d I. assert (IN : In n names) by (apply (in_map fst) in I; exact I).
    destruct (DN n d I) as [NM _]. destruct (RD (rho n) (named d (rho n)) (F1 n d I)) as [d' [I' H]].
    rewrite (trans_get rho c INJ ds own TR n IN) in H.
    assert (G := GR n IN). rewrite (proj2 (dget_str_In (sc_dims c2) (rho n) d' ND2) I') in G. cbn [option_map] in G.
    apply dget_str_In in G; [|assumption]. eexists. split; [exact G|].
    destruct (String.eqb_spec n (rho n)) as [E|NE].
    + destruct (dget String.eqb own n) as [i|].
      * destruct H as [HN H]. split; [congruence|]. intros l R. exact (H l R).
      * subst d'. rewrite <- E. split; [reflexivity|]. apply named_self, NM.
    + split; [reflexivity|]. destruct (dget String.eqb own n) as [i|].
      * destruct H as [_ H]. intros l R. exact (H l R).
      * subst d'. rewrite named_named. apply named_self, NM.
Qed.
