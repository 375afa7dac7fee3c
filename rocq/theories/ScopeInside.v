(** What the body of [renamed_dimensions_on_variables] finds. *)
From Verif Require Import Py Lib Spec NdModel NdProofs ScopeModel ScopeSpec ScopeProofs.

Definition rn (mapping : list (string * list string)) (n : string) : string :=
  match first_key mapping n with Some k => k | None => n end.

Lemma rn_renames mapping n : RenamesTo mapping n (rn mapping n).
Proof.
  unfold rn. destruct (first_key mapping n) as [k|] eqn:F.
  - left. apply first_key_in, F.
  - right. split; [apply first_key_none, F|reflexivity].
Qed.

Lemma nodup_fst_eq {B} (l : list (string * B)) k v v' : NoDup (map fst l) -> In (k, v) l -> In (k, v') l -> v = v'.
Proof.
  induction l as [|[k0 v0] t IH]; cbn; [tauto|]. intros N. inversion N; subst.
  intros [E|I] [E'|I'].
  - congruence.
  - injection E as -> ->. exfalso. apply H1. apply (in_map fst) in I'. exact I'.
  - injection E' as -> ->. exfalso. apply H1. apply (in_map fst) in I. exact I.
  - apply IH; assumption.
Qed.

Section Clean.
Variable mapping : list (string * list string).
Variable names : list string.
Hypothesis clean : CleanMapping mapping names.

Lemma rn_key k v n : In (k, v) mapping -> In n v -> rn mapping n = k.
Proof.
  intros I J. destruct clean as [NK [U _]]. unfold rn. destruct (first_key mapping n) as [k'|] eqn:F.
  - apply first_key_in in F. destruct F as [v' [A B]]. apply (U k' v' k v n); assumption.
  - exfalso. apply (first_key_none _ _ F k v I J).
Qed.

Lemma rn_inj n n' : In n names -> In n' names -> rn mapping n = rn mapping n' -> n = n'.
Proof.
  intros I I' E. destruct clean as [NK [U [O S]]]. unfold rn in E.
  destruct (first_key mapping n) as [k|] eqn:F; destruct (first_key mapping n') as [k'|] eqn:F'.
  - subst k'. apply first_key_in in F. apply first_key_in in F'. destruct F as [v [A B]], F' as [v' [A' B']].
    rewrite (nodup_fst_eq _ _ _ _ NK A' A) in B'. apply (O k v n n'); assumption.
  - subst n'. apply first_key_in in F. destruct F as [v [A B]]. apply (S k v n); assumption.
  - subst n. apply first_key_in in F'. destruct F' as [v [A B]]. symmetry. apply (S k' v n'); assumption.
  - exact E.
Qed.

(** * Dimension names of a variable *)
Lemma rename_vdim_fold vdn : forall l to_set, incl l mapping -> NoDup (map fst l) ->
  fold_res (fun to_set kv => if str_mem vdn (snd kv) then do i <- str_index to_set vdn; Ok (set_nth to_set i (fst kv))
                             else Ok to_set) l to_set =
  match first_key l vdn with
  | Some k => do i <- str_index to_set vdn; Ok (set_nth to_set i k)
  | None => Ok to_set
  end.
Proof.
  induction l as [|[k v] t IH]; intros ts IN ND; [reflexivity|]. cbn [fold_res first_key fst snd].
  cbn in ND. inversion ND; subst.
  assert (INt : incl t mapping) by (intros x X; apply IN; right; exact X).
  destruct (str_mem vdn v) eqn:M.
  - apply str_mem_In in M.
    destruct (str_index ts vdn) as [i|]; [|reflexivity]. cbn [bind]. rewrite IH by assumption.
    destruct (first_key t vdn) as [k'|] eqn:F; [|reflexivity]. exfalso.
    apply first_key_in in F. destruct F as [v' [A B]]. destruct clean as [_ [U _]].
    assert (k = k') by (exact (U k v k' v' vdn (IN _ (or_introl eq_refl)) (INt _ A) M B)).
    subst k'. apply H1. apply (in_map fst) in A. exact A.
  - cbn [bind]. apply IH; assumption.
Qed.

Lemma set_nth_middle {A} (p : list A) x y t : set_nth (p ++ x :: t) (List.length p) y = p ++ y :: t.
Proof. induction p as [|z p IH]; cbn; [reflexivity|]. rewrite IH. reflexivity. Qed.
Lemma set_nth_same {A} : forall (l : list A) i x, nth_error l i = Some x -> set_nth l i x = l.
Proof.
  induction l as [|y t IH]; intros [|i] x; cbn; try discriminate.
  - intros E. injection E as ->. reflexivity.
  - intros E. rewrite IH by assumption. reflexivity.
Qed.
Lemma str_index_first : forall l x i, str_index l x = Ok i -> nth_error l i = Some x /\ forall j, (j < i)%nat -> nth_error l j <> Some x.
Proof.
  induction l as [|y t IH]; intros x i; cbn; [discriminate|].
  destruct (String.eqb y x) eqn:E.
  - intros H. injection H as <-. apply String.eqb_eq in E. subst. split; [reflexivity|intros; lia].
  - destruct (str_index t x) as [k|] eqn:F; [|discriminate]. cbn. intros H. injection H as <-.
    destruct (IH x k F) as [A B]. split; [exact A|]. intros [|j] J; cbn.
    + apply String.eqb_neq in E. congruence.
    + apply B. lia.
Qed.

Lemma rename_vdims_clean_gen : forall suf pre, incl (pre ++ suf) names ->
  fold_res (rename_vdim mapping) suf (map (rn mapping) pre ++ suf) = Ok (map (rn mapping) (pre ++ suf)).
Proof.
  induction suf as [|x t IH]; intros pre IN; [cbn; rewrite !app_nil_r; reflexivity|].
  assert (NK : NoDup (map fst mapping)) by apply clean.
  assert (ST : rename_vdim mapping (map (rn mapping) pre ++ x :: t) x = Ok (map (rn mapping) (pre ++ [x]) ++ t)).
  { unfold rename_vdim. rewrite rename_vdim_fold by (assumption || apply incl_refl).
    rewrite map_app, <- app_assoc. cbn [map app].
    destruct (first_key mapping x) as [k|] eqn:F.
    - assert (RX : rn mapping x = k) by (unfold rn; rewrite F; reflexivity).
      destruct (str_index_ok (map (rn mapping) pre ++ x :: t) x) as [i [SI _]]; [apply in_or_app; right; left; reflexivity|].
      rewrite SI. cbn [bind]. destruct (str_index_first _ _ _ SI) as [NI LT].
      destruct (Nat.lt_ge_cases i (List.length (map (rn mapping) pre))) as [L|G].
      + assert (NP := NI). rewrite nth_error_app1 in NP by assumption.
        apply nth_error_In in NP. apply in_map_iff in NP. destruct NP as [p [RP IP]].
        assert (p = x).
        { assert (In p names) by (apply IN, in_or_app; left; assumption).
          assert (In x names) by (apply IN, in_or_app; right; left; reflexivity).
          unfold rn in RP. destruct (first_key mapping p) as [kp|] eqn:FP; [|assumption].
          subst kp. apply first_key_in in FP. destruct FP as [v [A B]]. apply (proj2 (proj2 (proj2 clean)) x v p); assumption. }
        subst p. rewrite RP in *. subst k. rewrite set_nth_same by assumption. reflexivity.
      + assert (i = List.length (map (rn mapping) pre)).
        { destruct (Nat.eq_dec i (List.length (map (rn mapping) pre))); [assumption|]. exfalso.
          apply (LT (List.length (map (rn mapping) pre))); [lia|].
          rewrite nth_error_app2, Nat.sub_diag by lia. reflexivity. }
        subst i. rewrite set_nth_middle, RX. reflexivity.
    - assert (RX : rn mapping x = x) by (unfold rn; rewrite F; reflexivity). rewrite RX. reflexivity. }
  cbn [fold_res]. rewrite ST. cbn [bind].
  assert (AP : pre ++ x :: t = (pre ++ [x]) ++ t) by (rewrite <- app_assoc; reflexivity).
  rewrite IH by (rewrite <- AP; assumption). rewrite <- AP. reflexivity.
Qed.

Lemma rename_vdims_clean l : incl l names -> rename_vdims mapping l = Ok (map (rn mapping) l).
Proof. intros H. apply (rename_vdims_clean_gen l [] H). Qed.
End Clean.

(** * Dictionaries *)
Lemma dset_keys_mem {V} (d : list (string * V)) k v : dmem String.eqb d k = true -> map fst (dset String.eqb d k v) = map fst d.
Proof.
  unfold dmem. induction d as [|[k' v'] t IH]; cbn; [discriminate|].
  destruct (String.eqb k k') eqn:E; cbn; [reflexivity|]. intros H. rewrite IH by assumption. reflexivity.
Qed.
Lemma dset_keys_new {V} (d : list (string * V)) k v : dget String.eqb d k = None -> dset String.eqb d k v = d ++ [(k, v)].
Proof.
  induction d as [|[k' v'] t IH]; cbn; [reflexivity|].
  destruct (String.eqb k k') eqn:E; cbn; [discriminate|]. intros H. rewrite IH by assumption. reflexivity.
Qed.
Lemma dget_str_none {V} (d : list (string * V)) n : dget String.eqb d n = None <-> ~ In n (map fst d).
Proof.
  induction d as [|[k v] t IH]; cbn; [tauto|].
  destruct (String.eqb_spec n k) as [->|N]; [split; [discriminate|tauto]|]. rewrite IH. intuition congruence.
Qed.
Lemma dget_str_In {V} (d : list (string * V)) n v : NoDup (map fst d) -> (dget String.eqb d n = Some v <-> In (n, v) d).
Proof.
  induction d as [|[k x] t IH]; cbn; [split; [discriminate|tauto]|]. intros N. inversion N; subst.
  destruct (String.eqb_spec n k) as [->|NE].
  - split; [intros E; injection E as ->; auto|]. intros [E|I]; [injection E as ->; reflexivity|].
    exfalso. apply H1. apply (in_map fst) in I. exact I.
  - rewrite IH by assumption. split; [auto|]. intros [E|I]; [congruence|assumption].
Qed.
Lemma dset_nodup {V} (d : list (string * V)) k v : NoDup (map fst d) -> NoDup (map fst (dset String.eqb d k v)).
Proof.
  intros N. destruct (dget String.eqb d k) as [x|] eqn:G.
  - rewrite dset_keys_mem; [assumption|]. unfold dmem. rewrite G. reflexivity.
  - rewrite dset_keys_new by assumption. rewrite map_app. cbn. apply dget_str_none in G.
    clear - N G. induction (map fst d) as [|y t IH]; cbn; [constructor; [tauto|constructor]|].
    inversion N; subst. cbn in G. constructor; [|apply IH; tauto].
    rewrite in_app_iff. cbn. intros [A|[A|[]]]; [contradiction|subst; tauto].
Qed.
Lemma dremove_keys {V} (d : list (string * V)) k : NoDup (map fst d) ->
  NoDup (map fst (dremove String.eqb d k)) /\
  (forall n, dget String.eqb (dremove String.eqb d k) n = if String.eqb n k then None else dget String.eqb d n).
Proof.
  induction d as [|[k' v'] t IH]; cbn; [intros _; split; [constructor|intros n; destruct (String.eqb n k); reflexivity]|].
  intros N. inversion N; subst. destruct (IH H2) as [A B].
  destruct (String.eqb_spec k k') as [->|NE].
  - split; [assumption|]. intros n. destruct (String.eqb_spec n k') as [->|NE]; [apply dget_str_none, H1|reflexivity].
  - cbn. split.
    + constructor; [|assumption]. intros I. apply H1.
      destruct (dget String.eqb t k') as [x|] eqn:G.
      * apply dget_str_In in G; [|assumption]. apply (in_map fst) in G. exact G.
      * exfalso. assert (X := B k'). destruct (String.eqb_spec k' k); [congruence|]. rewrite G in X.
        apply dget_str_none in X. contradiction.
    + intros n. rewrite B. destruct (String.eqb_spec n k') as [->|NE']; [|reflexivity].
      destruct (String.eqb_spec k' k); [congruence|reflexivity].
Qed.

(** * Dimensions of the collection *)
Section Dims.
Variable mapping : list (string * list string).
Variable dims : list (string * Z).
Hypothesis clean : CleanMapping mapping (map fst dims).
Hypothesis nodup_keys : NoDup (map fst dims).
Hypothesis nodup_objs : NoDup (map snd dims).

Definition cur (acted : list string) (n : string) : string := if str_mem n acted then rn mapping n else n.

Definition DInv (r : renaming) (acted : list string) : Prop :=
  incl acted (map fst dims) /\
  NoDup (map fst (rn_dims r)) /\
  (forall n d, In (n, d) dims -> rn_names r d = cur acted n) /\
  (forall m d, dget String.eqb (rn_dims r) m = Some d <-> exists n, In (n, d) dims /\ m = cur acted n) /\
  (forall n m, dget String.eqb (rn_back r) n = Some m <-> In n acted /\ m = rn mapping n).

Lemma nodup_snd_eq (l : list (string * Z)) n n' d : NoDup (map snd l) -> In (n, d) l -> In (n', d) l -> n = n'.
Proof.
  induction l as [|[k v] t IH]; cbn; [tauto|]. intros N. inversion N; subst.
  intros [E|I] [E'|I'].
  - congruence.
  - injection E as -> ->. exfalso. apply H1. apply (in_map snd) in I'. exact I'.
  - injection E' as -> ->. exfalso. apply H1. apply (in_map snd) in I. exact I.
  - apply IH; assumption.
Qed.

Lemma cur_cons x acted n : cur (x :: acted) n = if String.eqb n x then rn mapping n else cur acted n.
Proof. unfold cur, str_mem. cbn. destruct (String.eqb n x); reflexivity. Qed.

Lemma rename_dim_step r acted k v ki vi : DInv r acted -> In (k, v) mapping -> In (ki, vi) dims -> In ki v -> ~ In ki acted ->
  exists r', rename_dim k v (r, None) (ki, vi) = (r', None) /\ DInv r' (ki :: acted).
Proof.
  intros [IA [ND [NM [DM BK]]]] IM ID IV NA.
  assert (KN : In ki (map fst dims)) by (apply (in_map fst) in ID; exact ID).
  assert (RK : rn mapping ki = k) by (apply (rn_key mapping (map fst dims) clean k v ki IM IV)).
  assert (CK : cur acted ki = ki) by (unfold cur; apply str_mem_nIn in NA; rewrite NA; reflexivity).
  assert (ON : rn_names r vi = ki) by (rewrite (NM ki vi ID); exact CK).
  assert (GK : dget String.eqb (rn_dims r) ki = Some vi) by (apply DM; exists ki; auto).
  unfold rename_dim. cbn [fst snd]. rewrite (proj2 (str_mem_In ki v) IV). rewrite ON.
  assert (NAMES : forall n d, In (n, d) dims -> set_name (rn_names r) vi k d = cur (ki :: acted) n).
  { intros n d I. unfold set_name. rewrite cur_cons. destruct (Z.eqb_spec d vi) as [->|NE].
    - rewrite (nodup_snd_eq _ _ _ _ nodup_objs I ID), String.eqb_refl. auto.
    - destruct (String.eqb_spec n ki) as [->|NK].
      + exfalso. apply NE. apply (nodup_fst_eq _ _ _ _ nodup_keys I ID).
      + apply NM, I. }
  assert (BACK : forall n m, dget String.eqb (dset String.eqb (rn_back r) ki k) n = Some m <-> In n (ki :: acted) /\ m = rn mapping n).
  { intros n m. destruct (String.eqb_spec n ki) as [->|NE].
    - rewrite dget_dset_same. rewrite RK. cbn. split; [intros E; injection E as <-; auto|intros [_ ->]; reflexivity].
    - rewrite dget_dset_other by assumption. rewrite BK. cbn. intuition congruence. }
  assert (INCL : incl (ki :: acted) (map fst dims)) by (intros x [<-|X]; [assumption|apply IA, X]).
  destruct (String.eqb_spec ki k) as [E|NE].
  - revert RK NAMES BACK. rewrite <- E. intros RK NAMES BACK.
    eexists. split; [reflexivity|]. split; [assumption|]. cbn [rn_dims rn_names rn_back].
    split; [apply dset_nodup, ND|]. split; [assumption|]. split; [|assumption].
    intros m d. transitivity (dget String.eqb (rn_dims r) m = Some d).
    + destruct (String.eqb_spec m ki) as [->|NM'].
      * rewrite dget_dset_same, GK. reflexivity.
      * rewrite dget_dset_other by assumption. reflexivity.
    + rewrite DM. split; intros [n [I ->]]; exists n; (split; [assumption|]); rewrite cur_cons;
        (destruct (String.eqb_spec n ki) as [->|]; [rewrite CK, RK; reflexivity|reflexivity]).
  - assert (ND1 := dset_nodup (rn_dims r) k vi ND).
    assert (PK : dmem String.eqb (dset String.eqb (rn_dims r) k vi) ki = true).
    { unfold dmem. rewrite dget_dset_other by assumption. rewrite GK. reflexivity. }
    rewrite PK. eexists. split; [reflexivity|]. split; [assumption|]. cbn [rn_dims rn_names rn_back].
    destruct (dremove_keys _ ki ND1) as [ND2 GR].
    split; [assumption|]. split; [assumption|]. split; [|assumption].
    intros m d. rewrite GR. destruct (String.eqb_spec m ki) as [->|NMK].
    + split; [discriminate|]. intros [n [I E]]. exfalso. rewrite cur_cons in E.
      destruct (String.eqb_spec n ki) as [->|NNK]; [congruence|].
      assert (NN : In n (map fst dims)) by (apply (in_map fst) in I; exact I).
      assert (X : dget String.eqb (rn_dims r) ki = Some d) by (apply DM; exists n; auto).
      rewrite GK in X. injection X as <-. apply NNK. apply (nodup_snd_eq _ _ _ _ nodup_objs I ID).
    + destruct (String.eqb_spec m k) as [->|NMk].
      * rewrite dget_dset_same. split.
        -- intros E. injection E as <-. exists ki. split; [assumption|]. rewrite cur_cons, String.eqb_refl. congruence.
        -- intros [n [I E]]. f_equal. rewrite cur_cons in E. destruct (String.eqb_spec n ki) as [->|NNK].
           ++ apply (nodup_fst_eq _ _ _ _ nodup_keys ID I).
           ++ exfalso. assert (NN : In n (map fst dims)) by (apply (in_map fst) in I; exact I).
              unfold cur in E. destruct (str_mem n acted) eqn:SM.
              ** apply NNK. apply (rn_inj mapping (map fst dims) clean); auto. congruence.
              ** subst n. apply NE. apply (proj2 (proj2 (proj2 clean)) k v ki); assumption.
      * rewrite dget_dset_other by assumption. rewrite DM.
        split; intros [n [I E]]; exists n; (split; [assumption|]); rewrite cur_cons in *;
          (destruct (String.eqb_spec n ki) as [->|]; [|assumption]); congruence.
Qed.

Lemma rename_dim_skip r k v ki vi : ~ In ki v -> rename_dim k v (r, None) (ki, vi) = (r, None).
Proof. intros H. unfold rename_dim. cbn [fst snd]. rewrite (proj2 (str_mem_nIn ki v) H). reflexivity. Qed.

Lemma rename_inner k v : In (k, v) mapping -> forall l, incl l dims -> NoDup (map fst l) -> forall r acted, DInv r acted ->
  (forall n, In n (map fst l) -> In n v -> ~ In n acted) ->
  exists r' acted', fold_left (rename_dim k v) l (r, None) = (r', None) /\ DInv r' acted' /\
    forall n, In n acted' <-> In n acted \/ (In n (map fst l) /\ In n v).
Proof.
  intros IM. induction l as [|[ki vi] t IH]; intros IN ND r acted INV NA.
  - exists r, acted. split; [reflexivity|]. split; [assumption|]. cbn. tauto.
  - cbn in ND. inversion ND; subst. assert (INt : incl t dims) by (intros x X; apply IN; right; exact X).
    cbn [fold_left]. destruct (in_dec string_dec ki v) as [IV|NV].
    + destruct (rename_dim_step r acted k v ki vi) as [r1 [E1 I1]]; auto;
        [apply IN; left; reflexivity|apply NA; [left; reflexivity|assumption]|].
      rewrite E1. destruct (IH INt H2 r1 (ki :: acted) I1) as [r' [a' [E' [I' A']]]].
      { intros n NI NV [->|X]; [contradiction|]. apply (NA n); [right; assumption|assumption|assumption]. }
      exists r', a'. split; [assumption|]. split; [assumption|]. intros n. rewrite A'. cbn. split.
      * intros [[->|X]|[X Y]]; auto.
      * intros [X|[[->|X] Y]]; auto.
    + rewrite rename_dim_skip by assumption. destruct (IH INt H2 r acted INV) as [r' [a' [E' [I' A']]]].
      { intros n NI NV'. apply NA; [right; assumption|assumption]. }
      exists r', a'. split; [assumption|]. split; [assumption|]. intros n. rewrite A'. cbn.
      split; [tauto|]. intros [X|[[->|X] Y]]; auto. contradiction.
Qed.

Lemma rename_outer : forall l, incl l mapping -> NoDup (map fst l) -> forall r acted, DInv r acted ->
  (forall k v n, In (k, v) l -> In n v -> ~ In n acted) ->
  exists r' acted', fold_left (fun r kv => fold_left (rename_dim (fst kv) (snd kv)) dims r) l (r, None) = (r', None) /\
    DInv r' acted' /\
    forall n, In n acted' <-> In n acted \/ (In n (map fst dims) /\ exists k v, In (k, v) l /\ In n v).
Proof.
  induction l as [|[k v] t IH]; intros IN ND r acted INV NA.
  - exists r, acted. split; [reflexivity|]. split; [assumption|]. intros n. split; [auto|].
    intros [X|[_ [k [v [[] _]]]]]. exact X.
  - cbn in ND. inversion ND; subst. assert (INt : incl t mapping) by (intros x X; apply IN; right; exact X).
    assert (IM : In (k, v) mapping) by (apply IN; left; reflexivity).
    cbn [fold_left fst snd].
    destruct (rename_inner k v IM dims (incl_refl dims) nodup_keys r acted INV) as [r1 [a1 [E1 [I1 A1]]]].
    { intros n _ NV. apply (NA k v); [left; reflexivity|assumption]. }
    rewrite E1. destruct (IH INt H2 r1 a1 I1) as [r' [a' [E' [I' A']]]].
    { intros k' v' n I NV X. apply A1 in X. destruct X as [X|[_ X]].
      - apply (NA k' v' n); [right; assumption|assumption|assumption].
      - apply H1. assert (k = k') by (apply (proj1 (proj2 clean) k v k' v' n); auto).
        subst k'. apply (in_map fst) in I. exact I. }
    exists r', a'. split; [assumption|]. split; [assumption|]. intros n. rewrite A', A1. split.
    + intros [[X|[X Y]]|[X [k' [v' [Y Z]]]]]; [left; exact X|right|right].
      * split; [assumption|]. exists k, v. split; [left; reflexivity|assumption].
      * split; [assumption|]. exists k', v'. split; [right; assumption|assumption].
    + intros [X|[X [k' [v' [[E|Y] Z]]]]]; auto.
      * injection E as <- <-. auto.
      * right. split; [assumption|]. exists k', v'. auto.
Qed.

Lemma rename_dims_clean h : (forall k d, In (k, d) dims -> h d = k) ->
  exists r, rename_dims mapping dims h = (r, None) /\
    NoDup (map fst (rn_dims r)) /\
    (forall n d, In (n, d) dims -> rn_names r d = rn mapping n) /\
    (forall m d, dget String.eqb (rn_dims r) m = Some d <-> exists n, In (n, d) dims /\ m = rn mapping n) /\
    (forall n m, dget String.eqb (rn_back r) n = Some m <-> In n (map fst dims) /\ exists v, In (m, v) mapping /\ In n v).
Proof.
  intros HN. unfold rename_dims.
  destruct (rename_outer mapping (incl_refl mapping) (proj1 clean) (mkren h dims []) []) as [r [a [E [[IA [ND [NM [DM BK]]]] A]]]].
  { split; [intros x []|]. cbn [rn_dims rn_names rn_back]. split; [assumption|]. split; [exact (fun n d I => HN n d I)|]. split.
    - intros m d. rewrite dget_str_In by assumption. split; [intros I; exists m; auto|intros [n [I ->]]; exact I].
    - intros n m. cbn. split; [discriminate|tauto]. }
  { intros k v n _ _ []. }
  assert (CU : forall n, In n (map fst dims) -> cur a n = rn mapping n).
  { intros n I. unfold cur. destruct (str_mem n a) eqn:SM; [reflexivity|]. apply str_mem_nIn in SM.
    unfold rn. destruct (first_key mapping n) as [k|] eqn:F; [|reflexivity]. exfalso. apply SM. apply A. right.
    split; [assumption|]. apply first_key_in in F. destruct F as [v F]. exists k, v. exact F. }
  exists r. split; [exact E|]. split; [assumption|]. split; [|split].
  - intros n d I. rewrite (NM n d I). apply CU. apply (in_map fst) in I. exact I.
  - intros m d. rewrite DM. split; intros [n [I ->]]; exists n; (split; [assumption|]);
      [|symmetry]; apply CU; apply (in_map fst) in I; exact I.
  - intros n m. rewrite BK, A. split.
    + intros [[[]|[I [k [v [IM IV]]]]] ->]. split; [assumption|]. exists v. split; [|assumption].
      rewrite (rn_key mapping (map fst dims) clean k v n IM IV). assumption.
    + intros [I [v [IM IV]]]. split; [right; split; [assumption|exists m, v; auto]|].
      symmetry. apply (rn_key mapping (map fst dims) clean m v n IM IV).
Qed.
End Dims.

Lemma forall2_rn mapping l : Forall2 (RenamesTo mapping) l (map (rn mapping) l).
Proof. induction l; cbn; constructor; [apply rn_renames|assumption]. Qed.

Lemma map_res_ok {A B} (f : A -> res B) (g : A -> B) l : (forall x, In x l -> f x = Ok (g x)) -> map_res f l = Ok (map g l).
Proof.
  induction l as [|x t IH]; cbn; intros H; [reflexivity|]. rewrite (H x) by auto. cbn. rewrite IH by auto. reflexivity.
Qed.

Lemma dget_map_val {V W} (g : V -> W) (d : list (string * V)) n :
  dget String.eqb (map (fun p => (fst p, g (snd p))) d) n = option_map g (dget String.eqb d n).
Proof. induction d as [|[k v] t IH]; cbn; [reflexivity|]. destruct (String.eqb n k); [reflexivity|assumption]. Qed.

Lemma original_vdims_vals c : forall p, In p (original_vdims c) -> exists k v, In (k, v) (cs_vars c) /\ snd p = cs_vdims c v.
Proof.
  unfold original_vdims.
  assert (S : forall (d : list (string * list string)) k x p, In p (dset String.eqb d k x) -> In p d \/ snd p = x).
  { induction d as [|[k' v'] t IH]; cbn; intros k x p.
    - intros [<-|[]]. auto.
    - destruct (String.eqb k k'); cbn.
      + intros [<-|I]; auto.
      + intros [<-|I]; auto. destruct (IH _ _ _ I); auto. }
  assert (G : forall l d p, In p (fold_left (fun d kv => dset String.eqb d (cs_vname c (snd kv)) (cs_vdims c (snd kv))) l d) ->
     In p d \/ exists (k : string) v, In (k, v) l /\ snd p = cs_vdims c v).
  { induction l as [|[k v] t IH]; intros d p; cbn; [auto|]. intros H. destruct (IH _ _ H) as [A|[k' [v' [A B]]]].
    - apply S in A. destruct A as [A|A]; [auto|]. right. exists k, v. auto.
    - right. exists k', v'. auto. }
  intros p H. destruct (G _ _ _ H) as [[]|A]. exact A.
Qed.

Lemma assign_all vname vals (g : Z -> list string) : forall vars f,
  (forall k v, In (k, v) vars -> dget String.eqb vals (vname v) = Some (g v)) ->
  exists f', assign_vdims vname vals vars f = Ok f' /\ (forall k v, In (k, v) vars -> f' v = g v) /\
    (forall v, ~ In v (map snd vars) -> f' v = f v).
Proof.
  induction vars as [|[k v] t IH]; intros f H; cbn.
  - exists f. split; [reflexivity|]. split; [intros ? ? []|reflexivity].
  - rewrite (H k v) by (left; reflexivity).
    destruct (IH (fun x => if x =? v then g v else f x)) as [f' [E [A B]]]; [intros; eapply H; right; eassumption|].
    exists f'. split; [assumption|]. split.
    + intros k' v' [X|I]; [|apply (A k' v' I)]. injection X as <- <-.
      destruct (in_dec Z.eq_dec v (map snd t)) as [J|J].
      * apply in_map_iff in J. destruct J as [[k2 v2] [E2 J]]. cbn in E2. subst v2. apply (A k2 v J).
      * rewrite B by assumption. rewrite Z.eqb_refl. reflexivity.
    + intros v' NI. rewrite B by tauto. destruct (Z.eqb_spec v' v); [subst; tauto|reflexivity].
Qed.

Theorem rename_enter_spec c mapping : WellKeyed c -> DimsKnown c -> CleanMapping mapping (map fst (cs_dims c)) ->
  exists c1 back, rename_enter c mapping = (c1, back, None) /\
    (forall n d, In (n, d) (cs_dims c) -> exists m, RenamesTo mapping n m /\
       dget String.eqb (cs_dims c1) m = Some d /\ cs_names c1 d = m) /\
    (forall m d, dget String.eqb (cs_dims c1) m = Some d -> exists n, In (n, d) (cs_dims c) /\ RenamesTo mapping n m) /\
    cs_vars c1 = cs_vars c /\ cs_vname c1 = cs_vname c /\
    (forall k v, In (k, v) (cs_vars c) -> Forall2 (RenamesTo mapping) (cs_vdims c v) (cs_vdims c1 v)) /\
    (forall n m, dget String.eqb back n = Some m <->
       In n (map fst (cs_dims c)) /\ exists v, In (m, v) mapping /\ In n v).
Proof.
  intros [ND [NDo [KD [NV KV]]]] DK CL. unfold rename_enter.
  destruct (rename_dims_clean mapping (cs_dims c) CL ND NDo (cs_names c) KD) as [r [E [NR [NM [DM BK]]]]].
  rewrite E.
  rewrite (map_res_ok _ (fun p => (fst p, map (rn mapping) (snd p)))).
  2:{ intros p I. destruct (original_vdims_vals c p I) as [k [v [J EV]]]. rewrite EV.
      rewrite (rename_vdims_clean mapping (map fst (cs_dims c)) CL); [reflexivity|].
      intros n X. apply (DK k v n J X). }
  destruct (assign_all (cs_vname c) (map (fun p => (fst p, map (rn mapping) (snd p))) (original_vdims c))
              (fun v => map (rn mapping) (cs_vdims c v)) (cs_vars c) (cs_vdims c)) as [f' [EA [FA FB]]].
  { intros k v I. rewrite dget_map_val. rewrite (KV k v I), (original_vdims_get c NV KV k v I). reflexivity. }
  rewrite EA. eexists. eexists. split; [reflexivity|]. cbn.
  split; [|split; [|split; [reflexivity|split; [reflexivity|split; [|exact BK]]]]].
  - intros n d I. exists (rn mapping n). split; [apply rn_renames|]. split; [apply DM; exists n; auto|apply NM, I].
  - intros m d G. apply DM in G. destruct G as [n [I ->]]. exists n. split; [assumption|apply rn_renames].
  - intros k v I. rewrite (FA k v I). apply forall2_rn.
Qed.
