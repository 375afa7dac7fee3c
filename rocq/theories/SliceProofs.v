(** Proofs for C65. *)
From Verif Require Import Py Lib Spec PartitionModel DimensionModel DimensionSpec DimensionProofs NdModel NdProofs ScopeProofs ScopeInside SliceModel SliceSpec.

Lemma zlen_zrange a b : 0 <= b - a -> zlen (zrange a b) = b - a.
Proof. intros. rewrite zrange_zlen. lia. Qed.

Lemma gap_iff : forall l, any_diff_gt1 l = true <-> Gap l.
Proof.
  induction l as [|x t IH].
  - cbn. split; [discriminate|]. intros [k [a [b [E _]]]]. destruct k; discriminate.
  - destruct t as [|y t].
    + cbn. split; [discriminate|]. intros [k [a [b [E [E2 _]]]]]. destruct k as [|[|k]]; discriminate.
    + change (any_diff_gt1 (x :: y :: t)) with ((y - x >? 1) || any_diff_gt1 (y :: t)).
      rewrite orb_true_iff, IH. split.
      * intros [E|[k [a [b [E1 [E2 D]]]]]].
        -- exists O, x, y. cbn. split; [reflexivity|]. split; [reflexivity|]. lia.
        -- exists (S k), a, b. auto.
      * intros [[|k] [a [b [E1 [E2 D]]]]].
        -- cbn in E1, E2. injection E1 as <-. injection E2 as <-. left. lia.
        -- right. exists k, a, b. auto.
Qed.

Lemma in_range_formattable n raw : InRange n raw -> Formattable n raw.
Proof. destruct raw as [i|[[a|] [b|]]|l|m|]; cbn; try tauto. lia. Qed.

Lemma in_range_select n raw : 0 <= n -> InRange n raw -> exists s ps,
  format_singleton raw = Ok s /\ fancy_getitem (zrange 0 n) s = Ok ps /\ py_select (zrange 0 n) raw = Ok ps /\
  (is_array s = true -> ByArray raw).
Proof.
  intros N H. destruct (format_select_all (zrange 0 n) raw) as [s [F S]].
  { rewrite zlen_zrange by lia. replace (n - 0) with n by lia. apply in_range_formattable, H. }
  assert (PS : exists ps, py_select (zrange 0 n) raw = Ok ps).
  { assert (LZ : zlen (zrange 0 n) = n) by (rewrite zlen_zrange by lia; lia).
    destruct raw as [i|sl|l|m|]; cbn in *.
    - unfold py_index. rewrite LZ. destruct (i <? 0) eqn:I.
      + replace ((i + n <? 0) || (n <=? i + n)) with false by lia.
        destruct (nth_error (zrange 0 n) (Z.to_nat (i + n))) eqn:NE; [eexists; reflexivity|].
        exfalso. apply nth_error_None in NE. unfold zlen in LZ. lia.
      + replace ((i <? 0) || (n <=? i)) with false by lia.
        destruct (nth_error (zrange 0 n) (Z.to_nat i)) eqn:NE; [eexists; reflexivity|].
        exfalso. apply nth_error_None in NE. unfold zlen in LZ. lia.
    - eexists; reflexivity.
    - destruct H as [_ [_ FA]]. rewrite <- LZ in FA. destruct (zlen_map_res_index_ok _ _ FA) as [ps [E _]]. eauto.
    - rewrite LZ. rewrite H, Z.eqb_refl. eexists; reflexivity.
    - eexists; reflexivity. }
  destruct PS as [ps PS]. exists s, ps. split; [exact F|]. split; [rewrite <- PS, <- S; destruct s; reflexivity|].
  split; [exact PS|]. intros IA. destruct raw as [i|sl|l|m|]; cbn in F; try (injection F as <-; discriminate IA).
  - unfold get_optimal_slice_from_array in F. cbn. apply gap_iff. destruct (any_diff_gt1 l); [reflexivity|].
    destruct (list_min l); [|discriminate]. destruct (list_max l); [|discriminate]. injection F as <-. discriminate.
  - exact I.
Qed.

Lemma from_pick : forall ps idx src, From_ ps idx src -> pick_axes ps idx = src.
Proof.
  induction 1 as [|p i x ps idx src P N F IH]; [reflexivity|]. cbn. rewrite IH. f_equal.
  apply nth_error_nth. exact N.
Qed.

Lemma from_zranges : forall shape idx src, From_ (map (zrange 0) shape) idx src -> src = idx.
Proof.
  induction shape as [|n t IH]; cbn; intros idx src F; inversion F; subst; [reflexivity|].
  f_equal; [|apply IH; assumption].
  unfold zrange in H2. rewrite nth_error_map in H2.
  destruct (nth_error (seq 0 (Z.to_nat (n - 0))) (Z.to_nat i)) eqn:E; [|discriminate]. cbn in H2. injection H2 as <-.
  pose proof (nth_error_nth _ _ O E) as NN. rewrite seq_nth in NN.
  - lia.
  - assert (Z.to_nat i < List.length (seq 0 (Z.to_nat (n - 0))))%nat by (apply nth_error_Some; congruence).
    rewrite seq_length in *. assumption.
Qed.

Lemma axis_positions_ok : forall shape ss pss, List.length shape = List.length ss ->
  Forall2 (fun p ps => fancy_getitem (zrange 0 (fst p)) (snd p) = Ok ps) (combine shape ss) pss ->
  axis_positions shape ss = Ok pss.
Proof.
  unfold axis_positions. intros shape ss pss _ H. induction H as [|p ps l l' E F IH]; [reflexivity|].
  cbn [map_res]. rewrite E, IH. reflexivity.
Qed.


Lemma at_most_one names ss (Q : string -> Prop) : NoDup names ->
  (forall n n', In n names -> In n' names -> Q n -> Q n' -> n = n') ->
  Forall2 (fun n s => is_array s = true -> Q n) names ss ->
  zlen (filter (fun b => b) (map is_array ss)) <= 1.
Proof.
  intros ND U F. induction F as [|n s names ss E F IH]; [cbn; lia|]. inversion ND; subst.
  cbn [map filter]. destruct (is_array s) eqn:IA.
  - assert (Z0 : forall s', In s' ss -> is_array s' = false).
    { intros s' I. destruct (is_array s') eqn:IB; [|reflexivity]. exfalso.
      assert (X : exists n', In n' names /\ Q n').
      { clear - F I IB. induction F as [|n s names ss E F IH]; [contradiction|]. destruct I as [->|I].
        - exists n. split; [left; reflexivity|auto].
        - destruct (IH I) as [n' [A B]]. exists n'. split; [right; assumption|assumption]. }
      destruct X as [n' [A B]]. apply H1. rewrite (U n n'); auto; [left; reflexivity|right; assumption]. }
    replace (filter (fun b => b) (map is_array ss)) with (@nil bool); [cbn; lia|]. symmetry.
    clear - Z0. induction ss as [|s t IH]; [reflexivity|]. cbn. rewrite Z0 by (left; reflexivity).
    apply IH. intros s' I. apply Z0. right. assumption.
  - apply IH; [assumption|]. intros n1 n2 A B. apply U; right; assumption.
Qed.

Lemma np_getitem_selected {A} (a : nd A) ss pss : List.length (nd_shape a) = List.length ss ->
  Forall2 (fun p ps => fancy_getitem (zrange 0 (fst p)) (snd p) = Ok ps) (combine (nd_shape a) ss) pss ->
  zlen (filter (fun b => b) (map is_array ss)) <= 1 ->
  exists a', np_getitem a ss = Ok a' /\ Selected pss a a'.
Proof.
  intros L F M. unfold np_getitem.
  replace (zlen (nd_shape a) =? zlen ss) with true by (unfold zlen; lia).
  rewrite (axis_positions_ok _ _ _ L F). cbn [bind].
  replace (2 <=? zlen (filter (fun b => b) (map is_array ss))) with false by lia.
  eexists. split; [reflexivity|]. split; [reflexivity|]. intros idx src FR. cbn. rewrite (from_pick _ _ _ FR). reflexivity.
Qed.

(** * One variable *)
Definition axis_raw (dslice : list (string * item)) (n : string) : item :=
  match dget String.eqb dslice n with Some i => i | None => Given (RSlice slice_none) end.

(** Every axis formats to something that selects its positions. *)
Lemma axes_format dslice (lens : list Z) names :
  Forall2 (fun n len => 0 <= len /\ forall i, dget String.eqb dslice n = Some i -> InRange len (item_raw i)) names lens ->
  exists ss pss,
    map_res (fun i => format_singleton (item_raw i)) (map (axis_raw dslice) names) = Ok ss /\
    List.length ss = List.length lens /\
    Forall2 (fun p ps => fancy_getitem (zrange 0 (fst p)) (snd p) = Ok ps) (combine lens ss) pss /\
    Forall2 (fun p ps => Positions dslice (fst p) (snd p) ps) (combine names lens) pss /\
    Forall2 (fun n s => is_array s = true -> exists i, dget String.eqb dslice n = Some i /\ ByArray (item_raw i)) names ss.
Proof.
  induction 1 as [|n len names lens [P H] F IH].
  - exists [], []. repeat split; constructor.
  - destruct IH as [ss [pss [E [L [F1 [F2 F3]]]]]].
    assert (X : exists s ps, format_singleton (item_raw (axis_raw dslice n)) = Ok s /\
        fancy_getitem (zrange 0 len) s = Ok ps /\ Positions dslice n len ps /\
        (is_array s = true -> exists i, dget String.eqb dslice n = Some i /\ ByArray (item_raw i))).
    { unfold axis_raw, Positions. destruct (dget String.eqb dslice n) as [i|] eqn:G.
      - destruct (in_range_select len (item_raw i) P (H i eq_refl)) as [s [ps [A [B [C D]]]]].
        exists s, ps. do 3 (split; [assumption|]). intros X. exists i. auto.
      - exists (SSlice slice_none), (zrange 0 len). split; [reflexivity|]. split; [unfold fancy_getitem; rewrite py_slice_all; reflexivity|].
        split; [reflexivity|discriminate]. }
    destruct X as [s [ps [A [B [C D]]]]].
    exists (s :: ss), (ps :: pss). cbn [map map_res combine List.length]. rewrite A. cbn [bind]. rewrite E. cbn [bind].
    split; [reflexivity|]. split; [congruence|]. do 2 (split; [constructor; assumption|]). constructor; assumption.
Qed.

Lemma format_items_many items : (2 <= List.length items)%nat ->
  format_items items = do ss <- map_res (fun i => format_singleton (item_raw i)) items; Ok (FAxes ss).
Proof.
  destruct items as [|i [|j t]]; cbn [List.length]; try lia. intros _.
  destruct i as [[]|[]]; reflexivity.
Qed.

Lemma format_items_one i ss :
  match i with
  | Given RNone | Listed RNone => False
  | Given _ => True
  | Listed (RInts l) => ~ Gap l
  | Listed (RBools _) => False
  | Listed _ => True
  end ->
  map_res (fun i => format_singleton (item_raw i)) [i] = Ok ss -> format_items [i] = Ok (FAxes ss).
Proof.
  intros H E. cbn [map_res] in E. destruct (format_singleton (item_raw i)) as [s|] eqn:F; [|discriminate].
  cbn in E. injection E as <-. destruct i as [r|r]; destruct r as [z|sl|l|m|]; try contradiction; cbn in F; cbn [format_items format_singleton].
  - cbn. injection F as <-. reflexivity.
  - cbn. injection F as <-. reflexivity.
  - rewrite F. reflexivity.
  - cbn. injection F as <-. reflexivity.
  - cbn. injection F as <-. reflexivity.
  - cbn. injection F as <-. reflexivity.
  - unfold get_optimal_slice_from_array in F. destruct (any_diff_gt1 l) eqn:G; [exfalso; apply H, gap_iff, G|].
    destruct (list_min l) as [a|]; [|discriminate]. destruct (list_max l) as [b|]; [|discriminate]. cbn in *. congruence.
Qed.

Lemma map_axis_raw dslice names : map (axis_raw dslice) names = mapped_slice dslice names.
Proof. reflexivity. Qed.

Lemma opt_res_ok {A B} (f : A -> res B) (R : A -> B -> Prop) o :
  (forall a, o = Some a -> exists b, f a = Ok b /\ R a b) -> exists o', opt_res f o = Ok o' /\ Both R o o'.
Proof.
  destruct o as [a|]; cbn; intros H.
  - destruct (H a eq_refl) as [b [E X]]. rewrite E. exists (Some b). split; [reflexivity|exact X].
  - exists None. split; [reflexivity|exact I].
Qed.

Lemma slice_member_spec {A} dslice (v : svar A) lens : NoDup (map fst dslice) -> NoDup (sv_dims v) ->
  Forall2 (fun n len => 0 <= len /\ forall i, dget String.eqb dslice n = Some i -> InRange len (item_raw i)) (sv_dims v) lens ->
  (forall a, sv_value v = Some a -> nd_shape a = lens) -> (forall m, sv_mask v = Some m -> nd_shape m = lens) ->
  (forall n n' i i', In n (sv_dims v) -> In n' (sv_dims v) -> In (n, i) dslice -> In (n', i') dslice ->
       ByArray (item_raw i) -> ByArray (item_raw i') -> n = n') ->
  (forall n i, sv_dims v = [n] -> In (n, i) dslice ->
       match i with
       | Given RNone | Listed RNone => False
       | Given _ => True
       | Listed (RInts l) => ~ Gap l
       | Listed (RBools _) => False
       | Listed _ => True
       end) ->
  exists v' sels, slice_member dslice v = Ok v' /\ sv_dims v' = sv_dims v /\
    Forall2 (fun p ps => Positions dslice (fst p) (snd p) ps) (combine (sv_dims v) lens) sels /\
    Both (Selected sels) (sv_value v) (sv_value v') /\ Both (Selected sels) (sv_mask v) (sv_mask v').
Proof.
  intros NK ND F SV SM ONE SING. unfold slice_member.
  destruct (existsb (fun n => dmem String.eqb dslice n) (sv_dims v)) eqn:EX.
  - destruct (axes_format dslice lens (sv_dims v) F) as [ss [pss [E [L [F1 [F2 F3]]]]]].
    assert (FI : format_items (mapped_slice dslice (sv_dims v)) = Ok (FAxes ss)).
    { rewrite <- map_axis_raw. destruct (sv_dims v) as [|n [|n2 t]] eqn:SD.
      - discriminate.
      - cbn [map] in *. apply format_items_one; [|exact E]. cbn in EX. rewrite orb_false_r in EX. unfold dmem in EX.
        unfold axis_raw. destruct (dget String.eqb dslice n) as [i|] eqn:G; [|discriminate].
        apply (SING n i eq_refl). apply dget_str_In; assumption.
      - rewrite format_items_many by (cbn; lia). rewrite E. reflexivity. }
    rewrite FI. cbn [bind].
    assert (M : zlen (filter (fun b => b) (map is_array ss)) <= 1).
    { apply (at_most_one (sv_dims v) ss (fun n => exists i, dget String.eqb dslice n = Some i /\ ByArray (item_raw i)) ND); [|exact F3].
      intros n n' I I' [i [G B]] [i' [G' B']]. apply (ONE n n' i i' I I'); auto; apply dget_str_In; assumption. }
    unfold slice_main.
    destruct (opt_res_ok (fun a => np_get a (FAxes ss)) (Selected pss) (sv_value v)) as [ov [EV BV]].
    { intros a EA. specialize (SV a EA). apply np_getitem_selected; [congruence|rewrite SV; assumption|assumption]. }
    destruct (opt_res_ok (fun a => np_get a (FAxes ss)) (Selected pss) (sv_mask v)) as [om [EM BM]].
    { intros a EA. specialize (SM a EA). apply np_getitem_selected; [congruence|rewrite SM; assumption|assumption]. }
    rewrite EV. cbn [bind]. rewrite EM. cbn [bind]. exists (mksvar (sv_dims v) ov om), pss. cbn.
    do 3 (split; [reflexivity || assumption|]). split; assumption.
  - exists v, (map (zrange 0) lens). split; [reflexivity|]. split; [reflexivity|].
    assert (NONE : forall n, In n (sv_dims v) -> dget String.eqb dslice n = None).
    { intros n I. destruct (dget String.eqb dslice n) eqn:G; [|reflexivity]. exfalso.
      assert (existsb (fun n => dmem String.eqb dslice n) (sv_dims v) = true); [|congruence].
      apply existsb_exists. exists n. split; [assumption|]. unfold dmem. rewrite G. reflexivity. }
    assert (POS : Forall (fun l => 0 <= l) lens).
    { clear - F. induction F as [|n l names lens [P _] F IH]; constructor; assumption. }
    split; [|assert (SH : forall B (a : nd B), nd_shape a = lens -> Selected (map (zrange 0) lens) a a)].
    + clear - F NONE. induction F as [|n l names lens H F IH]; cbn; constructor.
      * cbn. unfold Positions. rewrite NONE by (left; reflexivity). reflexivity.
      * apply IH. intros n' I. apply NONE. right. assumption.
    + intros B a S. split.
      * rewrite S. rewrite map_map. clear - POS. induction POS as [|l t P F IH]; cbn; [reflexivity|].
        rewrite <- IH. f_equal. rewrite zlen_zrange by lia. lia.
      * intros idx src FR. apply from_zranges in FR. congruence.
    + split; [destruct (sv_value v) as [a|]|destruct (sv_mask v) as [a|]]; cbn; auto.
Qed.

(** * The collection *)
Lemma slice_dims_spec dims : NoDup (map fst dims) -> forall dslice acc, NoDup (map fst dslice) ->
  map fst acc = map fst dims ->
  (forall n i, In (n, i) dslice -> exists d d', In (n, d) dims /\ dim_getitem d (item_raw i) = Ok d') ->
  exists acc', fold_res (fun acc p =>
      match dget String.eqb dims (fst p) with
      | None => Err KeyError
      | Some d => do d' <- dim_getitem d (item_raw (snd p)); Ok (dset String.eqb acc (fst p) d')
      end) dslice acc = Ok acc' /\ map fst acc' = map fst dims /\
    (forall n d, In (n, d) dims -> match dget String.eqb dslice n with
       | None => dget String.eqb acc' n = dget String.eqb acc n
       | Some i => exists d', dim_getitem d (item_raw i) = Ok d' /\ dget String.eqb acc' n = Some d'
       end).
Proof.
  intros ND. induction dslice as [|[n i] t IH]; intros acc NK KA H.
  - exists acc. cbn. auto.
  - cbn in NK. inversion NK; subst. destruct (H n i (or_introl eq_refl)) as [d [d' [I E]]].
    cbn [fold_res fst snd]. rewrite (proj2 (dget_str_In dims n d ND) I). rewrite E. cbn [bind].
    assert (KM : map fst (dset String.eqb acc n d') = map fst dims).
    { rewrite dset_keys_mem; [assumption|]. unfold dmem. destruct (dget String.eqb acc n) eqn:G; [reflexivity|].
      exfalso. apply dget_str_none in G. apply G. rewrite KA. apply (in_map fst) in I. exact I. }
    destruct (IH (dset String.eqb acc n d') H3 KM) as [acc' [EA [KA' R]]].
    { intros n' i' I'. apply H. right. assumption. }
    exists acc'. split; [assumption|]. split; [assumption|]. intros n0 d0 I0. specialize (R n0 d0 I0). cbn [dget].
    destruct (String.eqb_spec n0 n) as [->|NE].
    + rewrite (nodup_fst_eq _ _ _ _ ND I0 I). exists d'. split; [assumption|].
      replace (dget String.eqb t n) with (@None item) in R by (symmetry; apply dget_str_none; assumption).
      rewrite R. apply dget_dset_same.
    + destruct (dget String.eqb t n0); [exact R|]. rewrite R. apply dget_dset_other. assumption.
Qed.

Lemma map_res_forall2 {A B} (f : A -> res B) (R : A -> B -> Prop) l :
  (forall x, In x l -> exists y, f x = Ok y /\ R x y) -> exists l', map_res f l = Ok l' /\ Forall2 R l l'.
Proof.
  induction l as [|x t IH]; cbn; intros H.
  - exists []. split; [reflexivity|constructor].
  - destruct (H x (or_introl eq_refl)) as [y [E R1]]. destruct IH as [l' [E' R']]; [auto|].
    rewrite E. cbn. rewrite E'. exists (y :: l'). split; [reflexivity|constructor; assumption].
Qed.

Lemma forall2_pos {A B} (R : A -> B -> Prop) (S : A -> B -> Prop) l l' :
  Forall2 R l l' -> (forall a b, In a l -> R a b -> S a b) -> Forall2 S l l'.
Proof.
  induction 1 as [|a b l l' X F IH]; intros H; constructor; [apply H; [left; reflexivity|assumption]|].
  apply IH. intros a' b' I. apply H. right. assumption.
Qed.

Lemma positions_dims {A} (c : scoll A) dslice : forall names lens sels,
  Forall2 (fun n s => exists d, In (n, d) (sc_dims c) /\ s = dim_len d) names lens ->
  Forall2 (fun p ps => Positions dslice (fst p) (snd p) ps) (combine names lens) sels ->
  Forall2 (fun n ps => exists d, In (n, d) (sc_dims c) /\ Positions dslice n (dim_len d) ps) names sels.
Proof.
  intros names lens sels F. revert sels. induction F as [|n s names lens [d [I ->]] F IH]; intros sels G; inversion G; subst; constructor.
  - exists d. auto.
  - apply IH. assumption.
Qed.

Theorem slice_collection_spec {A} (c : scoll A) dslice : Congruent c -> Sliceable c dslice ->
  exists c', slice_collection c dslice = Ok c' /\ SlicedTo c dslice c'.
Proof.
  intros [ND [DN [NV VS]]] [NE [NK [DS SL]]]. unfold slice_collection.
  assert (GET : forall n i, In (n, i) dslice -> exists d, In (n, d) (sc_dims c) /\ InRange (dim_len d) (item_raw i) /\
     exists d', dim_getitem d (item_raw i) = Ok d').
  { intros n i I. destruct (DS n i I) as [d [ID [P R]]]. exists d. split; [assumption|]. split; [assumption|].
    destruct (DN n d ID) as [_ [l RL]]. assert (ZL : zlen l = dim_len d) by apply RL.
    destruct (dim_getitem_spec d l (item_raw i) RL) as [d' [l' [E _]]]; [rewrite ZL; assumption|rewrite ZL; assumption|].
    exists d'. assumption. }
  destruct (slice_dims_spec (sc_dims c) ND dslice (sc_dims c) NK eq_refl) as [dims' [ED [KD RD]]].
  { intros n i I. destruct (GET n i I) as [d [ID [_ [d' E]]]]. exists d, d'. auto. }
  destruct (map_res_forall2 (fun p : string * svar A => do v <- slice_member dslice (snd p); Ok (fst p, v))
     (fun kv kv' => fst kv' = fst kv /\ sv_dims (snd kv') = sv_dims (snd kv) /\
       exists sels, Forall2 (fun n ps => exists d, In (n, d) (sc_dims c) /\ Positions dslice n (dim_len d) ps)
                            (sv_dims (snd kv)) sels /\
         Both (Selected sels) (sv_value (snd kv)) (sv_value (snd kv')) /\
         Both (Selected sels) (sv_mask (snd kv)) (sv_mask (snd kv'))) (sc_vars c)) as [vars' [EV RV]].
  { intros [k v] I. destruct (VS k v I) as [NDv [shape [FS [SV SM]]]]. destruct (SL k v I) as [ONE SING].
    destruct (slice_member_spec dslice v shape NK NDv) as [v' [sels [E [DV [FP [BV BM]]]]]]; try assumption.
    { apply (forall2_pos _ _ _ _ FS). intros n s _ [d [ID ->]]. destruct (DN n d ID) as [_ [l RL]].
      split; [destruct RL as [Z _]; rewrite <- Z; unfold zlen; lia|].
      intros i G. apply dget_str_In in G; [|assumption]. destruct (GET n i G) as [d2 [ID2 [R _]]].
      rewrite (nodup_fst_eq _ _ _ _ ND ID ID2). assumption. }
    exists (k, v'). cbn [fst snd]. rewrite E. split; [reflexivity|]. split; [reflexivity|]. split; [assumption|].
    exists sels. split; [apply (positions_dims c dslice _ shape); assumption|]. split; assumption. }
  exists (mkscoll dims' vars').
  destruct (sc_dims c) as [|p t] eqn:SD; [congruence|]. rewrite <- SD in *. rewrite EV.
  unfold slice_dims. rewrite ED. cbn [bind]. split; [reflexivity|].
  assert (NDd : NoDup (map fst dims')) by (rewrite KD; assumption).
  split; [exact KD|]. split; [|exact RV].
  intros n d I. specialize (RD n d I). cbn [sc_dims]. destruct (dget String.eqb dslice n) as [i|] eqn:G.
  - destruct RD as [d' [E GD]]. exists d'. split; [apply dget_str_In; assumption|].
    apply dget_str_In in G; [|assumption]. destruct (DS n i G) as [d2 [ID2 [P R]]].
    rewrite <- (nodup_fst_eq _ _ _ _ ND I ID2) in *. destruct (DN n d I) as [NM [l0 RL0]].
    assert (X : forall l, Represents d l -> exists l', py_select l (item_raw i) = Ok l' /\ Represents d' l' /\ d_name d' = d_name d).
    { intros l RL. assert (ZL : zlen l = dim_len d) by apply RL.
      destruct (dim_getitem_spec d l (item_raw i) RL) as [d3 [l' [E3 [PS [RP [_ [NM3 _]]]]]]];
        [rewrite ZL; assumption|rewrite ZL; assumption|].
      rewrite E in E3. injection E3 as <-. exists l'. auto. }
    split; [destruct (X l0 RL0) as [_ [_ [_ Y]]]; congruence|].
    intros l RL. destruct (X l RL) as [l' [Y [Z _]]]. exists l'. auto.
  - exists d. split; [|reflexivity]. apply dget_str_In; [assumption|]. rewrite RD. apply dget_str_In; assumption.
Qed.

(** The result is congruent again. *)
Lemma positions_length {A} (l : list A) raw l' len ps : zlen l = len -> 0 <= len ->
  py_select l raw = Ok l' -> py_select (zrange 0 len) raw = Ok ps -> zlen l' = zlen ps.
Proof.
  intros ZL P E1 E2. assert (LZ : zlen (zrange 0 len) = zlen l) by (rewrite zlen_zrange by lia; lia).
  destruct raw as [i|s|idx|m|]; cbn in *.
  - destruct (py_index l i); [|discriminate]. destruct (py_index (zrange 0 len) i); [|discriminate].
    injection E1 as <-. injection E2 as <-. reflexivity.
  - injection E1 as <-. injection E2 as <-. unfold py_slice. rewrite LZ. unfold zlen in LZ.
    destruct (slice_bounds (zlen l) s) as [a b]. unfold zlen. rewrite !firstn_length, !skipn_length. lia.
  - apply map_res_length in E1. apply map_res_length in E2. congruence.
  - rewrite LZ in E2. destruct (zlen m =? zlen l) eqn:ML; [|discriminate]. injection E1 as <-. injection E2 as <-.
    unfold zlen. f_equal. apply bool_select_length. unfold zlen in *. lia.
  - congruence.
Qed.

Theorem slice_collection_congruent {A} (c : scoll A) dslice c' : Congruent c -> SlicedTo c dslice c' -> Congruent c'.
Proof.
  intros [ND [DN [NV VS]]] [KD [RD RV]].
  assert (NDd : NoDup (map fst (sc_dims c'))) by (rewrite KD; assumption).
  assert (BACK : forall n d', In (n, d') (sc_dims c') -> exists d, In (n, d) (sc_dims c)).
  { intros n d' I. apply (in_map fst) in I. rewrite KD in I. apply in_map_iff in I. destruct I as [[n0 d] [E I]].
    cbn in E. subst n0. exists d. exact I. }
  split; [assumption|]. split; [|split].
  - intros n d' I. destruct (BACK n d' I) as [d ID]. destruct (RD n d ID) as [d2 [I2 H]].
    rewrite (nodup_fst_eq _ _ _ _ NDd I I2). destruct (DN n d ID) as [NM [l RL]].
    destruct (dget String.eqb dslice n) as [i|].
    + destruct H as [NM2 H]. split; [assumption|]. destruct (H l RL) as [l' [_ R]]. exists l'. exact R.
    + subst d2. split; [assumption|]. exists l. exact RL.
  - replace (map fst (sc_vars c')) with (map fst (sc_vars c)); [assumption|].
    clear - RV. induction RV as [|x y l l' [E _] F IH]; cbn; congruence.
  - intros k v' I'.
    assert (X : exists v, In (k, v) (sc_vars c) /\ sv_dims v' = sv_dims v /\
      exists sels, Forall2 (fun n ps => exists d, In (n, d) (sc_dims c) /\ Positions dslice n (dim_len d) ps) (sv_dims v) sels /\
        Both (Selected sels) (sv_value v) (sv_value v') /\ Both (Selected sels) (sv_mask v) (sv_mask v')).
    { clear - RV I'. induction RV as [|[k0 v0] [k1 v1] l l' [E H] F IH]; [contradiction|]. cbn in E, H. destruct I' as [X|I].
      - injection X as -> ->. subst k0. exists v0. split; [left; reflexivity|exact H].
      - destruct (IH I) as [v [A1 A2]]. exists v. split; [right; exact A1|exact A2]. }
    destruct X as [v [I [DV [sels [FP [BV BM]]]]]]. destruct (VS k v I) as [NDv _].
    rewrite DV. split; [assumption|]. exists (map zlen sels). split; [|split].
    + clear BV BM. revert FP. generalize (sv_dims v). intros names FP.
      induction FP as [|n ps names sels [d [ID PO]] F IH]; cbn; constructor; [|assumption].
      destruct (RD n d ID) as [d' [I2 H]]. exists d'. split; [assumption|].
      destruct (DN n d ID) as [_ [l RL]]. assert (ZL : zlen l = dim_len d) by apply RL.
      unfold Positions in PO. destruct (dget String.eqb dslice n) as [i|].
      * destruct H as [_ H]. destruct (H l RL) as [l' [PS [RP _]]]. rewrite <- RP. symmetry.
        apply (positions_length l (item_raw i) l' (dim_len d) ps ZL); auto. unfold zlen in ZL. lia.
      * subst d' ps. rewrite zlen_zrange by (unfold zlen in ZL; lia). lia.
    + intros a E. unfold Both in BV. rewrite E in BV. destruct (sv_value v); [apply BV|contradiction].
    + intros a E. unfold Both in BM. rewrite E in BM. destruct (sv_mask v); [apply BM|contradiction].
Qed.
