(** Proofs about redistribution by source index (C139). *)
From Verif Require Import Lib Py Spec PartitionModel DimensionModel DimensionSpec DistModel DistSpec NdModel RedistModel RedistSpec.
From Verif Require Import DimensionProofs DistProofs ScatterProofs.
Local Open Scope Z_scope.

Definition cut (src : list Z) (d : dim) : list Z :=
  if d_empty d then [] else py_slice src (slice_of (fst (bounds_local d)) (snd (bounds_local d))).

Lemma new_distribution_spec name (src : list Z) size : 1 <= size -> 2 <= zlen src ->
  exists parts ls, new_distribution name (zlen src) size = Ok parts /\ Parts src parts ls /\ zlen parts = size /\
    Forall (fun d => d_name d = name /\ d_dist d = true /\ (d_empty d = false -> (1 < size -> 2 <= dim_len d) /\ d_src d = None)) parts.
Proof.
  intros Hs Hn. unfold new_distribution.
  assert (Py : py_or (Some (zlen src)) (Some (zlen src)) = Some (zlen src)) by (unfold py_or; destruct (zlen src =? 0); reflexivity).
  unfold dim_init at 1. cbn [andb negb]. rewrite Py. unfold set_size. cbn [d_size d_name d_dist d_empty d_src d_bounds_global set_src_idx bind d_size_current].
  set (d := mkdim _ _ _ _ _ _ _ _).
  assert (D1 : d_name d = name) by reflexivity. assert (D2 : d_dist d = true) by reflexivity. assert (D3 : d_empty d = false) by reflexivity.
  assert (D4 : d_src d = None) by reflexivity. assert (D5 : dim_len d = zlen src) by reflexivity.
  destruct (update_group_spec size 2 [d] Hs ltac:(lia) eq_refl ltac:(intros x [<-|[]]; lia)) as [dd [L U]].
  assert (dd = d). { destruct L as [L _]. destruct L as [<-|[]]. reflexivity. } subst dd.
  destruct (U src) as [outs [parts [ls [G [P [F O]]]]]]; [split; [lia | rewrite D4; exact I] | exact D3 | intros ->; cbn in Hn; lia | lia |].
  exists parts, ls.
  assert (OS : outs = map (fun p => [p]) parts).
  { clear -O. induction O as [|o p os ps H O IH]; [reflexivity|]. cbn [map]. rewrite IH. inversion H as [|? x ? ? K T]; subst. inversion T; subst.
    rewrite String.eqb_refl in K. subst. reflexivity. }
  assert (LP : zlen parts = size).
  { apply map_res_length in G. rewrite OS in G. unfold zlen in *. rewrite map_length, zrange_length in G. lia. }
  split; [|split; [exact P|split; [exact LP|]]].
  - unfold update_dimension_bounds. cbn [od_updated od_size od_groups]. change (2 <? 1) with false. cbv iota.
    assert (M : map_res (fun p : Z * list (list dim) => map_res (update_group size 2 (fst p)) (snd p)) (combine (zrange 0 size) (map (fun _ => [[d]]) (zrange 0 size)))
      = Ok (map (fun p => [[p]]) parts)).
    { rewrite OS in G. revert G. generalize (zrange 0 size) as rs. clear. intros rs. revert parts. induction rs as [|r rs IH]; intros parts G; cbn [map_res map combine] in *.
      - injection G as G. destruct parts; [reflexivity|discriminate].
      - cbn [fst snd map_res]. destruct (update_group size 2 r [d]) as [x|]; [|discriminate]. cbn [bind] in *.
        destruct (map_res (fun r0 => update_group size 2 r0 [d]) rs) as [xs|] eqn:X; [|discriminate]. cbn [bind] in G.
        injection G as G. destruct parts as [|p ps]; [discriminate|]. cbn [map] in G. injection G as -> ->. rewrite (IH ps eq_refl). reflexivity. }
    rewrite M. cbn [bind od_groups]. clear. induction parts as [|p ps IH]; [reflexivity|]. cbn [map map_res bind]. rewrite IH. reflexivity.
  - eapply Forall_impl; [|exact F]. intros p [N [DD K]]. rewrite D1 in N. split; [exact N|]. split; [exact DD|]. intros X. destruct (K X) as [K1 K2]. split; [exact K1|].
    rewrite D4 in K2. unfold SameKind in K2. destruct (d_src p) as [[]|]; [destruct K2 .. | reflexivity].
Qed.

Lemma cut_concat src parts ls : Parts src parts ls -> concat (map (cut src) parts) = src.
Proof.
  intros P. assert (T := pt_tiles _ _ _ P). assert (E := tiles_slices_concat src _ 0 (zlen src) T ltac:(lia) ltac:(lia)). rewrite py_slice_whole in E.
  rewrite <- E at 2. rewrite map_map. clear. induction parts as [|d t IH]; [reflexivity|]. cbn [map concat filter]. unfold cut at 1, nonempty at 1.
  destruct (d_empty d); cbn [negb map concat app]; rewrite IH; reflexivity.
Qed.

Lemma cut_length src parts ls d : Parts src parts ls -> In d parts -> d_empty d = false -> zlen (cut src d) = dim_len d /\ 0 < dim_len d.
Proof.
  intros P I E. unfold cut. rewrite E. assert (S' := pt_size _ _ _ P). rewrite Forall_forall in S'. destruct (S' d I E) as [Z1 [Z2 _]]. split; [|exact Z1].
  assert (T := pt_tiles _ _ _ P).
  assert (B : 0 <= fst (bounds_local d) /\ snd (bounds_local d) <= zlen src).
  { assert (J : In (bounds_local d) (map bounds_local (filter nonempty parts))).
    { apply in_map. apply filter_In. split; [exact I|]. unfold nonempty. rewrite E. reflexivity. }
    assert (Hb : forall bs lo hi, Tiles lo hi bs -> lo <= hi).
    { clear. induction bs as [|[x y] t IH]; intros lo hi H; cbn [Tiles fst snd] in H; [lia|]. destruct H as [H0 [H1 H2]]. apply IH in H2. lia. }
    assert (G : forall bs lo hi z, 0 <= lo -> Tiles lo hi bs -> In z bs -> 0 <= fst z /\ snd z <= hi).
    { clear -Hb. induction bs as [|[x y] t IH]; intros lo hi z L T J; [destruct J|]. cbn [Tiles fst snd] in T. destruct T as [H0 [H1 T]].
      assert (Q := Hb _ _ _ T). destruct J as [<-|J]; [cbn; lia|]. apply (IH y hi z); [lia | exact T | exact J]. }
    exact (G _ 0 _ _ ltac:(lia) T J). }
  rewrite py_slice_zlen; lia.
Qed.

Lemma global_source_spec passed ls : Passed passed ls -> concat ls <> [] -> global_source passed = Ok (concat ls).
Proof.
  intros P N. unfold global_source.
  assert (K : exists parts, map_res (fun d => match d_src d with None => Err AttributeError | Some s => Ok (source_elements s) end)
     (flat_map (fun o => match o with Some d => [d] | None => [] end) passed) = Ok parts /\ concat parts = concat ls).
  { clear N. induction P as [|o l os ls H P [parts [E C]]]; [exists []; split; reflexivity|]. cbn [flat_map concat]. destruct o as [d|].
    - destruct H as [s [S' D]]. cbn [app map_res]. rewrite S'. cbn [bind]. rewrite E. cbn [bind]. eexists. split; [reflexivity|]. cbn [concat]. rewrite C. f_equal. rewrite <- D. reflexivity.
    - subst l. exists parts. split; assumption. }
  destruct K as [parts [E C]]. rewrite E. cbn [bind]. destruct parts; [cbn in C; congruence|]. rewrite C. reflexivity.
Qed.

Lemma increasing_part l : forall a b, Increasing (a ++ l ++ b) -> Increasing l.
Proof.
  assert (T : forall x t, Increasing (x :: t) -> Increasing t) by (intros x [|y t]; cbn; tauto).
  assert (H1 : forall a t, Increasing (a ++ t) -> Increasing t) by (induction a as [|x a IH]; intros t H; [exact H|]; apply IH, (T x), H).
  intros a b H. apply H1 in H. clear -H. induction l as [|x l IH]; [exact I|]. destruct l as [|y l]; [exact I|]. cbn in *. tauto.
Qed.

(** Reading a file at increasing indices. *)
Lemma read_fancy {A} (d : dim) (data : list A) l : d_src d = Some (SrcFancy l) -> l <> [] -> Increasing l -> Forall (fun i => 0 <= i < zlen data) l ->
  exists x, read_source d data = Ok x /\ Forall2 (fun i y => nth_error data (Z.to_nat i) = Some y) l x.
Proof.
  intros S' N I R. unfold read_source. rewrite S'.
  assert (F : InRange (zlen data) (RInts l)) by (cbn; auto).
  destruct (format_select data (RInts l) F) as [s [E1 E2]]. change (format_singleton (RInts l)) with (get_formatted_slice1 (RInts l)). rewrite E1. cbn [bind].
  assert (T : take data s = py_select data (RInts l)).
  { rewrite <- E2. destruct s as [s|k|m]; [reflexivity|reflexivity|]. revert E1. cbn. unfold get_optimal_slice_from_array.
    destruct (any_diff_gt1 l); [discriminate|]. destruct (list_min l); [|discriminate]. destruct (list_max l); discriminate. }
  rewrite T. cbn [py_select]. clear -R. induction R as [|i l H R [x [E F]]]; [exists []; split; [reflexivity|constructor]|].
  cbn [map_res]. unfold py_index at 1.
  destruct (nth_error data (Z.to_nat i)) as [y|] eqn:Y.
  - exists (y :: x). replace (i <? 0) with false by lia. cbv zeta. replace ((i <? 0) || (zlen data <=? i))%bool with false by lia.
    split; [|constructor; assumption]. rewrite Y. cbn [bind]. rewrite E. reflexivity.
  - exfalso. apply nth_error_None in Y. unfold zlen in H. lia.
Qed.

Lemma existsb_emptied {A} (vars : list (rvar A)) k v : nth_error vars k = Some v -> rv_has v = true ->
  existsb rv_has (map (fun v => forget_empty (emptied v)) vars) = true.
Proof.
  intros N H. apply existsb_exists. exists (forget_empty (emptied v)). split; [|exact H]. apply (in_map (fun v => forget_empty (emptied v))). apply (nth_error_In _ _ N).
Qed.

(** One rank. *)
Lemma rank_after_spec {A} (r : rrank A) nd src k v data : nth_error (rr_vars r) k = Some v -> rv_has v = true -> rv_source v = Some data ->
  (d_empty nd = false -> zlen src = dim_len nd /\ src <> [] /\ Increasing src /\ Forall (fun i => 0 <= i < zlen data) src) ->
  exists r' v', rank_after r nd src = Ok r' /\ nth_error (rr_vars r') k = Some v' /\
    (d_empty nd = true -> get_value (rr_dim r') v' = Ok None) /\
    (d_empty nd = false -> exists x, get_value (rr_dim r') v' = Ok (Some x) /\ Forall2 (fun i y => nth_error data (Z.to_nat i) = Some y) src x).
Proof.
  intros N H S' L. unfold rank_after. destruct (d_empty nd) eqn:E.
  - rewrite (existsb_emptied _ _ _ N H). eexists. exists (emptied (forget_empty (emptied v))). split; [reflexivity|]. cbn [rr_vars rr_dim].
    split; [rewrite map_map; apply (map_nth_error (fun x => emptied (forget_empty (emptied x))) _ _ N)|]. split; [intros _; reflexivity | discriminate].
  - destruct (L eq_refl) as [Z1 [Z2 [Z3 Z4]]]. unfold set_src_idx. rewrite (proj2 (Z.eqb_eq _ _) Z1). cbn [bind]. eexists. exists (reset v). split; [reflexivity|]. cbn [rr_vars rr_dim].
    split; [rewrite (map_nth_error _ _ _ N), H; reflexivity|]. split; [discriminate|]. intros _.
    destruct (read_fancy (mkdim (d_name nd) (d_size nd) (d_size_current nd) (Some (SrcFancy src)) (d_dist nd) (d_empty nd) (d_bounds_local nd) (d_bounds_global nd)) data src eq_refl Z2 Z3 Z4)
      as [x [X1 X2]].
    exists x. split; [|exact X2]. unfold get_value, is_empty, reset. cbn [rv_empty rv_has rv_value rv_source rv_loaded d_empty d_dist]. rewrite E, Bool.andb_false_r, S', H.
    try rewrite E in X1. rewrite X1. reflexivity.
Qed.

Lemma Forall2_concat {A B} (P : A -> B -> Prop) : forall ls xs, Forall2 (Forall2 P) ls xs -> Forall2 P (concat ls) (concat xs).
Proof. induction 1; cbn [concat]; [constructor|]. apply Forall2_app; assumption. Qed.

Theorem redistributed {A} name target passed (ranks : list (rrank A)) ls k (data : list A) :
  (2 <= List.length ranks)%nat -> Passed passed ls -> Increasing (concat ls) -> Forall (fun i => 0 <= i < zlen data) (concat ls) -> 2 <= zlen (concat ls) ->
  Live target ranks -> FromFile k data ranks ->
  exists ranks' vals, redistribute name target passed ranks = Ok ranks' /\ Values k ranks' vals /\
    Forall2 (fun i y => nth_error data (Z.to_nat i) = Some y) (concat ls) (together vals) /\
    List.length ranks' = List.length ranks /\
    Forall (fun x => match x with Some l => (2 <= List.length l)%nat | None => True end) vals.
Proof.
  intros LR P I R N [r0 [v0 [LI [LV LE]]]] F. set (src := concat ls) in *.
  assert (Hne : src <> []) by (intros E; rewrite E in N; cbn in N; lia).
  destruct (new_distribution_spec name src (zlen ranks) ltac:(unfold zlen; lia) N) as [parts [pls [D [HP [LP FD]]]]].
  assert (G := global_source_spec passed ls P Hne). fold src in G.
  unfold redistribute. destruct ranks as [|ra [|rb rest]] eqn:ER; [cbn in LR; lia | cbn in LR; lia|]. rewrite <- ER in *. clear ra rb rest ER.
  replace (forallb _ ranks) with false.
  2: { symmetry. apply Bool.not_true_iff_false. intros FA. rewrite forallb_forall in FA. specialize (FA r0 LI). rewrite LV in FA. congruence. }
  rewrite G. cbn [bind]. rewrite D. cbn [bind].
  assert (W : exists w, dim_init name (Some (zlen src)) None SrcNone false false = Ok w /\ d_dist w = false).
  { assert (Py : py_or (Some (zlen src)) (Some (zlen src)) = Some (zlen src)) by (unfold py_or; destruct (zlen src =? 0); reflexivity).
    unfold dim_init. cbn [andb negb]. rewrite Py. eexists. split; reflexivity. }
  destruct W as [w [W1 W2]]. rewrite W1. cbn [bind].
  assert (SC : variable_scatter (mkvar w src None) parts = Ok (map (fun d => mkvar d (cut src d) None) parts)).
  { unfold variable_scatter. cbn [v_dim v_vals v_mask option_map]. rewrite W2.
    destruct parts as [|d1 [|d2 t]]; [reflexivity | unfold zlen in LP; cbn in LP; lia|]. f_equal. apply map_ext. intros d. unfold cut. destruct (d_empty d); reflexivity. }
  rewrite SC. cbn [bind].
  assert (K : forall rs ps, List.length rs = List.length ps -> (forall r, In r rs -> In r ranks) -> (forall d, In d ps -> In d parts) ->
    (forall d, In d ps -> Increasing (cut src d) /\ Forall (fun i => 0 <= i < zlen data) (cut src d)) ->
    exists rs' vals, map_res (fun rp => rank_after (fst rp) (v_dim (snd rp)) (v_vals (snd rp))) (combine rs (map (fun d => mkvar d (cut src d) None) ps)) = Ok rs' /\
      Values k rs' vals /\ Forall2 (Forall2 (fun i y => nth_error data (Z.to_nat i) = Some y)) (map (cut src) ps) (map (fun x => match x with Some l => l | None => [] end) vals) /\
      List.length rs' = List.length rs /\
      Forall (fun x => match x with Some l => (2 <= List.length l)%nat | None => True end) vals).
  { induction rs as [|r rs IH]; intros ps E I1 I2 I3; destruct ps as [|d ps]; try (cbn in E; lia).
    - exists [], []. repeat split; constructor.
    - destruct (IH ps ltac:(cbn in E; lia) ltac:(intros; apply I1; right; assumption) ltac:(intros; apply I2; right; assumption) ltac:(intros; apply I3; right; assumption))
        as [rs' [vals [M [V [C [LL T]]]]]].
      unfold FromFile in F. rewrite Forall_forall in F. destruct (F r (I1 r (or_introl eq_refl))) as [v [V1 [V2 V3]]]. destruct (I3 d (or_introl eq_refl)) as [J1 J2].
      destruct (rank_after_spec r d (cut src d) k v data V1 V2 V3) as [r' [v' [Q1 [Q2 [Q3 Q4]]]]].
      { intros ED. destruct (cut_length src parts pls d HP (I2 d (or_introl eq_refl)) ED) as [Z1 Z2]. split; [exact Z1|]. split; [|split; assumption].
        intros Z3. rewrite Z3 in Z1. cbn in Z1. lia. }
      cbn [combine map map_res fst snd v_dim v_vals]. rewrite Q1. cbn [bind]. rewrite M. cbn [bind].
      destruct (d_empty d) eqn:ED.
      + exists (r' :: rs'), (None :: vals). split; [reflexivity|]. split; [constructor; [exists v'; auto | exact V]|]. split; [|split; [cbn; lia | constructor; [exact Logic.I | exact T]]].
        constructor; [|exact C]. unfold cut. rewrite ED. constructor.
      + destruct (Q4 eq_refl) as [x [X1 X2]]. exists (r' :: rs'), (Some x :: vals). split; [reflexivity|]. split; [constructor; [exists v'; auto | exact V]|].
        split; [constructor; [exact X2 | exact C]|]. split; [cbn; lia|]. constructor; [|exact T].
        assert (LX : List.length (cut src d) = List.length x) by (clear -X2; induction X2; cbn; lia).
        destruct (cut_length src parts pls d HP (I2 d (or_introl eq_refl)) ED) as [Z1 _]. rewrite Forall_forall in FD.
        destruct (FD d (I2 d (or_introl eq_refl))) as [_ [_ FD']]. destruct (FD' ED) as [FD2 _]. unfold zlen in *. lia. }
  assert (CC := cut_concat src parts pls HP).
  destruct (K ranks parts ltac:(unfold zlen in LP; lia) (fun r h => h) (fun d h => h)) as [rs' [vals [M [V [C [LL T]]]]]].
  { intros d Id. apply in_split in Id. destruct Id as [p1 [p2 EQ]]. rewrite EQ, map_app, concat_app in CC. cbn [map concat] in CC. split.
    - apply (increasing_part _ (concat (map (cut src) p1)) (concat (map (cut src) p2))). rewrite CC. exact I.
    - rewrite <- CC in R. apply Forall_app in R. destruct R as [_ R]. apply Forall_app in R. tauto. }
  exists rs', vals. split; [exact M|]. split; [exact V|]. split; [|split; assumption]. apply Forall2_concat in C. rewrite CC in C. exact C.
Qed.

(** ** Splits *)
Lemma iroot_from_spec n k : 0 < k -> 0 <= n -> forall f, 0 <= iroot_from f n k /\ iroot_from f n k ^ k <= n.
Proof.
  intros K N. induction f as [|f IH]; cbn [iroot_from].
  - split; [lia|]. rewrite Z.pow_0_l by lia. lia.
  - destruct (Z.leb_spec (Z.of_nat (S f) ^ k) n); [|exact IH]. split; [lia | assumption].
Qed.

Lemma iroot_from_pos n k : 0 < k -> 1 <= n -> forall f, (1 <= f)%nat -> 1 <= iroot_from f n k.
Proof.
  intros K N. induction f as [|f IH]; intros F; [lia|]. cbn [iroot_from].
  destruct (Z.leb_spec (Z.of_nat (S f) ^ k) n); [lia|].
  destruct f as [|f]; [|apply IH; lia]. change (Z.of_nat 1) with 1 in *. rewrite Z.pow_1_l in * by lia. lia.
Qed.

Lemma iroot_from_greatest n k : 0 < k -> forall f e, iroot_from f n k < e <= Z.of_nat f -> n < e ^ k.
Proof.
  intros K. induction f as [|f IH]; intros e E; cbn [iroot_from] in E; [lia|].
  destruct (Z.leb_spec (Z.of_nat (S f) ^ k) n); [lia|].
  destruct (Z.eq_dec e (Z.of_nat (S f))) as [->|]; [assumption|]. apply IH. lia.
Qed.

Lemma pieces_min even : 1 <= even -> forall shape, Forall (fun s => 1 <= s) shape ->
  0 < pieces (map (fun s => if even >? s then s else even) shape) <= even ^ zlen shape.
Proof.
  intros E. induction 1 as [|s t S' F IH]; [cbn; lia|].
  unfold zlen in *. cbn [map pieces fold_right List.length] in *. fold (pieces (map (fun s => if even >? s then s else even) t)).
  rewrite Nat2Z.inj_succ, Z.pow_succ_r by lia.
  assert (1 <= (if even >? s then s else even) <= even) by (destruct (Z.gtb_spec even s); lia). nia.
Qed.

Lemma pieces_ones n : pieces (repeat 1 n) = 1.
Proof. induction n; [reflexivity|]. cbn [repeat pieces fold_right]. fold (pieces (repeat 1 n)). lia. Qed.

Theorem optimal_splits_spec size shape : 1 <= size -> shape <> [] -> Forall (fun s => 1 <= s) shape ->
  exists splits, get_optimal_splits size shape = Ok splits /\ 1 <= pieces splits <= size /\ Forall2 (fun p s => 1 <= p <= s) splits shape /\
    (pieces shape <= size -> splits = shape) /\
    (forall s0, nth_error shape 0 = Some s0 -> size <= s0 -> pieces splits = size).
Proof.
  intros N NE F. destruct shape as [|s0 rest]; [congruence|]. unfold get_optimal_splits.
  change (zprodl (s0 :: rest)) with (pieces (s0 :: rest)).
  assert (P : 1 <= pieces (s0 :: rest)).
  { clear NE. induction F as [|s t S' F IH]; [cbn; lia|]. cbn [pieces fold_right] in *. fold (pieces t) in *. nia. }
  destruct (Z.geb_spec size (pieces (s0 :: rest))).
  - exists (s0 :: rest). split; [reflexivity|]. split; [lia|]. split.
    + clear - F. induction F; constructor; [lia | assumption].
    + split; [reflexivity|]. intros s E S'. injection E as <-. apply Forall_cons_iff in F as [F0 F].
      assert (s0 <= pieces (s0 :: rest)). { clear - F F0. cbn [pieces fold_right]. fold (pieces rest). assert (1 <= pieces rest) by (induction F as [|s t S' F IH]; [cbn; lia|]; cbn [pieces fold_right] in *; fold (pieces t) in *; nia). nia. }
      lia.
  - apply Forall_cons_iff in F as [F0 F]. destruct (Z.leb_spec size s0).
    + exists (size :: repeat 1 (List.length rest)). split; [reflexivity|]. cbn [pieces fold_right]. fold (pieces (repeat 1 (List.length rest))). rewrite pieces_ones.
      split; [lia|]. split; [|split; [cbn [pieces fold_right] in *; intros; exfalso; lia | intros; lia]]. constructor; [lia|]. clear - F. induction F; constructor; [lia | assumption].
    + set (even := iroot_from (Z.to_nat size) size (zlen (s0 :: rest))).
      assert (K : 0 < zlen (s0 :: rest)) by (unfold zlen; cbn [List.length]; lia).
      assert (E1 : 1 <= even) by (apply iroot_from_pos; lia).
      destruct (iroot_from_spec size (zlen (s0 :: rest)) K ltac:(lia) (Z.to_nat size)) as [_ E2]. fold even in E2.
      pose proof (pieces_min even E1 (s0 :: rest) (Forall_cons _ F0 F)) as PM.
      exists (map (fun s => if even >? s then s else even) (s0 :: rest)). split; [reflexivity|]. split; [lia|]. split.
      * assert (F' : Forall (fun s => 1 <= s) (s0 :: rest)) by (constructor; assumption). generalize dependent even. intros even E1 _ _. clear - F' E1. induction F'; cbn [map]; constructor; [|assumption]. destruct (Z.gtb_spec even x); lia.
      * split; [lia|]. intros s E S'. injection E as <-. lia.
Qed.

(** ** Collections *)
Lemma collection_scatter_groups c : vc_children c <> [] -> exists e, collection_scatter c = Err e.
Proof.
  destruct c as [n vars ch]. cbn [vc_children]. intros N. destruct ch as [|x t]; [congruence|]. cbn [collection_scatter].
  destruct (existsb snd vars); [eauto|]. destruct vars as [|v vs]; [eauto|].
  destruct (collection_scatter x); cbn [bind]; eauto.
Qed.

Lemma collection_scatter_flat name vars : vars <> [] -> Forall (fun v => snd v = false) vars ->
  collection_scatter (mkvcoll name vars []) = Ok (mkvcoll name vars []).
Proof.
  intros N F. cbn [collection_scatter]. assert (existsb snd vars = false) as ->.
  { clear N. induction F as [|v t V F IH]; [reflexivity|]. cbn [existsb]. rewrite V. exact IH. }
  destruct vars; [congruence|]. reflexivity.
Qed.
