(** The rules, the options, the coordinate system and the selection geometries. *)
From Verif Require Import Py Lib ValidModel ValidSpec ValidProofs.
From Coq Require Import String Lia.
Local Open Scope nat_scope.
Local Notation length := List.length.
Local Notation concat := List.concat.

(** ** The rules *)

Lemma bind_ok : forall (x : res unit) (f : unit -> res unit), bind x f = Ok tt <-> x = Ok tt /\ f tt = Ok tt.
Proof. intros [[]|e] f; cbn; split; intros H; try discriminate; try tauto; destruct H; discriminate. Qed.

Lemma raise_if_ok : forall b e, raise_if b e = Ok tt <-> b = false.
Proof. intros [] e; cbn; split; intros H; try discriminate; reflexivity. Qed.

Lemma fold_ok : forall A (f : A -> res unit) l, fold_res (fun _ d => f d) l tt = Ok tt <-> forall d, In d l -> f d = Ok tt.
Proof.
  intros A f. induction l as [|d l IH]; cbn [fold_res].
  - split; [intros _ d []|reflexivity].
  - rewrite bind_ok. split.
    + intros [H1 H2] x [<-|X]; [exact H1|]. apply IH; assumption.
    + intros H. split; [apply H; left; reflexivity|]. apply IH. intros x X. apply H. right. exact X.
Qed.

Lemma format_eqb_eq : forall a b, format_eqb a b = true <-> a = b.
Proof. intros [] []; cbn; split; intros H; try discriminate; reflexivity. Qed.

Lemma ltb_several : forall o, (1 <? length (o_data o)) = true <-> Several o.
Proof. intros o. unfold Several. rewrite Nat.ltb_lt. lia. Qed.

Lemma existsb_false : forall A (f : A -> bool) l, existsb f l = false <-> forall x, In x l -> f x = false.
Proof.
  intros A f l. split.
  - intros E x X. apply not_true_iff_false. intros T. apply not_true_iff_false in E. apply E. apply existsb_exists. eauto.
  - intros H. apply not_true_iff_false. intros E. apply existsb_exists in E. destruct E as [x [X1 X2]]. rewrite (H x X1) in X2. discriminate.
Qed.

Lemma count_multi : forall l, length (filter is_multi l) + length (filter is_multi_expression l) =
  length (filter (fun c => is_multi c || is_multi_expression c) l).
Proof.
  induction l as [|c l IH]; [reflexivity|]. cbn. unfold is_multi, is_multi_expression in *. destruct (c_kind c); cbn; lia.
Qed.

Lemma is_clip_true : forall o, is_clip o = true <-> o_op o = Clip.
Proof. intros o. unfold is_clip. destruct (o_op o); split; intros H; try discriminate; reflexivity. Qed.
Lemma is_clip_false : forall o, is_clip o = false <-> o_op o = Intersects.
Proof. intros o. unfold is_clip. destruct (o_op o); split; intros H; try discriminate; reflexivity. Qed.

Lemma nc_ok : forall o, nc_rule o = Ok tt <-> NcRules o.
Proof.
  intros o. unfold nc_rule. rewrite !bind_ok, !raise_if_ok.
  assert (P : match o_calc o with
          | None => raise_if (1 <? length (o_data o)) DefinitionValidationError
          | Some l => raise_if ((1 <? length (o_data o)) && negb (length (filter is_multi l) + length (filter is_multi_expression l) =? 1)) TypeError
          end = Ok tt <-> (Several o -> exists l, o_calc o = Some l /\ length (filter (fun c => is_multi c || is_multi_expression c) l) = 1)).
  { pose proof (ltb_several o) as L. destruct (o_calc o) as [l|].
    - rewrite raise_if_ok, count_multi. rewrite andb_false_iff, negb_false_iff, Nat.eqb_eq. split.
      + intros [H|H] S'; [apply L in S'; congruence|eauto].
      + intros H. destruct (1 <? length (o_data o)); [|auto]. right. destruct (H (proj1 L eq_refl)) as [l' [E1 E2]]. congruence.
    - rewrite raise_if_ok. split.
      + intros H S'. apply L in S'. congruence.
      + intros H. destruct (1 <? length (o_data o)); [|reflexivity]. destruct (H (proj1 L eq_refl)) as [l [E _]]. discriminate. }
  assert (C : (is_clip o && negb (o_aggregate o) = false) <-> (o_op o = Clip -> o_aggregate o = true)).
  { unfold is_clip. destruct (o_op o), (o_aggregate o); cbn; split; intros H; try reflexivity; try discriminate; try (intros; reflexivity); try (intros; discriminate).
    discriminate (H eq_refl). }
  assert (K : match o_calc o with
          | None => Ok tt
          | Some l => do _ <- raise_if (o_raw o) DefinitionValidationError; raise_if (existsb is_keyed l) DefinitionValidationError
          end = Ok tt <-> (o_calc o <> None -> o_raw o = false) /\ (forall l c, o_calc o = Some l -> In c l -> c_kind c <> FreqDuration)).
  { destruct (o_calc o) as [l|].
    - rewrite bind_ok, !raise_if_ok, existsb_false. split.
      + intros [H1 H2]. split; [auto|]. intros l' c E I' K. injection E as <-. apply H2 in I'. unfold is_keyed in I'. rewrite K in I'. discriminate.
      + intros [H1 H2]. split; [apply H1; discriminate|]. intros c I'. specialize (H2 l c eq_refl I'). unfold is_keyed. destruct (c_kind c); try reflexivity. congruence.
    - split; [intros _; split; [congruence|intros; discriminate]|reflexivity]. }
  assert (A' : (o_aggregate o && (geom_len (geom_get (o_geom o)) =? 0) = false) <-> (o_aggregate o = true -> ~ GeometriesCounted o 0)).
  { unfold GeometriesCounted. rewrite andb_false_iff, Nat.eqb_neq. destruct (o_aggregate o); split; intros H.
    - intros _. destruct H; [discriminate|assumption].
    - right. apply H. reflexivity.
    - discriminate.
    - left. reflexivity. }
  assert (G : (negb (o_aggregate o) && negb (o_agg_selection o) && (1 <? geom_len (geom_get (o_geom o))) = false) <->
              (o_aggregate o = false -> o_agg_selection o = false -> geom_len (geom_get (o_geom o)) <= 1)).
  { rewrite !andb_false_iff, !negb_false_iff, Nat.ltb_ge. destruct (o_aggregate o), (o_agg_selection o); split; intros H; try (left; left; reflexivity); try (left; right; reflexivity); try discriminate; try (intros; discriminate).
    - intros _ _. destruct H as [[H|H]|H]; [discriminate|discriminate|exact H].
    - right. auto. }
  rewrite P, C, K, A', G. split.
  - intros [H1 [H2 [[H3 H4] [H5 H6]]]]. constructor; assumption.
  - intros [H1 H2 H3 H4 H5 H6]. auto 10.
Qed.

Lemma esmpy_ok : forall o, esmpy_rule o = Ok tt <-> EsmpyRules o.
Proof.
  intros o. unfold esmpy_rule. pose proof (ltb_several o) as L. destruct (1 <? length (o_data o)).
  { split; [discriminate|]. intros [H _ _ _]. destruct H. apply L. reflexivity. }
  destruct (is_clip o) eqn:C.
  { split; [discriminate|]. intros [_ H _ _]. apply is_clip_false in H. congruence. }
  apply is_clip_false in C.
  assert (N : ~ Several o) by (intros S'; apply L in S'; discriminate).
  destruct (match o_select o with Some l => negb (o_agg_selection o) && (1 <? length l) | None => false end) eqn:E.
  { split; [discriminate|]. intros [_ _ H _]. destruct (o_select o) as [l|]; [|discriminate]. apply andb_true_iff in E. destruct E as [E1 E2].
    apply Nat.ltb_lt in E2. specialize (H l eq_refl). destruct (o_agg_selection o); [discriminate|]. specialize (H eq_refl). lia. }
  rewrite raise_if_ok. split; [|intros [_ _ _ H]; exact H]. intros A'. constructor; try assumption.
  intros l El Ea. rewrite El, Ea in E. cbn [negb andb] in E. apply Nat.ltb_ge in E. exact E.
Qed.

Lemma missing_ok : forall fnames kwds required, missing_names fnames kwds required = Ok false <->
  forall r, In r required -> exists n, lookup r kwds = Some n /\ In n fnames.
Proof.
  intros fnames kwds. induction required as [|x t IH]; cbn [missing_names].
  - split; [intros _ r []|reflexivity].
  - destruct (lookup x kwds) as [n|] eqn:E.
    + split.
      * destruct (missing_names fnames kwds t) as [b|e]; [|discriminate]. cbn. intros H. injection H as H. apply orb_false_iff in H. destruct H as [H1 ->].
        apply negb_false_iff, mem_str_in in H1. intros r [<-|R]; [eauto|]. apply IH; auto.
      * intros H. destruct IH as [_ IH]. rewrite IH by (intros r R; apply H; right; exact R). cbn.
        destruct (H x (or_introl eq_refl)) as [m [M1 M2]]. rewrite E in M1. injection M1 as <-. apply mem_str_in in M2. rewrite M2. reflexivity.
    + split; [discriminate|]. intros H. destruct (H x (or_introl eq_refl)) as [m [M1 _]]. congruence.
Qed.

Lemma find_split : forall A (f : A -> bool) l c, find f l = Some c <-> exists l1 l2, l = l1 ++ c :: l2 /\ f c = true /\ forall d, In d l1 -> f d = false.
Proof.
  intros A f. induction l as [|x l IH]; intros c; cbn [find].
  - split; [discriminate|]. intros [[|y l1] [l2 [E _]]]; discriminate.
  - destruct (f x) eqn:E.
    + split.
      * intros H. injection H as <-. exists [], l. repeat split; try assumption. intros d [].
      * intros [[|y l1] [l2 [E1 [E2 E3]]]]; cbn in E1; injection E1 as -> ->; [reflexivity|]. rewrite (E3 y (or_introl eq_refl)) in E. discriminate.
    + rewrite IH. split.
      * intros [l1 [l2 [-> [E2 E3]]]]. exists (x :: l1), l2. repeat split; try assumption. intros d [<-|D]; auto.
      * intros [[|y l1] [l2 [E1 [E2 E3]]]]; cbn in E1; injection E1 as -> ->; [congruence|]. exists l1, l2. repeat split; try assumption. intros d D. apply E3. right. exact D.
Qed.

Lemma multi_ok : forall o l c required, In c l -> multi_rule o l (c_func c) required = Ok tt <->
  o_sample o = false /\ exists l1 c' l2, l = l1 ++ c' :: l2 /\ c_func c' = c_func c /\ (forall d, In d l1 -> c_func d <> c_func c) /\
        HasNames o required (c_kwds c').
Proof.
  intros o l c required C. unfold multi_rule. rewrite bind_ok, raise_if_ok.
  assert (X : forall c', match find (fun c0 => String.eqb (c_func c0) (c_func c)) l with Some c1 => c1 = c' | None => False end <->
     exists l1 l2, l = l1 ++ c' :: l2 /\ c_func c' = c_func c /\ (forall d, In d l1 -> c_func d <> c_func c)).
  { intros c'. pose proof (find_split _ (fun c0 => String.eqb (c_func c0) (c_func c)) l c') as F.
    transitivity (find (fun c0 => String.eqb (c_func c0) (c_func c)) l = Some c').
    { destruct (find _ l); split; intros H; try congruence; try contradiction. }
    rewrite F. split; intros [l1 [l2 [E1 [E2 E3]]]]; exists l1, l2; split; try assumption; split; try (apply String.eqb_eq; assumption); intros d D; apply E3 in D; apply String.eqb_neq; assumption. }
  assert (Y : find (fun c0 => String.eqb (c_func c0) (c_func c)) l <> None).
  { intros N. apply (find_none _ _ N) in C. rewrite String.eqb_refl in C. discriminate. }
  destruct (find _ l) as [c1|]; [|congruence].
  assert (Z' : (if length (filter (fun r => mem_str r (map fst (c_kwds c1))) required) <? 2 then Err DefinitionValidationError
      else do b <- missing_names (concat (map ds_names (o_data o))) (c_kwds c1) required; raise_if b DefinitionValidationError) = Ok tt <-> HasNames o required (c_kwds c1)).
  { unfold HasNames. destruct (_ <? 2) eqn:L.
    - apply Nat.ltb_lt in L. split; [discriminate|]. intros [H _]. lia.
    - apply Nat.ltb_ge in L. transitivity (missing_names (concat (map ds_names (o_data o))) (c_kwds c1) required = Ok false).
      + destruct (missing_names _ _ _) as [[]|e]; cbn; split; intros H; try discriminate; reflexivity.
      + rewrite missing_ok. split.
        * intros H. split; [exact L|]. intros r R. destruct (H r R) as [n [N1 N2]]. apply in_concat in N2. destruct N2 as [x [X1 X2]].
          apply in_map_iff in X1. destruct X1 as [d [<- D]]. eauto 6.
        * intros [_ H] r R. destruct (H r R) as [n [d [N1 [D N2]]]]. exists n. split; [exact N1|]. apply in_concat. exists (ds_names d). split; [apply in_map; exact D|exact N2]. }
  rewrite Z'. split.
  - intros [H1 H2]. split; [exact H1|]. destruct (proj1 (X c1) eq_refl) as [l1 [l2 [E1 [E2 E3]]]]. exists l1, c1, l2. auto.
  - intros [H1 [l1 [c' [l2 [E1 [E2 [E3 H]]]]]]]. split; [exact H1|]. assert (c1 = c') as -> by (apply X; eauto). exact H.
Qed.

Lemma calc_ok : forall o l c, In c l -> calc_rule o l c = Ok tt <-> CalcRule o l c.
Proof.
  intros o l c C. unfold calc_rule, CalcRule. destruct (c_kind c); try (split; [intros _; exact Logic.I|reflexivity]).
  - rewrite raise_if_ok. destruct (o_grouping o); cbn; split; intros H; congruence.
  - apply multi_ok. exact C.
  - rewrite raise_if_ok. destruct (o_grouping o); cbn; split; intros H; congruence.
  - destruct (o_grouping o) as [parts|]; [|split; [discriminate|intros [p [E _]]; discriminate]].
    rewrite raise_if_ok, negb_false_iff, mem_str_in. split; [eauto|]. intros [p [E H]]. congruence.
  - destruct (o_grouping o) as [parts|]; [|split; [discriminate|intros [p [E _]]; discriminate]].
    rewrite raise_if_ok, negb_false_iff, mem_str_in. split; [eauto|]. intros [p [E H]]. congruence.
Qed.

Lemma exists_last_or_nil : forall A (l : list A), l = [] \/ exists t c, l = t ++ [c].
Proof. intros A [|x l]; [left; reflexivity|]. right. destruct (@exists_last _ (x :: l)) as [t [c E]]; [discriminate|]. eauto. Qed.

Lemma calcs_ok : forall o, calcs_rule o = Ok tt <->
  (forall l c, o_calc o = Some (l ++ [c]) -> c_kind c = Expression \/ c_kind c = MultiExpression -> o_grouping o = None) /\
  (forall l c, o_calc o = Some (l ++ [c]) -> c_kind c <> Expression -> c_kind c <> MultiExpression ->
    forall c', In c' (l ++ [c]) -> CalcRule o (l ++ [c]) c').
Proof.
  intros o. unfold calcs_rule. destruct (o_calc o) as [l|]; [|split; [intros _; split; intros; discriminate|reflexivity]].
  destruct (exists_last_or_nil _ l) as [->|[t [c ->]]].
  - cbn. split; [intros _; split; intros [|x l] c E; discriminate|reflexivity].
  - rewrite rev_app_distr. cbn [rev app]. unfold is_expression.
    assert (I1 : forall t' c', Some (t ++ [c]) = Some (t' ++ [c']) -> t' = t /\ c' = c).
    { intros t' c' E. injection E as E. apply app_inj_tail in E. destruct E; auto. }
    assert (F : (forall d, In d (t ++ [c]) -> calc_rule o (t ++ [c]) d = Ok tt) <-> forall c', In c' (t ++ [c]) -> CalcRule o (t ++ [c]) c').
    { split; intros H d D; apply calc_ok; auto. }
    destruct (c_kind c) eqn:K.
    all: try (rewrite fold_ok, F; split;
      [intros H; split; intros t' c' E; destruct (I1 _ _ E) as [-> ->]; [intros [K'|K']; congruence|intros _ _; exact H]
      |intros [_ H]; apply (H t c eq_refl); congruence]).
    all: rewrite raise_if_ok; destruct (o_grouping o); cbn; split; intros H;
      [discriminate|destruct H as [H _]; discriminate (H t c eq_refl ltac:(auto))|
       split; intros t' c' E; destruct (I1 _ _ E) as [-> ->]; [auto|congruence]|reflexivity].
Qed.

Lemma rules_ok : forall size o, NotRotated (o_data o) -> snd (validate size o) = Ok tt <-> Rules size o.
Proof.
  intros size o N.
  assert (V : snd (validate size o) = Ok tt <-> rules_before size o = Ok tt /\ rules_after o = Ok tt).
  { unfold validate. destruct (rules_before size o) as [[]|e]; cbn.
    - unfold replace_crs. rewrite (not_rotated o N). cbn. tauto.
    - split; [discriminate|]. intros [H _]. discriminate. }
  rewrite V. unfold rules_before, rules_after. rewrite !bind_ok, !raise_if_ok, fold_ok, (not_rotated o N), calcs_ok. cbn [andb].
  assert (D : (forall d, In d (filter (fun d => negb (ds_field d)) (o_data o)) -> driver_rule o d = Ok tt) <->
    forall d, In d (o_data o) -> ds_field d = false -> ds_vector d = true -> o_format o = Ocgis \/ o_format o = Shp).
  { split.
    - intros H d D1 D2 D3. assert (I1 : In d (filter (fun d => negb (ds_field d)) (o_data o))) by (apply filter_In; rewrite D2; auto).
      apply H in I1. apply raise_if_ok in I1. rewrite D3 in I1. apply negb_false_iff, orb_true_iff in I1. rewrite !format_eqb_eq in I1. exact I1.
    - intros H d D1. apply filter_In in D1. destruct D1 as [D1 D2]. apply negb_true_iff in D2. apply raise_if_ok. destruct (ds_vector d) eqn:D3; [|reflexivity].
      destruct (H d D1 D2 D3) as [-> | ->]; reflexivity. }
  assert (C : converter_rule o = Ok tt <-> (o_format o = Nc -> NcRules o) /\ (o_format o = Esmpy -> EsmpyRules o) /\
     (o_format o = GeoJson -> Several o -> exists l c, o_calc o = Some l /\ In c l /\ c_kind c = MultiExpression) /\
     (o_format o = MetaJson -> ~ Several o /\ forall d, In d (o_data o) -> ds_field d = false)).
  { unfold converter_rule. destruct (o_format o) eqn:F; try (split; [intros _; repeat split; intros; discriminate|reflexivity]).
    - unfold geojson_rule. rewrite raise_if_ok, andb_false_iff, negb_false_iff. pose proof (ltb_several o) as L. split.
      + intros H. repeat split; try discriminate. intros _ SV. apply L in SV. destruct H as [H|H]; [congruence|].
        destruct (o_calc o) as [l|]; [|discriminate]. apply existsb_exists in H. destruct H as [c [C1 C2]]. exists l, c.
        repeat split; try assumption. unfold is_multi_expression in C2. destruct (c_kind c); try discriminate. reflexivity.
      + intros [_ [_ [H _]]]. destruct (1 <? length (o_data o)); [|auto]. right. destruct (H eq_refl (proj1 L eq_refl)) as [l [c [-> [C1 C2]]]].
        apply existsb_exists. exists c. split; [exact C1|]. unfold is_multi_expression. rewrite C2. reflexivity.
    - rewrite nc_ok. split; [intros H; split; [intros _; exact H|split; [discriminate|split; discriminate]]|]. intros [H _]. auto.
    - unfold meta_rule. pose proof (ltb_several o) as L. destruct (1 <? length (o_data o)).
      + split; [discriminate|]. intros [_ [_ [_ H]]]. destruct (H eq_refl) as [H1 _]. destruct H1. apply L. reflexivity.
      + rewrite raise_if_ok, existsb_false. split.
        * intros H. split; [discriminate|]. split; [discriminate|]. split; [discriminate|]. intros _. split; [intros S'; apply L in S'; discriminate|exact H].
        * intros [_ [_ [_ H]]]. apply H. reflexivity.
    - rewrite esmpy_ok. split; [intros H; split; [discriminate|split; [intros _; exact H|split; discriminate]]|]. intros [_ [H _]]. auto. }
  assert (R : regrid_rule size o = Ok tt <-> (o_regrid o <> None -> size <= 1 /\ o_op o = Intersects)).
  { unfold regrid_rule. destruct (o_regrid o); [|split; [congruence|reflexivity]]. rewrite bind_ok, !raise_if_ok, Nat.ltb_ge, is_clip_false. split; [auto|]. intros H. apply H. discriminate. }
  assert (P : ((1 <? length (projections o)) && negb (format_eqb (o_format o) Ocgis) && negb (is_some (o_crs o)) = false) <->
     ((exists d e, In d (o_data o) /\ In e (o_data o) /\ ds_crs d <> ds_crs e) -> o_format o <> Ocgis -> o_crs o <> None)).
  { pose proof (projections_many o) as M. rewrite !andb_false_iff, !negb_false_iff, format_eqb_eq, Nat.ltb_ge. split.
    - intros H E F. apply M in E. destruct H as [[H|H]|H]; [lia|congruence|]. destruct (o_crs o); [discriminate|discriminate].
    - intros H. destruct (le_lt_dec (length (projections o)) 1) as [L|L]; [auto|]. apply M in L. specialize (H L).
      destruct (format_eqb (o_format o) Ocgis) eqn:F; [apply format_eqb_eq in F; auto|]. right. destruct (o_crs o); [reflexivity|].
      exfalso. apply H; [|reflexivity]. intros F'. apply format_eqb_eq in F'. congruence. }
  assert (OS : forall c, on_sphere c = true <-> c = Wgs84 \/ c = Sphere).
  { intros c. unfold on_sphere. rewrite orb_true_iff, !system_eqb_eq. reflexivity. }
  assert (G : geojson_crs_rule o = Ok tt <-> (o_format o = GeoJson ->
    match o_crs o with
    | Some c => c = Wgs84 \/ c = Sphere
    | None => forall d c, In d (o_data o) -> ds_crs d = Some c -> c = Wgs84 \/ c = Sphere
    end)).
  { unfold geojson_crs_rule. destruct (format_eqb (o_format o) GeoJson) eqn:F.
    - apply format_eqb_eq in F. destruct (o_crs o) as [c|].
      + rewrite raise_if_ok, negb_false_iff, OS. tauto.
      + rewrite raise_if_ok, existsb_false. split.
        * intros H _ d c D1 D2. apply OS. assert (Q : In (Some c) (projections o)) by (apply projections_in; eauto). apply H in Q. apply negb_false_iff in Q. exact Q.
        * intros H p Q. apply projections_in in Q. destruct Q as [d [D1 <-]]. destruct (ds_crs d) as [c|] eqn:E; [|reflexivity]. apply negb_false_iff, OS. eauto.
    - split; [|reflexivity]. intros _ F'. apply format_eqb_eq in F'. congruence. }
  assert (S' : snippet_rule o = Ok tt <-> (o_snippet o = true -> o_calc o = None /\ forall d, In d (o_data o) -> ds_field d = false -> ds_region d = false)).
  { unfold snippet_rule. destruct (o_snippet o); [|split; [intros; discriminate|reflexivity]]. rewrite bind_ok, !raise_if_ok, existsb_false. split.
    - intros [H1 H2] _. split; [destruct (o_calc o); [discriminate|reflexivity]|]. intros d D1 D2. apply H2. apply filter_In. rewrite D2. auto.
    - intros H. destruct (H eq_refl) as [-> H2]. split; [reflexivity|]. intros d I1. apply filter_In in I1. destruct I1 as [D1 D2]. apply negb_true_iff in D2. auto. }
  assert (L : slice_rule o = Ok tt <-> (o_slice o = true -> geom_get (o_geom o) = GNone)).
  { unfold slice_rule. rewrite raise_if_ok. destruct (o_slice o), (geom_get (o_geom o)); cbn; split; intros H; try reflexivity; try discriminate; try (intros; discriminate); try (intros; reflexivity); discriminate (H eq_refl). }
  assert (F : file_only_rule o = Ok tt <-> (o_file_only o = true -> o_format o = Nc /\ o_calc o <> None)).
  { unfold file_only_rule. destruct (o_file_only o); [|split; [intros; discriminate|reflexivity]]. rewrite bind_ok, !raise_if_ok, !negb_false_iff, format_eqb_eq.
    destruct (o_calc o); cbn; split; intros H; [intros _; split; [tauto|discriminate]|split; [tauto|reflexivity]|destruct H; discriminate|]. destruct (H eq_refl) as [_ H']. congruence. }
  rewrite D, C, R, P, G, S', L, F. split.
  - intros [[H1 [[H2 [H3 [H4 H5]]] [H6 [H7 _]]]] [H8 [H9 [H10 [H11 [H12 H13]]]]]]. constructor; assumption.
  - intros [H1 H2 H3 H4 H5 H6 H7 H8 H9 H10 H11 H12 H13]. repeat (split; try assumption).
Qed.

Lemma names_checked : forall size o l c required, Rules size o -> o_calc o = Some l ->
  (forall c', In c' l -> is_expression c' = false) -> NoDup (map c_func l) -> In c l -> c_kind c = Multi required ->
  HasNames o required (c_kwds c).
Proof.
  intros size o l c required R E X N C K. destruct (exists_last_or_nil _ l) as [->|[t [e ->]]]; [destruct C|].
  assert (Xe : is_expression e = false) by (apply X; apply in_or_app; right; left; reflexivity). unfold is_expression in Xe.
  pose proof (r_calc _ _ R t e E) as H. specialize (H ltac:(destruct (c_kind e); congruence) ltac:(destruct (c_kind e); congruence) c C).
  unfold CalcRule in H. rewrite K in H. destruct H as [_ [l1 [c' [l2 [E1 [E2 [E3 H]]]]]]].
  rewrite E1 in N, C. assert (c = c') as ->; [|exact H].
  apply in_app_or in C. destruct C as [C|[C|C]]; [exfalso; exact (E3 c C eq_refl)|auto|].
  rewrite map_app in N. cbn in N. apply NoDup_remove_2 in N. exfalso. apply N. apply in_or_app. right. rewrite E2. apply in_map. exact C.
Qed.

(** ** What a refused assignment leaves *)

Lemma store_error : forall size s o e, store s o = Err e -> fst (assign size s o) = o /\ snd (assign size s o) = Err e.
Proof. intros size s o e E. unfold assign. rewrite E. auto. Qed.

Lemma only_changed : forall size s o p, NotRotated (o_data o) -> (forall v, s = SetData v -> NotRotated v) ->
  store s o = Ok p -> OnlyChanged s o (fst (assign size s o)).
Proof.
  intros size s o p N V E. unfold assign. rewrite E. rewrite validate_keeps.
  - destruct o, s; cbn in E; try (injection E as <-; unfold OnlyChanged; cbn; repeat split; eauto).
    + destruct v; try discriminate. cbn in E. injection E as <-. unfold OnlyChanged; cbn; repeat split; eauto.
    + destruct (parse_destination _ _); [|discriminate]. cbn in E. injection E as <-. unfold OnlyChanged; cbn; repeat split; eauto.
    + destruct (set_slot _ _ _); [|discriminate]. cbn in E. injection E as <-. unfold OnlyChanged; cbn; repeat split; eauto.
  - destruct o, s; cbn in E; try (injection E as <-; cbn; exact N).
    + injection E as <-. cbn. apply V. reflexivity.
    + destruct v; try discriminate. injection E as <-. exact N.
    + destruct (parse_destination _ _); [|discriminate]. injection E as <-. exact N.
    + destruct (set_slot _ _ _); [|discriminate]. injection E as <-. exact N.
Qed.

(** ** Options *)

Lemma parse_options_complete : forall v w, parse_options v = Ok w -> CompleteOptions w.
Proof.
  intros [|s|keys ok] w; try discriminate. unfold parse_options. destruct (existsb _ keys) eqn:E; [discriminate|]. destruct ok; [|discriminate]. cbn [negb].
  intros H. injection H as <-. rewrite existsb_false in E.
  assert (K : forall k, In k keys -> In k option_keys) by (intros k I1; apply E in I1; apply negb_false_iff, mem_str_in in I1; exact I1).
  assert (W : forall k x l, In x (with_key k l) <-> x = k \/ In x l).
  { intros k x l. unfold with_key. destruct (mem_str k l) eqn:M.
    - apply mem_str_in in M. split; [auto|]. intros [->|H]; assumption.
    - rewrite in_app_iff. cbn. split; [intros [H|[H|[]]]; auto|intros [->|H]; auto]. }
  eexists. split; [reflexivity|]. rewrite !W. split; [|auto]. intros k. rewrite !W. intros [->|[->|I1]]; [cbn; auto|cbn; auto|apply K; exact I1].
Qed.

Definition slot_complete (s : slot options_arg) : Prop := exists v, s = Parm v /\ CompleteOptions v.

Lemma validate_options : forall size o, o_options (fst (validate size o)) = o_options o.
Proof. intros size o. unfold validate. destruct (rules_before size o); [|reflexivity]. cbn. unfold replace_crs. destruct (_ && _); reflexivity. Qed.

Lemma assign_options : forall size s o, DictAssigned s -> slot_complete (o_options o) -> slot_complete (o_options (fst (assign size s o))).
Proof.
  intros size s o D C. unfold assign. destruct (store s o) as [p|e] eqn:E; [|exact C]. rewrite validate_options. cbn [o_options update_dependents].
  destruct o, s; cbn in *; try (injection E as <-; exact C).
  - destruct v; try discriminate. injection E as <-. exact C.
  - destruct (parse_destination _ _); [|discriminate]. injection E as <-. exact C.
  - destruct C as [v0 [-> C]]. destruct (set_slot _ _ _) as [sl|] eqn:S'; [|discriminate]. injection E as <-. cbn. unfold set_slot in S'.
    destruct (parse_options v) as [w|e] eqn:P.
    + injection S' as <-. exists w. split; [reflexivity|]. apply (parse_options_complete _ _ P).
    + destruct v; try contradiction. unfold parse_options in P. destruct (existsb _ _); [injection P as <-; discriminate|]. destruct mask_ok; [discriminate|]. injection P as <-. discriminate.
Qed.

Lemma construct_options : forall size a o, construct size a = Ok o -> slot_complete (o_options o).
Proof.
  intros size a o H. unfold construct in H. destruct (create a) as [p|e] eqn:C; [|discriminate]. cbn in H.
  assert (E : o_options o = o_options p).
  { destruct (validate size (update_dependents p)) as [q [[]|e]] eqn:V; [|discriminate]. injection H as <-.
    apply (f_equal (fun x => o_options (fst x))) in V. rewrite validate_options in V. symmetry. exact V. }
  rewrite E. unfold create in C. destruct (format_created _); [|discriminate]. destruct (parse_destination _ _); [|discriminate]. cbn [bind] in C.
  destruct (match a_options a with NoOptions => parse_options default_options | v => parse_options v end) as [w|e] eqn:P; [|discriminate].
  injection C as <-. exists w. split; [reflexivity|]. destruct (a_options a); apply (parse_options_complete _ _ P).
Qed.

Lemma options_kept : forall size a o l, construct size a = Ok o -> Forall DictAssigned l ->
  CompleteOptions (slot_value (o_options (assign_all size l o))).
Proof.
  intros size a o l H F. assert (C : slot_complete (o_options (assign_all size l o))).
  { apply construct_options in H. clear a. revert o H. induction F as [|s l D F IH]; intros o H; [exact H|]. cbn. apply IH. apply assign_options; assumption. }
  destruct C as [v [-> C]]. exact C.
Qed.

Lemma options_refused : forall size a o l keys ok, construct size a = Ok o -> Forall DictAssigned l ->
  ok = false \/ (exists k, In k keys /\ ~ In k ["regrid_method"; "value_mask"; "split"]%string) ->
  assign size (SetOptions (DictOptions keys ok)) (assign_all size l o) = (assign_all size l o, Err DefinitionValidationError).
Proof.
  intros size a o l keys ok H F B. assert (C : slot_complete (o_options (assign_all size l o))).
  { apply construct_options in H. clear a. revert o H. induction F as [|s l D F IH]; intros o H; [exact H|]. cbn. apply IH. apply assign_options; assumption. }
  destruct C as [v [E _]]. unfold assign. assert (P : parse_options (DictOptions keys ok) = Err DefinitionValidationError).
  { unfold parse_options. destruct (existsb _ keys) eqn:X; [reflexivity|]. destruct B as [->|[k [K1 K2]]]; [reflexivity|].
    rewrite existsb_false in X. apply X in K1. apply negb_false_iff, mem_str_in in K1. contradiction. }
  destruct (assign_all size l o). cbn in E. subst. unfold store, set_slot. rewrite P. reflexivity.
Qed.

(** ** The output coordinate system *)

Lemma assign_crs : forall size s o, NotRotated (o_data o) -> (forall v, s = SetData v -> NotRotated v) ->
  o_crs (fst (assign size s o)) = match s with SetCrs v => v | _ => o_crs o end /\ NotRotated (o_data (fst (assign size s o))).
Proof.
  intros size s o N V. unfold assign. destruct (store s o) as [p|e] eqn:E.
  - assert (D : NotRotated (o_data p) /\ o_crs p = match s with SetCrs v => v | _ => o_crs o end).
    { destruct o, s; cbn in *; try (injection E as <-; cbn; auto; fail).
      - destruct v; try discriminate. injection E as <-. cbn. auto.
      - destruct (parse_destination _ _); [|discriminate]. injection E as <-. cbn. auto.
      - destruct (set_slot _ _ _); [|discriminate]. injection E as <-. cbn. auto. }
    destruct D as [D1 D2]. rewrite validate_keeps by exact D1. cbn. auto.
  - cbn. split; [|exact N]. destruct o, s; cbn in *; try reflexivity; discriminate.
Qed.

Lemma crs_history : forall size l o, NotRotated (o_data o) -> NeverRotated l -> o_crs (assign_all size l o) = last_crs l (o_crs o).
Proof.
  intros size l. induction l as [|s l IH]; intros o N V; [reflexivity|]. cbn [assign_all fold_left last_crs].
  destruct (assign_crs size s o N) as [A1 A2]; [intros v ->; apply V; left; reflexivity|].
  fold (assign_all size l (fst (assign size s o))). rewrite IH; [|exact A2|intros v I1; apply V; right; exact I1].
  rewrite A1. destruct s; reflexivity.
Qed.

Lemma construct_crs : forall size a o, NotRotated (a_data a) -> construct size a = Ok o -> o_crs o = a_crs a /\ o_data o = a_data a.
Proof.
  intros size a o N H. unfold construct, create in H. destruct (format_created _); [|discriminate]. destruct (parse_destination _ _); [|discriminate]. cbn [bind] in H.
  destruct (match a_options a with NoOptions => parse_options default_options | v => parse_options v end); [|discriminate]. cbn [bind] in H.
  match type of H with context [validate size ?x] => pose proof (validate_keeps size x N) as K end.
  destruct (validate size _) as [q [[]|e]]; [|discriminate]. injection H as <-. cbn [fst] in K. rewrite K. auto.
Qed.

Lemma validate_data : forall size o, o_data (fst (validate size o)) = o_data o /\ o_aggregate (fst (validate size o)) = o_aggregate o /\ o_op (fst (validate size o)) = o_op o.
Proof. intros size o. unfold validate. destruct (rules_before size o); [|auto]. cbn. unfold replace_crs. destruct (_ && _); cbn; auto. Qed.

Lemma validate_rotated : forall size o d k, snd (validate size o) = Ok tt -> In d (o_data o) -> ds_crs d = Some (RotatedPole k) ->
  (o_crs (fst (validate size o)) = None \/ o_crs (fst (validate size o)) = Some Sphere) /\
  (o_aggregate o = true \/ o_op o = Clip -> o_crs (fst (validate size o)) = Some Sphere).
Proof.
  intros size o d k H D C. assert (X : existsb is_rotated (projections o) = true).
  { apply existsb_exists. exists (Some (RotatedPole k)). split; [|reflexivity]. apply projections_in. eauto. }
  unfold validate in *. destruct (rules_before size o) as [[]|e] eqn:B; [|discriminate]. cbn [fst snd] in *.
  unfold rules_before in B. rewrite !bind_ok, !raise_if_ok in B. destruct B as [_ [_ [_ [_ B]]]]. rewrite X in B. cbn in B.
  unfold replace_crs. rewrite X. cbn [andb]. split.
  - destruct (o_aggregate o || is_clip o); [right; reflexivity|]. destruct (o_crs o) as [c|]; [|auto]. apply negb_false_iff, system_eqb_eq in B. subst. auto.
  - intros A'. replace (o_aggregate o || is_clip o) with true; [reflexivity|]. symmetry. apply orb_true_iff. destruct A' as [A'|A']; [auto|]. right. apply is_clip_true. exact A'.
Qed.

Lemma assign_rotated : forall size s o p d k, assign size s o = (p, Ok tt) -> In d (o_data p) -> ds_crs d = Some (RotatedPole k) ->
  (o_crs p = None \/ o_crs p = Some Sphere) /\ (o_aggregate p = true \/ o_op p = Clip -> o_crs p = Some Sphere).
Proof.
  intros size s o p d k H D C. unfold assign in H. destruct (store s o) as [q|e]; [|discriminate].
  destruct (validate_data size (update_dependents q)) as [E1 [E2 E3]]. pose proof (validate_rotated size (update_dependents q) d k) as R.
  rewrite H in *. cbn [fst snd] in *. rewrite E2, E3. apply R; [reflexivity| |exact C]. rewrite <- E1. exact D.
Qed.

(** ** The selection geometries *)

Lemma memZ_in : forall x l, memZ x l = true <-> In x l.
Proof. intros x l. unfold memZ. rewrite existsb_exists. split; [intros [y [Y1 Y2]]; apply Z.eqb_eq in Y2; subst; exact Y1|intros H; exists x; split; [exact H|apply Z.eqb_refl]]. Qed.

Lemma selected_in : forall features w s i, In i (selected features w s) <->
  exists v, In (i, v) features /\ (forall x, w = Some x -> v = x) /\ forall l, s = Some l -> In i l.
Proof.
  intros features w s i. unfold selected. rewrite in_map_iff. split.
  - intros [[j v] [<- F]]. apply filter_In in F. destruct F as [F1 F2]. apply andb_true_iff in F2. destruct F2 as [F2 F3]. exists v. cbn in *.
    split; [exact F1|]. split; [intros x ->; apply Z.eqb_eq; exact F2|intros l ->; apply memZ_in; exact F3].
  - intros [v [F [W S']]]. exists (i, v). split; [reflexivity|]. apply filter_In. split; [exact F|]. apply andb_true_iff. cbn. split.
    + destruct w; [apply Z.eqb_eq; auto|reflexivity].
    + destruct s; [apply memZ_in; auto|reflexivity].
Qed.

Lemma construct_geom : forall size a o, construct size a = Ok o ->
  geom_get (o_geom o) = geom_get (mkgeom (a_select a) (a_agg_selection a) (a_where a) (parse_geom (a_agg_selection a) (a_where a) (a_select a) (a_geom a))).
Proof.
  intros size a o H. unfold construct, create in H. destruct (format_created _); [|discriminate]. destruct (parse_destination _ _); [|discriminate]. cbn [bind] in H.
  destruct (match a_options a with NoOptions => parse_options default_options | v => parse_options v end); [|discriminate]. cbn [bind] in H.
  unfold validate in H. destruct (rules_before size _); [|discriminate]. cbn in H. unfold replace_crs in H.
  destruct (_ && _); cbn [set_crs] in H; destruct (rules_after _); try discriminate; injection H as <-; reflexivity.
Qed.

Lemma geometries_asked : forall size a o, construct size a = Ok o -> PlainSelection a -> AsAsked a (geometries (geom_get (o_geom o))).
Proof.
  intros size a o H P. rewrite (construct_geom _ _ _ H). unfold PlainSelection, AsAsked, Asked in *.
  destruct (a_geom a) as [|ids|ids|fs|fs u w s] eqn:G; cbn [parse_geom geom_get g_value g_select geometries].
  - destruct (a_agg_selection a); [congruence|]. split; [intros g []|intros i []].
  - rewrite P. destruct (a_agg_selection a).
    + intros _. exists ids. split; [reflexivity|]. intros i. split; [intros I1; split; [exact I1|discriminate]|intros [I1 _]; exact I1].
    + split; [intros g I1; apply in_map_iff in I1; destruct I1 as [i [<- I1]]; exists i; split; [reflexivity|split; [exact I1|discriminate]]|].
      intros i [I1 _]. apply in_map_iff. eauto.
  - destruct P as [P1 P2]. rewrite P1, P2.
    split; [intros g I1; apply in_map_iff in I1; destruct I1 as [i [<- I1]]; exists i; split; [reflexivity|split; [exact I1|discriminate]]|].
    intros i [I1 _]. apply in_map_iff. eauto.
  - destruct (a_agg_selection a).
    + intros _. eexists. split; [reflexivity|]. intros i. apply selected_in.
    + split; [intros g I1; apply in_map_iff in I1; destruct I1 as [i [<- I1]]; exists i; split; [reflexivity|apply selected_in; exact I1]|].
      intros i I1. apply in_map_iff. exists i. split; [reflexivity|]. apply selected_in. exact I1.
  - destruct P as [-> [PW PS]].
    assert (X : forall i, In i (selected fs w (a_select a)) <-> exists w0, In (i, w0) fs /\ (forall x, w = Some x -> w0 = x) /\ (forall l, s = Some l -> In i l) /\
        (forall x, a_where a = Some x -> w0 = x) /\ forall l, a_select a = Some l -> In i l).
    { intros i. rewrite selected_in, PW. split; intros [v V]; exists v; destruct V as [V1 [V2 V3]].
      - repeat split; try assumption; try discriminate. intros l E. destruct PS as [->|PS]; [discriminate|]. apply V3. congruence.
      - repeat split; try assumption. apply V3. }
    destruct (a_agg_selection a).
    + intros _. eexists. split; [reflexivity|]. exact X.
    + split; [intros g I1; apply in_map_iff in I1; destruct I1 as [i [<- I1]]; exists i; split; [reflexivity|apply X; exact I1]|].
      intros i I1. apply in_map_iff. exists i. split; [reflexivity|]. apply X. exact I1.
Qed.

(** ** Tiled computation *)

Lemma assign_accepted : forall size s o p, store s o = Ok p -> NotRotated (o_data p) -> Rules size (update_dependents p) ->
  assign size s o = (update_dependents p, Ok tt).
Proof.
  intros size s o p E N R. unfold assign. rewrite E. rewrite (surjective_pairing (validate size _)).
  rewrite validate_keeps by exact N. f_equal. apply rules_ok; [exact N|exact R].
Qed.

Lemma assign_accepted_as : forall size s o p q, store s o = Ok p -> NotRotated (o_data p) -> update_dependents p = q -> Rules size q ->
  assign size s o = (q, Ok tt).
Proof. intros size s o p q E N <- R. apply assign_accepted; assumption. Qed.

Lemma construct_dependents : forall size a o, construct size a = Ok o -> update_dependents o = o.
Proof.
  intros size a o H. unfold construct, create in H. destruct (format_created _); [|discriminate]. destruct (parse_destination _ _); [|discriminate]. cbn [bind] in H.
  destruct (match a_options a with NoOptions => parse_options default_options | v => parse_options v end); [|discriminate]. cbn [bind] in H.
  unfold validate in H. destruct (rules_before size _); [|discriminate]. cbn in H. unfold replace_crs in H.
  destruct (_ && _); cbn [set_crs] in H; destruct (rules_after _); try discriminate; injection H as <-; reflexivity.
Qed.

Section Tiles.
  Variables (size : nat) (o : ops).
  Hypothesis N : NotRotated (o_data o).
  Hypothesis R : Rules size o.
  Hypothesis D : update_dependents o = o.
  Hypothesis F : o_format o = Nc.
  Hypothesis A' : o_aggregate o = false.
  Hypothesis O' : o_file_only o = false.

  Lemma template_accepted : AllAccepted size (template_changes o) o.
  Proof.
    unfold template_changes. destruct (o_calc o) as [l|] eqn:C; cbn [is_some]; [|exact Logic.I]. cbn [AllAccepted].
    assert (E : exists p, store (SetFileOnly true) o = Ok p /\ NotRotated (o_data p) /\ Rules size (update_dependents p)).
    { destruct o as [data op aggregate sample calc grouping raw snippet fmt sel where_ select geom slc fonly crs regrid options]. cbn in *. subst.
      eexists. split; [reflexivity|]. split; [exact N|]. unfold update_dependents in *; cbn in *. injection D as D. rewrite D.
      destruct R as [R1 R2 R3 R4 R5 R6 R7 R8 R9 R10 R11 R12 R13]. constructor; cbn; try assumption.
      - intros _. destruct (R2 eq_refl) as [M1 M2 M3 M4 M5 M6]. constructor; assumption.
      - discriminate.
      - intros _. split; [reflexivity|discriminate]. }
    destruct E as [p [E1 [E2 E3]]]. rewrite (assign_accepted size _ _ p E1 E2 E3). cbn. auto.
  Qed.

  Lemma tile_accepted : AllAccepted size tile_changes o.
  Proof.
    unfold tile_changes. cbn [AllAccepted].
    destruct o as [data op aggregate sample calc grouping raw snippet fmt sel where_ select geom slc fonly crs regrid options]. cbn in * |-. subst.
    destruct R as [R1 R2 R3 R4 R5 R6 R7 R8 R9 R10 R11 R12 R13]. cbn in * |-. destruct (R2 eq_refl) as [M1 M2 M3 M4 M5 M6]. cbn in * |-.
    set (g := mkgeom select (g_union geom) (g_where geom) GNone).
    assert (S1 : assign size (SetGeom NoGeom) (mkops data op false sample calc grouping raw snippet Nc sel where_ select geom slc false crs regrid options)
       = (mkops data op false sample calc grouping raw snippet Nc sel where_ select g slc false crs regrid options, Ok tt)).
    { eapply assign_accepted_as; [reflexivity|exact N|reflexivity|]. constructor; cbn; try assumption; try discriminate.
      - intros _. constructor; cbn; try assumption; try discriminate. intros _ _. lia.
      - reflexivity. }
    assert (S2 : assign size (SetSlice true) (mkops data op false sample calc grouping raw snippet Nc sel where_ select g slc false crs regrid options)
       = (mkops data op false sample calc grouping raw snippet Nc sel where_ select g true false crs regrid options, Ok tt)).
    { eapply assign_accepted_as; [reflexivity|exact N|reflexivity|]. constructor; cbn; try assumption; try discriminate.
      - intros _. constructor; cbn; try assumption; try discriminate. intros _ _. lia.
      - reflexivity. }
    assert (S3 : snd (assign size (SetFormat (Key Ocgis)) (mkops data op false sample calc grouping raw snippet Nc sel where_ select g true false crs regrid options)) = Ok tt).
    { erewrite assign_accepted_as; [reflexivity|reflexivity|exact N|reflexivity|]. constructor; cbn; try assumption; try discriminate; auto; try (intros _ H; congruence). }
    rewrite S1. cbn [fst snd]. rewrite S2. cbn [fst snd]. auto.
  Qed.

  Lemma offset_accepted : AllAccepted size (offset_changes o) o.
  Proof.
    unfold offset_changes.
    assert (X : geom_get (o_geom o) <> GNone -> AllAccepted size [SetFormat (Key Ocgis); SetCalc None; SetAggSelection true; SetSnippet false] o).
    { intros G. cbn [AllAccepted].
      destruct o as [data op aggregate sample calc grouping raw snippet fmt sel where_ select geom slc fonly crs regrid options]. cbn in * |-. subst.
      destruct R as [R1 R2 R3 R4 R5 R6 R7 R8 R9 R10 R11 R12 R13]. cbn in * |-. unfold update_dependents in D. cbn in D. injection D as D'.
      assert (SL : slc = false) by (destruct slc; [destruct (G (R10 eq_refl))|reflexivity]). subst slc.
      assert (S1 : assign size (SetFormat (Key Ocgis)) (mkops data op false sample calc grouping raw snippet Nc sel where_ select geom false false crs regrid options)
         = (mkops data op false sample calc grouping raw snippet Ocgis sel where_ select geom false false crs regrid options, Ok tt)).
      { eapply assign_accepted_as; [reflexivity|exact N|unfold update_dependents; cbn; rewrite D'; reflexivity|].
        constructor; cbn; try assumption; try discriminate; auto; try (intros _ H; congruence). }
      assert (S2 : assign size (SetCalc None) (mkops data op false sample calc grouping raw snippet Ocgis sel where_ select geom false false crs regrid options)
         = (mkops data op false sample None grouping raw snippet Ocgis sel where_ select geom false false crs regrid options, Ok tt)).
      { eapply assign_accepted_as; [reflexivity|exact N|unfold update_dependents; cbn; rewrite D'; reflexivity|].
        constructor; cbn; try assumption; try discriminate; auto; try (intros _ H; congruence); intros H; split; [reflexivity|]; apply R9; exact H. }
      assert (S3 : assign size (SetAggSelection true) (mkops data op false sample None grouping raw snippet Ocgis sel where_ select geom false false crs regrid options)
         = (mkops data op false sample None grouping raw snippet Ocgis true where_ select geom false false crs regrid options, Ok tt)).
      { eapply assign_accepted_as; [reflexivity|exact N|unfold update_dependents; cbn; rewrite D'; reflexivity|].
        constructor; cbn; try assumption; try discriminate; auto; try (intros _ H; congruence); intros H; split; [reflexivity|]; apply R9; exact H. }
      assert (S4 : snd (assign size (SetSnippet false) (mkops data op false sample None grouping raw snippet Ocgis true where_ select geom false false crs regrid options)) = Ok tt).
      { unfold snd; erewrite assign_accepted_as; [reflexivity|reflexivity|exact N|unfold update_dependents; cbn; rewrite D'; reflexivity|].
        constructor; cbn; try assumption; try discriminate; auto; try (intros _ H; congruence). }
      rewrite S1. cbn [fst snd]. rewrite S2. cbn [fst snd]. rewrite S3. cbn [fst snd]. auto. }
    destruct (geom_get (o_geom o)); [exact Logic.I|apply X; discriminate|apply X; discriminate].
  Qed.
End Tiles.
