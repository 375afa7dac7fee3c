(** Proofs for C23, unique seasons. *)
From Verif Require Import Py Lib Spec PicksLib PartitionModel TimeModel TimeSpec TimeProofs CalendarProofs SeasonProofs.
From Coq Require Import Permutation Sorted.

Lemma sorted_unique_gen {A} (R : A -> A -> Prop) : (forall x, ~ R x x) -> (forall x y, R x y -> ~ R y x) ->
  forall a b, StronglySorted R a -> StronglySorted R b -> (forall k, In k a <-> In k b) -> a = b.
Proof.
  intros Hi Ha. induction a as [|x t IH]; intros [|y u] HA HB H.
  - reflexivity.
  - exfalso. apply (proj2 (H y)). left; reflexivity.
  - exfalso. apply (proj1 (H x)). left; reflexivity.
  - inversion HA as [|? ? HAt HAf]; inversion HB as [|? ? HBt HBf]; subst. rewrite Forall_forall in HAf, HBf.
    assert (E : x = y).
    { destruct (proj1 (H x) (or_introl eq_refl)) as [->|Hx]; [reflexivity|]. destruct (proj2 (H y) (or_introl eq_refl)) as [->|Hy]; [reflexivity|].
      exfalso. apply (Ha x y); [apply HAf; exact Hy|apply HBf; exact Hx]. }
    subst y. f_equal. apply IH; [exact HAt|exact HBt|]. intros k. split; intros Hk.
    + destruct (proj1 (H k) (or_intror Hk)) as [->|E]; [exfalso; apply (Hi k), HAf; exact Hk|exact E].
    + destruct (proj2 (H k) (or_intror Hk)) as [->|E]; [exfalso; apply (Hi k), HBf; exact Hk|exact E].
Qed.

(** ** The two halves of a season *)
Definition months12 : list Z := [12; 11; 10; 9; 8; 7; 6; 5; 4; 3; 2; 1].

Lemma in_months12 m : In m months12 <-> 1 <= m <= 12.
Proof. cbn [In months12]. lia. Qed.

Lemma insert_desc_in x l y : In y (insert_desc x l) <-> y = x \/ In y l.
Proof. induction l as [|z t IH]; cbn [insert_desc In]; [intuition congruence|]. destruct (z <=? x); cbn [In]; [intuition congruence|]. rewrite IH. tauto. Qed.

Lemma sort_desc_in l y : In y (sort_desc l) <-> In y l.
Proof. induction l as [|x t IH]; cbn [sort_desc fold_right In]; [tauto|]. fold (sort_desc t). rewrite insert_desc_in, IH. intuition congruence. Qed.

Lemma insert_desc_sorted x l : ~ In x l -> StronglySorted Z.gt l -> StronglySorted Z.gt (insert_desc x l).
Proof.
  induction l as [|z t IH]; intros Hn HS; cbn [insert_desc]; [constructor; [constructor|constructor]|]. inversion HS as [|? ? HSt HSf]; subst.
  rewrite Forall_forall in HSf. destruct (Z.leb_spec z x).
  - constructor; [exact HS|]. apply Forall_forall. intros w [<-|Hw]; [assert (x <> z) by (intros ->; apply Hn; left; reflexivity); lia|].
    specialize (HSf w Hw). assert (x <> z) by (intros ->; apply Hn; left; reflexivity). lia.
  - constructor; [apply IH; [intros Hx; apply Hn; right; exact Hx|exact HSt]|]. apply Forall_forall. intros w Hw. apply insert_desc_in in Hw. destruct Hw as [->|Hw]; [lia|apply HSf; exact Hw].
Qed.

Lemma sort_desc_sorted l : NoDup l -> StronglySorted Z.gt (sort_desc l).
Proof.
  induction 1 as [|x t Hx Hnd IH]; cbn [sort_desc fold_right]; [constructor|]. fold (sort_desc t). apply insert_desc_sorted; [rewrite sort_desc_in; exact Hx|exact IH].
Qed.

Lemma sort_desc_filter s : NoDup s -> (forall m, In m s -> 1 <= m <= 12) -> sort_desc s = bool_select (map (fun m => z_mem m s) months12) months12.
Proof.
  intros Hnd Hr. rewrite bool_select_filter. apply (sorted_unique_gen Z.gt); [intros x; lia|intros x y; lia|apply sort_desc_sorted; exact Hnd| |].
  - apply sorted_filter'. unfold months12. repeat (constructor; [|repeat (constructor; [lia|]); constructor]). constructor.
  - intros m. rewrite sort_desc_in, filter_In, in_months12, z_mem_spec. split; [intros H; split; [apply Hr; exact H|exact H]|tauto].
Qed.

Fixpoint masks (n : nat) : list (list bool) :=
  match n with O => [[]] | S n' => map (cons true) (masks n') ++ map (cons false) (masks n') end.

Lemma in_masks : forall v, In v (masks (List.length v)).
Proof.
  induction v as [|b v IH]; cbn [masks List.length]; [left; reflexivity|]. apply in_or_app.
  destruct b; [left|right]; apply in_map; exact IH.
Qed.

Definition fullb (l : list Z) : bool := forallb (fun j => z_mem j l) months12.
Definition afterb (l : list Z) (m : Z) : bool := negb (fullb l) && forallb (fun j => implb (j <=? m) (z_mem j l)) months12.
Definition goodb (l : list Z) : bool :=
  z_mem 12 l && z_mem 1 l &&
  forallb (fun m => implb (z_mem m l) (forallb (fun j => implb (j <=? m) (z_mem j l)) months12 || forallb (fun j => implb (m <=? j) (z_mem j l)) months12)) months12.
Definition split_check (l : list Z) : bool :=
  implb (goodb l)
    match split_gaps l with
    | [a] => fullb l && forallb (fun x => z_mem x months12) a && forallb (fun m => Bool.eqb (z_mem m a) (z_mem m l)) months12
    | [a; b] =>
      negb (fullb l) && forallb (fun x => z_mem x months12) a && forallb (fun x => z_mem x months12) b &&
      forallb (fun m => Bool.eqb (z_mem m a) (z_mem m l && negb (afterb l m)) && Bool.eqb (z_mem m b) (z_mem m l && afterb l m)) months12
    | _ => false
    end.

Lemma split_check_all : forallb (fun v => split_check (bool_select v months12)) (masks 12) = true.
Proof. vm_compute. reflexivity. Qed.

Lemma z_mem_ext l l' : (forall m, In m l <-> In m l') -> forall m, z_mem m l = z_mem m l'.
Proof. intros H m. apply Bool.eq_iff_eq_true. rewrite !z_mem_spec. apply H. Qed.

Lemma forallb_ext_in {A} (f g : A -> bool) l : (forall x, In x l -> f x = g x) -> forallb f l = forallb g l.
Proof. induction l as [|x t IH]; intros H; cbn [forallb]; [reflexivity|]. rewrite (H x (or_introl eq_refl)), IH; [reflexivity|]. intros y Hy. apply H; right; exact Hy. Qed.

Lemma fullb_ext l l' : (forall m, In m l <-> In m l') -> fullb l = fullb l'.
Proof. intros H. unfold fullb. apply forallb_ext_in. intros x _. apply z_mem_ext; exact H. Qed.

Lemma afterb_ext l l' m : (forall m, In m l <-> In m l') -> afterb l m = afterb l' m.
Proof. intros H. unfold afterb. rewrite (fullb_ext l l' H). f_equal. apply forallb_ext_in. intros x _. rewrite (z_mem_ext l l' H). reflexivity. Qed.

Lemma fullb_spec l : fullb l = true <-> forall j, 1 <= j <= 12 -> In j l.
Proof. unfold fullb. rewrite forallb_forall. split; intros H j Hj; [apply z_mem_spec, H, in_months12; exact Hj|apply z_mem_spec, H, in_months12; exact Hj]. Qed.

Lemma implb_leb a b c : implb (a <=? b) c = true <-> (a <= b -> c = true).
Proof. destruct (Z.leb_spec a b), c; cbn; split; intros; try reflexivity; try lia; auto. Qed.

Lemma fullb_false l : fullb l = false -> exists j, 1 <= j <= 12 /\ ~ In j l.
Proof.
  intros H. unfold fullb in H. apply forallb_false_exists in H. destruct H as [j [Hj E]]. exists j. split; [apply in_months12; exact Hj|].
  intros Hin. apply z_mem_spec in Hin. congruence.
Qed.

Lemma afterb_spec l m : In 12 l -> 1 <= m <= 12 -> (afterb l m = true <-> AfterTurn l m).
Proof.
  intros H12 Hm. unfold afterb, AfterTurn. rewrite Bool.andb_true_iff, Bool.negb_true_iff, forallb_forall. split.
  - intros [H1 H2]. split; [exact H12|]. split; [apply fullb_false; exact H1|]. intros j Hj.
    assert (Hj' : In j months12) by (apply in_months12; lia). specialize (H2 j Hj'). rewrite implb_leb in H2. apply z_mem_spec, H2. lia.
  - intros [_ [[j [Hj Hn]] H2]]. split.
    + destruct (fullb l) eqn:E; [|reflexivity]. exfalso. apply Hn. apply (proj1 (fullb_spec l) E). exact Hj.
    + intros j' Hj'. apply implb_leb. intros Hle. apply z_mem_spec, H2. apply in_months12 in Hj'. lia.
Qed.

Lemma is_interannual_spec s : is_interannual s = true <-> In 12 s /\ In 1 s.
Proof. unfold is_interannual. rewrite Bool.andb_true_iff, !z_mem_spec. tauto. Qed.

Lemma not_after s m : is_interannual s = false -> 1 <= m -> ~ AfterTurn s m.
Proof.
  intros H Hm [H12 [_ Hall]]. assert (is_interannual s = true); [|congruence]. apply is_interannual_spec. split; [exact H12|apply Hall; lia].
Qed.

Lemma not_after_12 s : ~ AfterTurn s 12.
Proof. intros [_ [[j [Hj Hn]] H]]. apply Hn, H, Hj. Qed.

Lemma split_good s : GoodSeason s -> is_interannual s = true ->
  (fullb s = true /\ exists a, split_gaps (sort_desc s) = [a] /\ forall m, In m a <-> In m s) \/
  (fullb s = false /\ exists a b, split_gaps (sort_desc s) = [a; b] /\ (forall m, In m a <-> In m s /\ ~ AfterTurn s m) /\ (forall m, In m b <-> In m s /\ AfterTurn s m)).
Proof.
  intros [_ [Hnd [Hr Hg]]] Hi. apply is_interannual_spec in Hi. destruct Hi as [H12 H1]. specialize (Hg H12 H1).
  pose proof split_check_all as Hc. rewrite forallb_forall in Hc. specialize (Hc (map (fun m => z_mem m s) months12)).
  rewrite <- sort_desc_filter in Hc by assumption. assert (Hin : In (map (fun m => z_mem m s) months12) (masks 12)) by (apply (in_masks (map (fun m => z_mem m s) months12))). specialize (Hc Hin). clear Hin.
  set (l := sort_desc s) in *. assert (Hl : forall m, In m l <-> In m s) by (intros m; apply sort_desc_in). clearbody l.
  unfold split_check in Hc. assert (Hgood : goodb l = true).
  { unfold goodb. rewrite !Bool.andb_true_iff, !z_mem_spec, !Hl. split; [tauto|]. apply forallb_forall. intros m Hm. apply in_months12 in Hm.
    destruct (z_mem m l) eqn:E; [|reflexivity]. cbn [implb]. apply z_mem_spec, Hl, Hg in E. apply Bool.orb_true_iff. destruct E as [E|E]; [left|right]; apply forallb_forall; intros j Hj;
      apply in_months12 in Hj; apply implb_leb; intros Hle; apply z_mem_spec, Hl, E; lia. }
  rewrite Hgood in Hc. cbn [implb] in Hc. rewrite <- (fullb_ext l s Hl).
  destruct (split_gaps l) as [|a [|b [|c r]]]; try discriminate.
  - left. rewrite !Bool.andb_true_iff, !forallb_forall in Hc. destruct Hc as [[Hf Ha] He]. split; [exact Hf|]. exists a. split; [reflexivity|].
    intros m. rewrite <- Hl. split; intros Hm.
    + assert (Hmm : In m months12) by (apply z_mem_spec, Ha; exact Hm). specialize (He m Hmm). apply Bool.eqb_prop in He. apply z_mem_spec. rewrite <- He. apply z_mem_spec; exact Hm.
    + assert (Hmm : In m months12) by (apply in_months12, Hr, Hl; exact Hm). specialize (He m Hmm). apply Bool.eqb_prop in He. apply z_mem_spec. rewrite He. apply z_mem_spec; exact Hm.
  - right. rewrite !Bool.andb_true_iff, !forallb_forall in Hc. destruct Hc as [[[Hf Ha] Hb] He]. apply Bool.negb_true_iff in Hf. split; [exact Hf|]. exists a, b. split; [reflexivity|].
    assert (Haft : forall m, In m months12 -> (afterb l m = true <-> AfterTurn s m)).
    { intros m Hm. rewrite (afterb_ext l s m Hl). apply afterb_spec; [exact H12|apply in_months12; exact Hm]. }
    assert (Hboth : forall m, In m months12 -> z_mem m a = z_mem m l && negb (afterb l m) /\ z_mem m b = z_mem m l && afterb l m).
    { intros m Hm. specialize (He m Hm). rewrite Bool.andb_true_iff in He. destruct He as [E1 E2]. apply Bool.eqb_prop in E1. apply Bool.eqb_prop in E2. tauto. }
    split; intros m; rewrite <- Hl; split.
    + intros Hm. assert (Hmm : In m months12) by (apply z_mem_spec, Ha; exact Hm). destruct (Hboth m Hmm) as [E _]. apply z_mem_spec in Hm. rewrite Hm in E. symmetry in E.
      rewrite Bool.andb_true_iff, Bool.negb_true_iff, z_mem_spec in E. destruct E as [E1 E2]. split; [exact E1|]. rewrite <- (Haft m Hmm). congruence.
    + intros [Hm Hn]. assert (Hmm : In m months12) by (apply in_months12, Hr, Hl; exact Hm). destruct (Hboth m Hmm) as [E _]. apply z_mem_spec. rewrite E.
      rewrite Bool.andb_true_iff, Bool.negb_true_iff, z_mem_spec. split; [exact Hm|]. rewrite <- (Haft m Hmm) in Hn. destruct (afterb l m); congruence.
    + intros Hm. assert (Hmm : In m months12) by (apply z_mem_spec, Hb; exact Hm). destruct (Hboth m Hmm) as [_ E]. apply z_mem_spec in Hm. rewrite Hm in E. symmetry in E.
      rewrite Bool.andb_true_iff, z_mem_spec in E. destruct E as [E1 E2]. split; [exact E1|]. apply (Haft m Hmm); exact E2.
    + intros [Hm Hn]. assert (Hmm : In m months12) by (apply in_months12, Hr, Hl; exact Hm). destruct (Hboth m Hmm) as [_ E]. apply z_mem_spec. rewrite E.
      rewrite Bool.andb_true_iff, z_mem_spec. split; [exact Hm|]. apply (Haft m Hmm); exact Hn.
Qed.

(** ** Candidate regions *)
Definition turnb (s : list Z) : bool := is_interannual s && negb (fullb s).

Lemma turnb_spec s : GoodSeason s -> (turnb s = true <-> HasTurn s).
Proof.
  intros [Hne [Hnd [Hr Hg]]]. unfold turnb, HasTurn. rewrite Bool.andb_true_iff, Bool.negb_true_iff, is_interannual_spec. split.
  - intros [[H12 H1] Hf]. exists 1. split; [exact H1|]. split; [exact H12|]. split; [apply fullb_false; exact Hf|]. intros j Hj. replace j with 1 by lia. exact H1.
  - intros [m [Hm [H12 [[j [Hj Hn]] Hall]]]]. split; [split; [exact H12|apply Hall; specialize (Hr m Hm); lia]|]. destruct (fullb s) eqn:E; [|reflexivity].
    exfalso. apply Hn, (proj1 (fullb_spec s) E), Hj.
Qed.

Definition RegionFor (s : list Z) (y : Z) (r : sregion) : Prop :=
  (exists a, r = [(y, a)] /\ (forall m, In m a <-> In m s) /\ ~ HasTurn s) \/
  (exists a b, r = [(y, a); (y + 1, b)] /\ (forall m, In m a <-> In m s /\ ~ AfterTurn s m) /\ (forall m, In m b <-> In m s /\ AfterTurn s m) /\ HasTurn s).

Definition keepb (stop y : Z) (s : list Z) : bool := negb (turnb s) || (y + 1 <? stop).
Definition labels (seasons : list (list Z)) (start stop : Z) : list (list Z * Z) :=
  flat_map (fun y => map (fun s => (s, y)) (filter (keepb stop y) seasons)) (zrange start stop).

Lemma py_index_zrange a b i : 0 <= i < b - a -> py_index (zrange a b) i = Ok (a + i).
Proof.
  intros Hi. destruct (py_index_nat (zrange a b) i) as [x [E1 E2]]; [rewrite zrange_zlen; lia|]. rewrite E1. rewrite nth_error_zrange in E2 by lia. injection E2 as <-. f_equal. lia.
Qed.
Lemma py_index_zrange_end a b i : 0 <= i -> b - a <= i -> py_index (zrange a b) i = Err IndexError.
Proof.
  intros H0 Hi. unfold py_index. rewrite zrange_zlen. destruct (Z.ltb_spec i 0); [lia|]. destruct (Z.ltb_spec i 0); [lia|]. cbn [orb].
  destruct (Z.leb_spec (Z.max 0 (b - a)) i); [reflexivity|lia].
Qed.

Lemma interannual_region_spec start stop i s : GoodSeason s -> is_interannual s = true -> 0 <= i < stop - start ->
  exists o, interannual_region (zrange start stop) i s false = Ok o /\
    match o with Some r => keepb stop (start + i) s = true /\ RegionFor s (start + i) r | None => keepb stop (start + i) s = false end.
Proof.
  intros Hg Hi Hr. unfold interannual_region, keepb, turnb. rewrite Hi. cbn [andb].
  destruct (split_good s Hg Hi) as [[Hf [a [E Ha]]]|[Hf [a [b [E [Ha Hb]]]]]]; cbv zeta; rewrite E, Hf; cbn [negb orb].
  - change (zrange 0 (zlen [a])) with [0]. cbn [combine fold_res]. rewrite Z.add_0_r, py_index_zrange by lia. cbn [bind app]. eexists. split; [reflexivity|].
    split; [reflexivity|]. left. exists a. split; [reflexivity|]. split; [exact Ha|]. rewrite <- turnb_spec by exact Hg. unfold turnb. rewrite Hf. cbn [negb]. rewrite Bool.andb_false_r. discriminate.
  - change (zrange 0 (zlen [a; b])) with [0; 1]. cbn [combine fold_res]. rewrite Z.add_0_r, py_index_zrange by lia. cbn [bind app].
    destruct (Z.ltb_spec (start + i + 1) stop).
    + rewrite py_index_zrange by lia. cbn [bind app]. eexists. split; [reflexivity|]. split; [reflexivity|]. right. exists a, b. rewrite Z.add_assoc. split; [reflexivity|].
      split; [exact Ha|]. split; [exact Hb|]. apply turnb_spec; [exact Hg|]. unfold turnb. rewrite Hi, Hf. reflexivity.
    + rewrite py_index_zrange_end by lia. cbn [bind]. eexists. split; [reflexivity|]. reflexivity.
Qed.

Lemma plain_region y s : GoodSeason s -> is_interannual s = false -> RegionFor s y [(y, s)].
Proof.
  intros Hg Hi. left. exists s. split; [reflexivity|]. split; [tauto|]. rewrite <- turnb_spec by exact Hg. unfold turnb. rewrite Hi. discriminate.
Qed.

Lemma inner_regions start stop i : 0 <= i < stop - start -> forall seasons, (forall s, In s seasons -> GoodSeason s) ->
  exists l, map_res (fun ic_cg : bool * list Z => let '(ic, cg) := ic_cg in if ic then interannual_region (zrange start stop) i cg false else Ok (Some [(start + i, cg)]))
      (combine (map is_interannual seasons) seasons) = Ok l /\
    Forall2 (fun l r => RegionFor (fst l) (snd l) r) (map (fun s => (s, start + i)) (filter (keepb stop (start + i)) seasons))
      (flat_map (fun o => match o with Some r => [r] | None => [] end) l).
Proof.
  intros Hi. induction seasons as [|s t IH]; intros Hg; [exists []; split; [reflexivity|constructor]|]. destruct IH as [l [E HF]]; [intros u Hu; apply Hg; right; exact Hu|].
  cbn [map combine map_res]. assert (Hgs : GoodSeason s) by (apply Hg; left; reflexivity). destruct (is_interannual s) eqn:Ei.
  - destruct (interannual_region_spec start stop i s Hgs Ei Hi) as [o [Eo Ho]]. rewrite Eo. cbn [bind]. rewrite E. cbn [bind]. eexists. split; [reflexivity|].
    cbn [flat_map filter]. destruct o as [r|].
    + destruct Ho as [Hk Hr]. rewrite Hk. cbn [map app]. constructor; [exact Hr|exact HF].
    + rewrite Ho. exact HF.
  - cbn [bind]. rewrite E. cbn [bind]. eexists. split; [reflexivity|]. cbn [flat_map filter]. unfold keepb at 1. unfold turnb at 1. rewrite Ei. cbn [andb negb orb app map].
    constructor; [apply plain_region; assumption|exact HF].
Qed.

Lemma Forall2_app' {A B} (R : A -> B -> Prop) l1 l2 r1 r2 : Forall2 R l1 r1 -> Forall2 R l2 r2 -> Forall2 R (l1 ++ l2) (r1 ++ r2).
Proof. induction 1; cbn [app]; [tauto|]. intros H2. constructor; [assumption|]. auto. Qed.

Lemma combine_zrange : forall n start, combine (zrange 0 (Z.of_nat n)) (zrange start (start + Z.of_nat n)) = map (fun i => (i, start + i)) (zrange 0 (Z.of_nat n)).
Proof.
  intros n start. assert (H : forall n a start, combine (zrange a (a + Z.of_nat n)) (zrange (start + a) (start + a + Z.of_nat n)) = map (fun i => (i, start + i)) (zrange a (a + Z.of_nat n))).
  { clear. induction n as [|n IH]; intros a start; [rewrite !zrange_nil by lia; reflexivity|]. rewrite (zrange_cons a) by lia. rewrite (zrange_cons (start + a)) by lia.
    cbn [combine map]. f_equal. replace (a + Z.of_nat (S n)) with (a + 1 + Z.of_nat n) by lia. replace (start + a + Z.of_nat (S n)) with (start + (a + 1) + Z.of_nat n) by lia.
    replace (start + a + 1) with (start + (a + 1)) by lia. apply IH. }
  specialize (H n 0 start). cbn [Z.add] in H. rewrite Z.add_0_r in H. exact H.
Qed.

Lemma candidate_spec seasons start stop : start < stop -> (forall s, In s seasons -> GoodSeason s) ->
  (start + 1 < stop \/ forall s, In s seasons -> ~ HasTurn s) ->
  exists regions, candidate_regions seasons (zrange start stop) false = Ok regions /\
    Forall2 (fun l r => RegionFor (fst l) (snd l) r) (labels seasons start stop) regions.
Proof.
  intros Hs Hg Hy. unfold candidate_regions. rewrite zrange_zlen. set (check := if 1 <? Z.max 0 (stop - start) then map is_interannual seasons else [false]).
  destruct (existsb (fun b => b) check) eqn:Ec.
  - assert (E : check = map is_interannual seasons) by (unfold check in *; destruct (1 <? Z.max 0 (stop - start)); [reflexivity|discriminate]). rewrite E. clear Ec E check.
    replace (Z.max 0 (stop - start)) with (Z.of_nat (Z.to_nat (stop - start))) by lia. set (n := Z.to_nat (stop - start)).
    assert (Estop : stop = start + Z.of_nat n) by (unfold n; lia). pose proof (combine_zrange n start) as Ecz. rewrite <- Estop in Ecz. rewrite Ecz.
    assert (Hlab : labels seasons start stop = flat_map (fun i => map (fun s => (s, start + i)) (filter (keepb stop (start + i)) seasons)) (zrange 0 (Z.of_nat n))).
    { unfold labels. replace (zrange start stop) with (map (fun i => start + i) (zrange 0 (Z.of_nat n))); [rewrite !flat_map_concat_map, map_map; reflexivity|].
      rewrite (map_ext _ (fun x => x + start)) by (intros; lia). rewrite map_zrange_shift. f_equal; lia. }
    rewrite Hlab. assert (Hin : forall i, In i (zrange 0 (Z.of_nat n)) -> 0 <= i < stop - start) by (intros i Hi; apply in_zrange in Hi; lia).
    clear Hlab Ecz Hy. set (l := zrange 0 (Z.of_nat n)) in *. clearbody l.
    induction l as [|i t IH]; [exists []; split; [reflexivity|constructor]|]. destruct IH as [regions [E HF]]; [intros j Hj; apply Hin; right; exact Hj|].
    destruct (inner_regions start stop i (Hin i (or_introl eq_refl)) seasons Hg) as [li [Ei HFi]].
    cbn [map map_res]. rewrite Ei. cbn [bind]. match type of E with (do ll <- ?m; _) = _ => destruct m as [ll|] eqn:Em end; cbn [bind] in E |- *; [|discriminate].
    injection E as <-. eexists. split; [reflexivity|]. cbn [concat flat_map]. apply Forall2_app'; assumption.
  - assert (Hall : forall s, In s seasons -> ~ HasTurn s /\ (is_interannual s = false \/ RegionFor s 0 [(0, s)])).
    { intros s Hin. unfold check in Ec. destruct (Z.ltb_spec 1 (Z.max 0 (stop - start))) as [H1|H1].
      - rewrite existsb_false_forall in Ec. assert (E : is_interannual s = false) by (apply Ec; apply in_map; exact Hin). split; [|left; exact E].
        rewrite <- turnb_spec by (apply Hg; exact Hin). unfold turnb. rewrite E. discriminate.
      - destruct Hy as [Hy|Hy]; [lia|]. split; [apply Hy; exact Hin|]. right. left. exists s. split; [reflexivity|]. split; [tauto|apply Hy; exact Hin]. }
    eexists. split; [reflexivity|]. unfold labels. clear -Hall Hg. induction (zrange start stop) as [|y u IH]; cbn [flat_map list_prod map]; [constructor|].
    rewrite map_app. apply Forall2_app'; [|exact IH]. clear IH.
    induction seasons as [|s t IH]; cbn [filter map]; [constructor|]. destruct (Hall s (or_introl eq_refl)) as [Hn _].
    assert (Ek : keepb stop y s = true). { unfold keepb. destruct (turnb s) eqn:Et; [exfalso; apply Hn, turnb_spec; [apply Hg; left; reflexivity|exact Et]|reflexivity]. }
    rewrite Ek. cbn [map fst snd]. constructor.
    + left. exists s. split; [reflexivity|]. split; [tauto|exact Hn].
    + apply IH; [intros s' Hs'; apply Hg; right; exact Hs'|intros s' Hs'; apply Hall; right; exact Hs'].
Qed.

Lemma labels_in seasons start stop s y : (forall s, In s seasons -> GoodSeason s) ->
  (In (s, y) (labels seasons start stop) <-> In s seasons /\ start <= y < stop /\ (HasTurn s -> y + 1 < stop)).
Proof.
  intros Hg. unfold labels. rewrite in_flat_map. split.
  - intros [y' [Hy Hin]]. apply in_map_iff in Hin. destruct Hin as [s' [E Hin]]. injection E as <- <-. apply filter_In in Hin. destruct Hin as [Hin Hk].
    split; [exact Hin|]. split; [apply in_zrange; exact Hy|]. intros Ht. apply turnb_spec in Ht; [|apply Hg; exact Hin]. unfold keepb in Hk. rewrite Ht in Hk. cbn in Hk. lia.
  - intros [Hin [Hy Ht]]. exists y. split; [apply in_zrange; exact Hy|]. apply in_map_iff. exists s. split; [reflexivity|]. apply filter_In. split; [exact Hin|].
    unfold keepb. destruct (turnb s) eqn:E; [|reflexivity]. cbn [negb orb]. apply turnb_spec in E; [|apply Hg; exact Hin]. specialize (Ht E). lia.
Qed.

Lemma labels_nodup seasons start stop : NoDup seasons -> NoDup (labels seasons start stop).
Proof.
  intros Hnd. unfold labels. pose proof (nodup_zrange start stop) as Hz. induction (zrange start stop) as [|y u IH]; cbn [flat_map]; [constructor|].
  inversion Hz as [|? ? Hy Hu]; subst. apply NoDup_app_intro; [|apply IH; exact Hu|].
  - apply FinFun.Injective_map_NoDup; [intros a b E; injection E; tauto|apply NoDup_filter; exact Hnd].
  - intros [s x] H1 H2. apply in_map_iff in H1. destruct H1 as [s' [E _]]. injection E as <- <-. apply in_flat_map in H2. destruct H2 as [y' [Hy' H2]].
    apply in_map_iff in H2. destruct H2 as [s2 [E _]]. injection E as -> ->. apply Hy; exact Hy'.
Qed.

(** ** Removing the regions without data *)
Definition empties {A} (f : A -> bool) (k : nat) (l : list A) : list nat :=
  map fst (filter (fun ir => f (snd ir)) (combine (seq k (List.length l)) l)).

Lemma empties_cons {A} (f : A -> bool) k x l : empties f k (x :: l) = if f x then k :: empties f (S k) l else empties f (S k) l.
Proof. unfold empties. cbn [List.length seq combine filter snd]. destruct (f x); reflexivity. Qed.

Lemma empties_in {A} (f : A -> bool) : forall l k i, In i (empties f k l) <-> (k <= i)%nat /\ exists x, nth_error l (i - k) = Some x /\ f x = true.
Proof.
  induction l as [|x t IH]; intros k i.
  - cbn. split; [tauto|]. intros [_ [x [E _]]]. destruct (i - k)%nat; discriminate.
  - rewrite empties_cons. assert (H : In i (empties f (S k) t) <-> (S k <= i)%nat /\ exists x0, nth_error (x :: t) (i - k) = Some x0 /\ f x0 = true).
    { rewrite IH. split; intros [H1 [z H2]]; (split; [lia|]); exists z; replace (i - k)%nat with (S (i - S k)) in * by lia; exact H2. }
    destruct (f x) eqn:Ex.
    + cbn [In]. rewrite H. split.
      * intros [<-|[H1 H2]]; [split; [lia|]; exists x; rewrite Nat.sub_diag; tauto|]. split; [lia|exact H2].
      * intros [H1 H2]. destruct (Nat.eq_dec k i); [tauto|]. right. split; [lia|exact H2].
    + rewrite H. split; [intros [H1 H2]; split; [lia|exact H2]|]. intros [H1 [z [H2 H3]]]. split; [|exists z; tauto].
      destruct (Nat.eq_dec k i) as [->|]; [|lia]. rewrite Nat.sub_diag in H2. cbn in H2. congruence.
Qed.

Lemma empties_sorted {A} (f : A -> bool) : forall l k, StronglySorted lt (empties f k l).
Proof.
  induction l as [|x t IH]; intros k; [constructor|]. rewrite empties_cons. destruct (f x); [|apply IH]. constructor; [apply IH|]. apply Forall_forall. intros i Hi. apply empties_in in Hi. lia.
Qed.

Lemma empties_none {A} (f : A -> bool) : forall l k, empties f k l = [] -> filter (fun x => negb (f x)) l = l.
Proof.
  induction l as [|x t IH]; intros k H; [reflexivity|]. rewrite empties_cons in H. cbn [filter]. destruct (f x); [discriminate|]. cbn [negb]. f_equal. eapply IH; exact H.
Qed.

Lemma empties_one {A} (f : A -> bool) : forall l k i, empties f k l = [i] -> pop_nth l (i - k) = Ok (filter (fun x => negb (f x)) l).
Proof.
  induction l as [|x t IH]; intros k i H; [discriminate|]. rewrite empties_cons in H. cbn [filter]. destruct (f x) eqn:Ex; cbn [negb].
  - injection H as -> H. rewrite Nat.sub_diag. cbn [pop_nth]. f_equal. symmetry. eapply empties_none; exact H.
  - assert (Hi : (S k <= i)%nat) by (assert (Hin : In i (empties f (S k) t)) by (rewrite H; left; reflexivity); apply empties_in in Hin; lia).
    specialize (IH (S k) i H). replace (i - k)%nat with (S (i - S k)) by lia. cbn [pop_nth]. rewrite IH. reflexivity.
Qed.

Lemma pop_nth_before {A} : forall (l l' : list A) n p, pop_nth l n = Ok l' -> (p < n)%nat -> nth_error l' p = nth_error l p.
Proof.
  induction l as [|x t IH]; intros l' n p H Hp; [destruct n; discriminate|]. destruct n as [|n]; [lia|]. cbn [pop_nth] in H.
  destruct (pop_nth t n) as [t'|] eqn:E; cbn [bind] in H; [|discriminate]. injection H as <-. destruct p as [|p]; [reflexivity|]. cbn [nth_error]. eapply IH; [exact E|lia].
Qed.
Lemma pop_nth_after {A} : forall (l l' : list A) n p, pop_nth l n = Ok l' -> (n < p)%nat -> nth_error l' (p - 1) = nth_error l p.
Proof.
  induction l as [|x t IH]; intros l' n p H Hp; [destruct n; discriminate|]. destruct p as [|p]; [lia|]. replace (S p - 1)%nat with p by lia. destruct n as [|n]; cbn [pop_nth] in H.
  - injection H as <-. reflexivity.
  - destruct (pop_nth t n) as [t'|] eqn:E; cbn [bind] in H; [|discriminate]. injection H as <-. cbn [nth_error]. destruct p as [|p]; [lia|]. cbn [nth_error].
    specialize (IH t' n (S p) E). replace (S p - 1)%nat with p in IH by lia. apply IH. lia.
Qed.
Lemma pops_before {A} : forall idx (l l' : list A) p, (forall i, In i idx -> (p < i)%nat) -> fold_res (fun l xx => pop_nth l xx) idx l = Ok l' -> nth_error l' p = nth_error l p.
Proof.
  induction idx as [|i t IH]; intros l l' p Hi H; cbn [fold_res] in H; [injection H as <-; reflexivity|].
  destruct (pop_nth l i) as [l1|] eqn:E; cbn [bind] in H; [|discriminate]. rewrite (IH l1 l' p); [|intros j Hj; apply Hi; right; exact Hj|exact H].
  eapply pop_nth_before; [exact E|apply Hi; left; reflexivity].
Qed.

Lemma pops_spec {A} (f : A -> bool) (l l' : list A) : fold_res (fun l xx => pop_nth l xx) (empties f 0 l) l = Ok l' ->
  (exists x, In x l' /\ f x = true) \/ ((List.length (empties f 0 l) <= 1)%nat /\ l' = filter (fun x => negb (f x)) l).
Proof.
  intros H. pose proof (empties_sorted f l 0) as HS. pose proof (empties_in f l 0) as HI. destruct (empties f 0 l) as [|i [|j r]] eqn:E.
  - right. cbn [fold_res] in H. injection H as <-. split; [cbn; lia|]. symmetry. eapply empties_none; exact E.
  - right. cbn [fold_res] in H. pose proof (empties_one f l 0 i E) as Ep. rewrite Nat.sub_0_r in Ep. rewrite Ep in H. cbn [bind] in H. injection H as <-. split; [cbn; lia|reflexivity].
  - left. cbn [fold_res] in H. destruct (pop_nth l i) as [l1|] eqn:E1; cbn [bind] in H; [|discriminate].
    inversion HS as [|? ? HS1 HF1]; subst. inversion HS1 as [|? ? HS2 HF2]; subst. rewrite Forall_forall in HF1, HF2.
    assert (Hij : (i < j)%nat) by (apply HF1; left; reflexivity).
    destruct (proj1 (HI j) (or_intror (or_introl eq_refl))) as [_ [x [Hx Hf]]]. rewrite Nat.sub_0_r in Hx.
    exists x. split; [|exact Hf]. apply (nth_error_In _ (j - 1)).
    rewrite (pops_before (j :: r) l1 l' (j - 1)); [rewrite (pop_nth_after l l1 i j E1 Hij); exact Hx| |exact H].
    intros q [<-|Hq]; [lia|]. specialize (HF2 q Hq). lia.
Qed.

Lemma pops_succeed {A} (f : A -> bool) (l : list A) : (List.length (empties f 0 l) <= 1)%nat ->
  fold_res (fun l xx => pop_nth l xx) (empties f 0 l) l = Ok (filter (fun x => negb (f x)) l).
Proof.
  intros H. destruct (empties f 0 l) as [|i [|j r]] eqn:E; cbn [fold_res].
  - f_equal. symmetry. eapply empties_none; exact E.
  - pose proof (empties_one f l 0 i E) as Ep. rewrite Nat.sub_0_r in Ep. rewrite Ep. reflexivity.
  - cbn in H. lia.
Qed.

(** ** Groups of regions *)
Definition InSub (ym : Z * list Z) (d : date) : Prop := dt_year d = fst ym /\ In (dt_month d) (snd ym).

Lemma sub_empty_spec dates ym : sub_empty dates ym = true <-> forall d, In d dates -> ~ InSub ym d.
Proof.
  unfold sub_empty, InSub. rewrite Bool.negb_true_iff, existsb_false_forall. split.
  - intros H d Hd [E1 E2]. specialize (H d Hd). apply z_mem_spec in E2. rewrite E2, E1, Z.eqb_refl in H. discriminate.
  - intros H d Hd. destruct (Z.eqb_spec (dt_year d) (fst ym)) as [E|]; [|reflexivity]. cbn [andb]. destruct (z_mem (dt_month d) (snd ym)) eqn:Em; [|reflexivity].
    exfalso. apply (H d Hd). split; [exact E|apply z_mem_spec; exact Em].
Qed.

Lemma sub_region values ym :
  match get_time_region values (mktvar values None) [(PYear, Some [fst ym]); (PMonth, Some (snd ym))] with
  | Ok (sub, idx) => sub_empty values ym = false /\ (forall d, In d sub <-> In d values /\ InSub ym d) /\
      (forall k, In (Z.of_nat k) idx <-> exists d, nth_error values k = Some d /\ InSub ym d)
  | Err e => sub_empty values ym = true /\ e = EmptySubsetError
  end.
Proof.
  set (region := [(PYear, Some [fst ym]); (PMonth, Some (snd ym))]).
  assert (Hreg : forall d, InRegion region d <-> InSub ym d).
  { intros d. unfold InRegion, InSub, region. split.
    - intros H. split; [destruct (H PYear [fst ym]) as [E|[]]; [left; reflexivity|cbn in E; congruence]|]. apply (H PMonth). right; left; reflexivity.
    - intros [H1 H2] p v [E|[E|[]]]; injection E as <- <-; [left; cbn; congruence|exact H2]. }
  destruct (region_select_values values region) as [sel [E [Hlen Hsel]]]; [exists PYear, [fst ym]; left; reflexivity|].
  unfold get_time_region. rewrite E. cbn [bind tv_value]. destruct (existsb (fun b => b) sel) eqn:Ex; cbn [negb].
  - assert (Hk : forall k, nth_error sel k = Some true <-> exists d, nth_error values k = Some d /\ InSub ym d).
    { intros k. rewrite Hsel. split; intros [d [H1 H2]]; exists d; (split; [exact H1|apply Hreg; exact H2]). }
    split; [|split].
    + apply existsb_exists in Ex. destruct Ex as [b [Hb ->]]. apply In_nth_error in Hb. destruct Hb as [k Hb]. apply Hk in Hb. destruct Hb as [d [H1 H2]].
      destruct (sub_empty values ym) eqn:Es; [|reflexivity]. exfalso. apply (proj1 (sub_empty_spec values ym) Es d); [eapply nth_error_In; exact H1|exact H2].
    + intros d. rewrite bool_select_in. split.
      * intros [k [H1 H2]]. apply Hk in H1. destruct H1 as [d' [H1 H3]]. rewrite H2 in H1. injection H1 as <-. split; [eapply nth_error_In; exact H2|exact H3].
      * intros [H1 H2]. apply In_nth_error in H1. destruct H1 as [k H1]. exists k. split; [apply Hk; exists d; tauto|exact H1].
    + intros k. rewrite bool_select_in, <- Hk. split.
      * intros [j [H1 H2]]. assert (Hj : (j < List.length values)%nat) by (rewrite <- Hlen; apply nth_error_Some; congruence).
        rewrite nth_error_zrange in H2 by (unfold zlen; lia). injection H2 as H2. replace k with j by lia. exact H1.
      * intros H1. exists k. split; [exact H1|]. assert (Hj : (k < List.length values)%nat) by (rewrite <- Hlen; apply nth_error_Some; congruence).
        rewrite nth_error_zrange by (unfold zlen; lia). f_equal.
  - split; [|reflexivity]. apply sub_empty_spec. intros d Hd Hs. apply In_nth_error in Hd. destruct Hd as [k Hk].
    assert (Hs' : nth_error sel k = Some true) by (apply Hsel; exists d; split; [exact Hk|apply Hreg; exact Hs]). apply nth_error_In in Hs'.
    rewrite existsb_false_forall in Ex. specialize (Ex true Hs'). discriminate.
Qed.

Lemma same_months_spec a b : same_months a b = true <-> forall m, In m a <-> In m b.
Proof.
  unfold same_months. rewrite Bool.andb_true_iff, !forallb_forall. split.
  - intros [H1 H2] m. split; intros H; apply z_mem_spec; auto.
  - intros H. split; intros m Hm; apply z_mem_spec, H; exact Hm.
Qed.

Definition SubComplete (dates : list date) (ym : Z * list Z) : Prop := forall m, In m (snd ym) -> exists d, In d dates /\ dt_month d = m /\ InSub ym d.

Lemma region_group_spec values r :
  (existsb (sub_empty values) r = true -> exists e, region_group (mktvar values None) r = Err e) /\
  (existsb (sub_empty values) r = false -> exists o, region_group (mktvar values None) r = Ok o /\
    match o with
    | Some members => (forall ym, In ym r -> SubComplete values ym) /\ List.length members = List.length values /\
        forall k, nth_error members k = Some true <-> exists d ym, nth_error values k = Some d /\ In ym r /\ InSub ym d
    | None => exists ym, In ym r /\ ~ SubComplete values ym
    end).
Proof.
  set (f := fun ym : Z * list Z => do s <- get_time_region values (mktvar values None) [(PYear, Some [fst ym]); (PMonth, Some (snd ym))]; Ok (same_months (map dt_month (fst s)) (snd ym), snd s)).
  assert (Hf : forall ym, match f ym with
     | Ok (b, idx) => sub_empty values ym = false /\ (b = true <-> SubComplete values ym) /\ (forall k, In (Z.of_nat k) idx <-> exists d, nth_error values k = Some d /\ InSub ym d)
     | Err e => sub_empty values ym = true end).
  { intros ym. unfold f. pose proof (sub_region values ym) as H. destruct (get_time_region _ _ _) as [[sub idx]|e]; cbn [bind fst snd]; [|tauto].
    destruct H as [H1 [H2 H3]]. split; [exact H1|]. split; [|exact H3]. rewrite same_months_spec. unfold SubComplete. split.
    - intros H m Hm. apply H, in_map_iff in Hm. destruct Hm as [d [<- Hd]]. apply H2 in Hd. exists d. tauto.
    - intros H m. split.
      + intros Hm. apply in_map_iff in Hm. destruct Hm as [d [<- Hd]]. apply H2 in Hd. destruct Hd as [_ [_ Hd]]. exact Hd.
      + intros Hm. destruct (H m Hm) as [d [Hd [<- Hs]]]. apply in_map, H2. tauto. }
  unfold region_group. cbn [tv_value]. fold f. split.
  - intros Hex. apply existsb_exists in Hex. destruct Hex as [ym [Hin He]]. assert (Herr : exists e, map_res f r = Err e).
    { induction r as [|x t IH]; [destruct Hin|]. cbn [map_res]. pose proof (Hf x) as Hx. destruct (f x) as [[b idx]|e]; cbn [bind]; [|exists e; reflexivity].
      destruct Hin as [->|Hin]; [destruct Hx; congruence|]. destruct (IH Hin) as [e' E]. rewrite E. exists e'. reflexivity. }
    destruct Herr as [e E]. rewrite E. exists e. reflexivity.
  - intros Hne. rewrite existsb_false_forall in Hne. assert (Hok : exists subs, map_res f r = Ok subs).
    { apply map_res_exists. intros ym Hin. specialize (Hne ym Hin). pose proof (Hf ym) as H. destruct (f ym) as [y|e]; [exists y; reflexivity|congruence]. }
    destruct Hok as [subs Es]. rewrite Es. cbn [bind]. apply map_res_ok in Es.
    destruct (forallb fst subs) eqn:Efa.
    + eexists. split; [reflexivity|]. cbn beta iota. rewrite forallb_forall in Efa. split; [|split].
      * intros ym Hin. apply In_nth_error in Hin. destruct Hin as [k Hk]. destruct (proj2 (nth_error_forall2 _ _ _ Es k) ym Hk) as [[b idx] [Hs E]].
        pose proof (Hf ym) as H. rewrite E in H. apply H. apply (Efa (b, idx)). eapply nth_error_In; exact Hs.
      * rewrite map_length, zrange_length. unfold zlen. lia.
      * intros k. rewrite nth_error_map. split.
        -- intros H. destruct (nth_error (zrange 0 (zlen values)) k) as [z|] eqn:Ez; [|discriminate]. cbn [option_map] in H. injection H as H.
           assert (Hk : (k < List.length (zrange 0 (zlen values)))%nat) by (apply nth_error_Some; congruence). rewrite zrange_length in Hk. rewrite nth_error_zrange in Ez by exact Hk. injection Ez as <-.
           apply z_mem_spec, in_flat_map in H. destruct H as [[b idx] [Hin Hidx]]. apply In_nth_error in Hin. destruct Hin as [j Hj].
           destruct (proj1 (nth_error_forall2 _ _ _ Es j) _ Hj) as [ym [Hym E]]. pose proof (Hf ym) as H. rewrite E in H. destruct H as [_ [_ H]]. cbn [snd] in Hidx.
           change (0 + Z.of_nat k) with (Z.of_nat k) in Hidx. apply H in Hidx. destruct Hidx as [d [Hd Hs]]. exists d, ym. split; [exact Hd|]. split; [eapply nth_error_In; exact Hym|exact Hs].
        -- intros [d [ym [Hd [Hin Hs]]]]. assert (Hk : (k < List.length values)%nat) by (apply nth_error_Some; congruence).
           rewrite nth_error_zrange by (unfold zlen; lia). cbn [option_map]. f_equal. apply z_mem_spec, in_flat_map. apply In_nth_error in Hin. destruct Hin as [j Hj].
           destruct (proj2 (nth_error_forall2 _ _ _ Es j) ym Hj) as [[b idx] [Hb E]]. exists (b, idx). split; [eapply nth_error_In; exact Hb|]. cbn [snd].
           pose proof (Hf ym) as H. rewrite E in H. destruct H as [_ [_ H]]. change (0 + Z.of_nat k) with (Z.of_nat k). apply H. exists d. tauto.
    + eexists. split; [reflexivity|]. cbn beta iota. apply forallb_false_exists in Efa. destruct Efa as [[b idx] [Hin E]]. cbn [fst] in E. subst b.
      apply In_nth_error in Hin. destruct Hin as [j Hj]. destruct (proj1 (nth_error_forall2 _ _ _ Es j) _ Hj) as [ym [Hym E]]. exists ym. split; [eapply nth_error_In; exact Hym|].
      pose proof (Hf ym) as H. rewrite E in H. destruct H as [_ [H _]]. intros Hc. apply H in Hc. discriminate.
Qed.

(** ** From regions to seasons *)
Lemma region_for_members s y r d : GoodSeason s -> RegionFor s y r -> ((exists ym, In ym r /\ InSub ym d) <-> InSeasonYear s y d).
Proof.
  intros Hg [[a [-> [Ha Hn]]]|[a [b [-> [Ha [Hb Ht]]]]]]; unfold InSub, InSeasonYear.
  - split.
    + intros [ym [[<-|[]] [H1 H2]]]. cbn [fst snd] in *. apply Ha in H2. split; [exact H2|]. right. split; [|exact H1]. intros Haf. apply Hn. exists (dt_month d). tauto.
    + intros [Hm [[Haf _]|[_ Hy]]]; [exfalso; apply Hn; exists (dt_month d); tauto|]. exists (y, a). split; [left; reflexivity|]. cbn [fst snd]. split; [exact Hy|apply Ha; exact Hm].
  - split.
    + intros [ym [[<-|[<-|[]]] [H1 H2]]]; cbn [fst snd] in *; [apply Ha in H2|apply Hb in H2]; tauto.
    + intros [Hm [[Haf Hy]|[Haf Hy]]].
      * exists (y + 1, b). split; [right; left; reflexivity|]. cbn [fst snd]. split; [exact Hy|apply Hb; tauto].
      * exists (y, a). split; [left; reflexivity|]. cbn [fst snd]. split; [exact Hy|apply Ha; tauto].
Qed.

Lemma after_dec s m : GoodSeason s -> In m s -> AfterTurn s m \/ ~ AfterTurn s m.
Proof.
  intros [_ [_ [Hr _]]] Hm. destruct (z_mem 12 s) eqn:E.
  - apply z_mem_spec in E. rewrite <- (afterb_spec s m E (Hr m Hm)). destruct (afterb s m); [left; reflexivity|right; discriminate].
  - right. intros [H _]. apply z_mem_spec in H. congruence.
Qed.

Lemma region_for_complete dates s y r : GoodSeason s -> RegionFor s y r -> ((forall ym, In ym r -> SubComplete dates ym) <-> CompleteSeason dates s y).
Proof.
  intros Hg Hr. pose proof (fun d => region_for_members s y r d Hg Hr) as Hmem. unfold CompleteSeason, SubComplete. split.
  - intros H m Hm. assert (Hin : exists ym, In ym r /\ In m (snd ym)).
    { destruct Hr as [[a [-> [Ha _]]]|[a [b [-> [Ha [Hb _]]]]]]; [exists (y, a); split; [left; reflexivity|apply Ha; exact Hm]|].
      destruct (after_dec s m Hg Hm); [exists (y + 1, b); split; [right; left; reflexivity|apply Hb; tauto]|exists (y, a); split; [left; reflexivity|apply Ha; tauto]]. }
    destruct Hin as [ym [Hin Hmm]]. destruct (H ym Hin m Hmm) as [d [Hd [E Hs]]]. exists d. split; [exact Hd|]. split; [exact E|]. apply Hmem. exists ym. tauto.
  - intros H ym Hin m Hm. assert (Hms : In m s /\ (forall d, InSeasonYear s y d -> dt_month d = m -> InSub ym d)).
    { destruct Hr as [[a [-> [Ha Hn]]]|[a [b [-> [Ha [Hb Ht]]]]]].
      - destruct Hin as [<-|[]]. cbn [snd] in Hm. apply Ha in Hm. split; [exact Hm|]. intros d [H1 H2] E. split; cbn [fst snd]; [|apply Ha; exact H1].
        destruct H2 as [[H2 _]|[_ H2]]; [exfalso; apply Hn; exists (dt_month d); tauto|exact H2].
      - destruct Hin as [<-|[<-|[]]]; cbn [snd] in Hm; [apply Ha in Hm|apply Hb in Hm]; (split; [tauto|]); intros d [H1 H2] E; subst m; split; cbn [fst snd]; try tauto; [apply Ha|apply Hb]; tauto. }
    destruct Hms as [Hms Hsub]. destruct (H m Hms) as [d [Hd [E Hs]]]. exists d. split; [exact Hd|]. split; [exact E|]. apply Hsub; assumption.
Qed.

Definition HalfEmpty (dates : list date) (s : list Z) (y : Z) : Prop :=
  (forall d, In d dates -> InSeasonYear s y d -> dt_year d <> y) \/ (HasTurn s /\ forall d, In d dates -> InSeasonYear s y d -> dt_year d <> y + 1).

Lemma region_for_empty dates s y r : GoodSeason s -> RegionFor s y r -> (existsb (sub_empty dates) r = true <-> HalfEmpty dates s y).
Proof.
  intros Hg Hr. unfold HalfEmpty. destruct Hr as [[a [-> [Ha Hn]]]|[a [b [-> [Ha [Hb Ht]]]]]]; cbn [existsb]; rewrite Bool.orb_false_r, ?Bool.orb_true_iff, !sub_empty_spec.
  - split.
    + intros H. left. intros d Hd [H1 H2] Hy. apply (H d Hd). split; cbn [fst snd]; [exact Hy|apply Ha; exact H1].
    + intros [H|[H _]]; [|tauto]. intros d Hd [H1 H2]. cbn [fst snd] in *. apply Ha in H2. apply (H d Hd); [|exact H1]. split; [exact H2|]. right. split; [|exact H1].
      intros Haf. apply Hn. exists (dt_month d). tauto.
  - assert (Hdis : y <> y + 1) by lia. split.
    + intros [H|H].
      * left. intros d Hd [H1 H2] Hy. apply (H d Hd). split; cbn [fst snd]; [exact Hy|]. apply Ha. split; [exact H1|]. destruct H2 as [[_ H2]|[H2 _]]; [congruence|exact H2].
      * right. split; [exact Ht|]. intros d Hd [H1 H2] Hy. apply (H d Hd). split; cbn [fst snd]; [exact Hy|]. apply Hb. split; [exact H1|]. destruct H2 as [[H2 _]|[_ H2]]; [exact H2|congruence].
    + intros [H|[_ H]]; [left|right]; intros d Hd [H1 H2]; cbn [fst snd] in *; (apply (H d Hd); [|exact H1]).
      * apply Ha in H2. split; [tauto|]. right. tauto.
      * apply Hb in H2. split; [tauto|]. left. tauto.
Qed.

Lemma consecutive_years dates : dates <> [] -> ConsecutiveYears dates -> exists start stop, start < stop /\ z_unique (map dt_year dates) = zrange start stop /\ (forall y, HasYear dates y <-> start <= y < stop).
Proof.
  intros Hne Hc. set (l := z_unique (map dt_year dates)). assert (Hl : forall y, In y l <-> HasYear dates y).
  { intros y. unfold l, HasYear. rewrite z_unique_in, in_map_iff. split; intros [d H]; exists d; tauto. }
  pose proof (z_unique_sorted (map dt_year dates)) as HS. fold l in HS.
  assert (Hlne : l <> []). { destruct dates as [|d t]; [congruence|]. intros E. apply (in_nil (a := dt_year d)). rewrite <- E. apply Hl. exists d. split; [left; reflexivity|reflexivity]. }
  clearbody l. destruct l as [|a t]; [congruence|]. set (b := last (a :: t) a). assert (Hb : In b (a :: t) /\ forall y, In y (a :: t) -> a <= y <= b).
  { unfold b. clear -HS. assert (H : forall t a, StronglySorted Z.lt (a :: t) -> forall c, In (last (a :: t) c) (a :: t) /\ (forall y, In y (a :: t) -> a <= y <= last (a :: t) c)).
    { clear. induction t as [|x u IH]; intros a HS c; [split; [left; reflexivity|]; intros y [<-|[]]; cbn; lia|].
      inversion HS as [|? ? HS1 HF1]; subst. destruct (IH x HS1 c) as [H1 H2]. change (last (a :: x :: u) c) with (last (x :: u) c). split; [right; exact H1|].
      rewrite Forall_forall in HF1. pose proof (HF1 x (or_introl eq_refl)). intros y [<-|Hy]; [specialize (H2 x (or_introl eq_refl)); lia|specialize (H2 y Hy); lia]. }
    apply H; exact HS. }
  destruct Hb as [Hb1 Hb2]. exists a, (b + 1). assert (Hab : a <= b) by (apply Hb2; left; reflexivity). split; [lia|].
  assert (Hiff : forall y, HasYear dates y <-> a <= y < b + 1).
  { intros y. split; intros H; [apply Hl, Hb2 in H; lia|]. apply (Hc a b y); [apply Hl; left; reflexivity|apply Hl; exact Hb1|lia]. }
  split; [|exact Hiff]. apply (sorted_unique_gen Z.lt); [intros; lia|intros; lia|exact HS| |intros y; rewrite Hl, Hiff, in_zrange; tauto].
  clear. unfold zrange. set (n := Z.to_nat (b + 1 - a)). clearbody n. generalize O. induction n as [|n IH]; intros k; [constructor|]. cbn [seq map]. constructor; [apply IH|].
  apply Forall_forall. intros z Hz. apply in_map_iff in Hz. destruct Hz as [j [<- Hj]]. apply in_seq in Hj. lia.
Qed.

Lemma forall2_filter {A B} (R : A -> B -> Prop) (f : A -> bool) (g : B -> bool) : forall l l', Forall2 R l l' -> (forall x y, R x y -> In x l -> f x = g y) ->
  Forall2 R (filter f l) (filter g l').
Proof.
  induction 1 as [|x y l l' Hxy HF IH]; intros H; cbn [filter]; [constructor|]. rewrite <- (H x y Hxy (or_introl eq_refl)). assert (IH' : Forall2 R (filter f l) (filter g l')) by (apply IH; intros a b Hab Ha; apply H; [exact Hab|right; exact Ha]).
  destruct (f x); [constructor; assumption|exact IH'].
Qed.

Lemma forall2_in_r {A B} (R : A -> B -> Prop) l l' y : Forall2 R l l' -> In y l' -> exists x, In x l /\ R x y.
Proof. intros HF Hin. apply In_nth_error in Hin. destruct Hin as [k Hk]. destruct (proj1 (nth_error_forall2 _ _ _ HF k) y Hk) as [x [Hx Hr]]. exists x. split; [eapply nth_error_In; exact Hx|exact Hr]. Qed.
Lemma forall2_in_l {A B} (R : A -> B -> Prop) l l' x : Forall2 R l l' -> In x l -> exists y, In y l' /\ R x y.
Proof. intros HF Hin. apply In_nth_error in Hin. destruct Hin as [k Hk]. destruct (proj2 (nth_error_forall2 _ _ _ HF k) x Hk) as [y [Hy Hr]]. exists y. split; [eapply nth_error_In; exact Hy|exact Hr]. Qed.

Lemma two_indices {A} (f : A -> bool) l : (List.length (empties f 0 l) > 1)%nat <-> exists i j x y, (i < j)%nat /\ nth_error l i = Some x /\ nth_error l j = Some y /\ f x = true /\ f y = true.
Proof.
  pose proof (empties_in f l 0) as HI. pose proof (empties_sorted f l 0) as HS. split.
  - intros H. destruct (empties f 0 l) as [|i [|j r]]; cbn in H; try lia. inversion HS as [|? ? HS1 HF1]; subst. rewrite Forall_forall in HF1.
    destruct (proj1 (HI i) (or_introl eq_refl)) as [_ [x [Hx Hfx]]]. destruct (proj1 (HI j) (or_intror (or_introl eq_refl))) as [_ [y [Hy Hfy]]]. rewrite Nat.sub_0_r in Hx, Hy.
    exists i, j, x, y. split; [apply HF1; left; reflexivity|tauto].
  - intros [i [j [x [y [Hij [Hx [Hy [Hfx Hfy]]]]]]]]. assert (H1 : In i (empties f 0 l)) by (apply HI; split; [lia|]; rewrite Nat.sub_0_r; exists x; tauto).
    assert (H2 : In j (empties f 0 l)) by (apply HI; split; [lia|]; rewrite Nat.sub_0_r; exists y; tauto).
    destruct (empties f 0 l) as [|a [|b r]]; [destruct H1|destruct H1 as [H1|[]], H2 as [H2|[]]; lia|cbn; lia].
Qed.

Section Unique.
  Variables (values : list date) (seasons : list (list Z)).
  Hypothesis Hne : values <> [].
  Hypothesis Hcons : ConsecutiveYears values.
  Hypothesis Hyears : (exists a b, HasYear values a /\ HasYear values b /\ a <> b) \/ forall s, In s seasons -> ~ HasTurn s.
  Hypothesis Hgood : forall s, In s seasons -> GoodSeason s.
  Hypothesis Hdis : DisjointSeasons seasons.
  Let t := mktvar values None.

  Let halfb (r : sregion) := existsb (sub_empty values) r.

  (** The candidates, with their labels. *)
  Lemma unique_candidates : exists sorted labs regions,
    get_sorted_seasons true seasons = Ok sorted /\ candidate_regions sorted (z_unique (map dt_year values)) false = Ok regions /\
    Forall2 (fun l r => RegionFor (fst l) (snd l) r) labs regions /\ NoDup labs /\
    (forall s y, In (s, y) labs <-> In s seasons /\ HasYear values y /\ (HasTurn s -> HasYear values (y + 1))).
  Proof.
    assert (Hne' : forall s, In s seasons -> s <> []) by (intros s Hs; apply (Hgood s Hs)).
    destruct (sorted_seasons_perm true seasons Hdis Hne') as [sorted [Es HP]]. destruct (consecutive_years values Hne Hcons) as [start [stop [Hss [Ey Hy]]]].
    assert (Hin : forall s, In s sorted <-> In s seasons) by (intros s; split; apply Permutation_in; [symmetry; exact HP|exact HP]).
    assert (Hg' : forall s, In s sorted -> GoodSeason s) by (intros s Hs; apply Hgood, Hin; exact Hs).
    destruct (candidate_spec sorted start stop Hss Hg') as [regions [Er HF]].
    { destruct Hyears as [[a [b [Ha [Hb Hab]]]]|H]; [left; apply Hy in Ha; apply Hy in Hb; lia|right; intros s Hs; apply H, Hin; exact Hs]. }
    exists sorted, (labels sorted start stop), regions. split; [exact Es|]. split; [rewrite Ey; exact Er|]. split; [exact HF|].
    split; [apply labels_nodup; eapply Permutation_NoDup; [exact HP|apply disjoint_nodup; assumption]|].
    intros s y. rewrite labels_in by exact Hg'. rewrite Hin, !Hy. split; intros [H1 [H2 H3]]; (split; [exact H1|]); (split; [exact H2|]); intros Ht; specialize (H3 Ht); lia.
  Qed.

  Lemma complete_label s y : In s seasons -> CompleteSeason values s y -> HasYear values y /\ (HasTurn s -> HasYear values (y + 1)) /\ ~ HalfEmpty values s y.
  Proof.
    intros Hs Hc. pose proof (Hgood s Hs) as Hg. assert (H0 : exists d, In d values /\ dt_year d = y /\ InSeasonYear s y d).
    { destruct (turnb s) eqn:Et.
      - apply turnb_spec in Et; [|exact Hg]. destruct Et as [m [_ [H12 _]]]. destruct (Hc 12 H12) as [d [Hd [Em Hi]]]. exists d. split; [exact Hd|]. split; [|exact Hi].
        destruct Hi as [_ [[Ha _]|[_ Hy]]]; [exfalso; rewrite Em in Ha; apply (not_after_12 s Ha)|exact Hy].
      - assert (Hex : exists m, In m s) by (destruct Hg as [Hsne _]; destruct s as [|m u]; [congruence|exists m; left; reflexivity]). destruct Hex as [m Hm].
        destruct (Hc m Hm) as [d [Hd [Em Hi]]]. exists d. split; [exact Hd|]. split; [|exact Hi]. destruct Hi as [Him [[Ha _]|[_ Hy]]]; [|exact Hy].
        exfalso. assert (Ht : HasTurn s) by (exists (dt_month d); tauto). apply turnb_spec in Ht; [congruence|exact Hg]. }
    assert (H1 : HasTurn s -> exists d, In d values /\ dt_year d = y + 1 /\ InSeasonYear s y d).
    { intros [m [Hm Ha]]. destruct (Hc m Hm) as [d [Hd [Em Hi]]]. exists d. split; [exact Hd|]. split; [|exact Hi]. destruct Hi as [_ [[_ Hy]|[Hn _]]]; [exact Hy|congruence]. }
    split; [destruct H0 as [d H0]; exists d; tauto|]. split; [intros Ht; destruct (H1 Ht) as [d Hd]; exists d; tauto|].
    intros [He|[Ht He]]; [destruct H0 as [d [Hd [Ey Hi]]]; apply (He d Hd Hi Ey)|destruct (H1 Ht) as [d [Hd [Ey Hi]]]; apply (He d Hd Hi Ey)].
  Qed.

  Definition unique_tail (regions : list sregion) : res (list (tgroup unit)) :=
    do groups <- map_res (region_group t) regions;
    map_res (fun members =>
      let sub := bool_select members (tv_value t) in
      do lo <- dates_min sub; do hi <- dates_max sub;
      do r <- py_index sub (zlen sub / 2);
      Ok (mkgroup tt members (lo, hi) r))
      (flat_map (fun o => match o with Some m => [m] | None => [] end) groups).

  Lemma tail_spec : forall labs regions, Forall2 (fun l r => RegionFor (fst l) (snd l) r) labs regions -> (forall l, In l labs -> In (fst l) seasons) ->
    (forall r, In r regions -> halfb r = false) ->
    exists groups labs', unique_tail regions = Ok groups /\ (NoDup labs -> NoDup labs') /\ (forall l, In l labs' <-> In l labs /\ CompleteSeason values (fst l) (snd l)) /\
      Forall2 (fun l g => (forall k, InGroup g k <-> exists d, nth_error values k = Some d /\ InSeasonYear (fst l) (snd l) d) /\ Encloses t g /\ exists k, InGroup g k /\ nth_error values k = Some (g_repr g)) labs' groups.
  Proof.
    intros labs regions HF. induction HF as [|[s y] r labs regions Hr HF IH]; intros Hin He.
    - exists [], []. split; [reflexivity|]. split; [intros _; constructor|]. split; [intros l; cbn; tauto|constructor].
    - destruct IH as [groups [labs' [Eg [Hnd [Hl HFg]]]]]; [intros l Hl; apply Hin; right; exact Hl|intros r' Hr'; apply He; right; exact Hr'|].
      cbn [fst snd] in Hr. pose proof (Hin (s, y) (or_introl eq_refl)) as Hs. cbn [fst] in Hs. pose proof (Hgood s Hs) as Hg.
      destruct (proj2 (region_group_spec values r) (He r (or_introl eq_refl))) as [o [Eo Ho]]. unfold unique_tail in *. cbn [map_res]. fold t in Eo. rewrite Eo. cbn [bind].
      destruct (map_res (region_group t) regions) as [gs|]; cbn [bind] in Eg |- *; [|discriminate].
      assert (Hsub : forall ls, (forall l, In l ls -> In l labs) -> True) by tauto. clear Hsub.
      destruct o as [members|].
      + destruct Ho as [Hc [Hlen Hm]]. apply (region_for_complete values s y r Hg Hr) in Hc. cbn [flat_map app map_res].
        assert (Hm' : forall k, nth_error members k = Some true <-> exists d, nth_error values k = Some d /\ InSeasonYear s y d).
        { intros k. rewrite Hm. split.
          - intros [d [ym [H1 [H2 H3]]]]. exists d. split; [exact H1|]. apply (region_for_members s y r d Hg Hr). exists ym. tauto.
          - intros [d [H1 H2]]. apply (region_for_members s y r d Hg Hr) in H2. destruct H2 as [ym H2]. exists d, ym. tauto. }
        assert (Hsub : exists d, In d (bool_select members values)).
        { assert (Hm0 : exists m, In m s) by (destruct Hg as [Hsne _]; destruct s as [|m u]; [congruence|exists m; left; reflexivity]). destruct Hm0 as [m Hm0].
          destruct (Hc m Hm0) as [d [Hd [_ Hi]]]. apply In_nth_error in Hd. destruct Hd as [k Hk]. exists d. apply bool_select_in. exists k. split; [apply Hm'; exists d; tauto|exact Hk]. }
        cbn [tv_value t]. set (sub := bool_select members values) in *. assert (Hsubin : forall d, In d sub <-> exists k, nth_error members k = Some true /\ nth_error values k = Some d) by (intros d; apply bool_select_in).
        assert (Hsz : 1 <= zlen sub) by (destruct sub; [destruct Hsub as [d []]|rewrite zlen_cons; pose proof (zlen_nonneg sub); lia]).
        destruct (dates_min sub) as [lo|] eqn:E1; [|destruct sub; [destruct Hsub as [d []]|discriminate]]. cbn [bind].
        destruct (dates_max sub) as [hi|] eqn:E2; [|destruct sub; [destruct Hsub as [d []]|discriminate]]. cbn [bind].
        destruct (py_index_nat sub (zlen sub / 2)) as [rep [E3 E4]]; [lia|]. rewrite E3. cbn [bind]. cbn [tv_value t] in Eg. rewrite Eg. cbn [bind].
        eexists _, ((s, y) :: labs'). split; [reflexivity|]. split; [|split].
        * intros H. inversion H as [|? ? H1 H2]; subst. constructor; [rewrite Hl; tauto|apply Hnd; exact H2].
        * intros l. cbn [In]. rewrite Hl. split; [intros [<-|H]; [cbn [fst snd]; tauto|tauto]|tauto].
        * constructor; [|exact HFg]. cbn [fst snd]. unfold InGroup at 1; cbn [g_members]. split; [exact Hm'|]. apply dates_min_spec in E1. apply dates_max_spec in E2. destruct E1 as [M1 M2], E2 as [N1 N2].
          assert (Hlu : forall k b, nth_error (lower_upper t) k = Some b <-> exists d, nth_error values k = Some d /\ b = (d, d)).
          { intros k b. cbn [lower_upper t tv_bounds tv_value]. rewrite nth_error_map. destruct (nth_error values k) as [d|]; cbn [option_map].
            - split; [intros E; injection E as <-; exists d; tauto|]. intros [d' [E ->]]. injection E as <-. reflexivity.
            - split; [discriminate|]. intros [d' [E _]]. discriminate. }
          split.
          -- unfold Encloses, InGroup; cbn [g_members g_bounds fst snd]. split; [|split].
             ++ intros k b Hk Hb. apply Hlu in Hb. destruct Hb as [d [Hd ->]]. cbn [fst snd]. assert (Hds : In d sub) by (apply Hsubin; exists k; tauto). repeat split; first [apply M2|apply N2]; exact Hds.
             ++ apply Hsubin in M1. destruct M1 as [k [H1 H2]]. exists k, (lo, lo). split; [exact H1|]. split; [apply Hlu; exists lo; tauto|left; reflexivity].
             ++ apply Hsubin in N1. destruct N1 as [k [H1 H2]]. exists k, (hi, hi). split; [exact H1|]. split; [apply Hlu; exists hi; tauto|left; reflexivity].
          -- apply nth_error_In, Hsubin in E4. destruct E4 as [k [H1 H2]]. exists k. split; [exact H1|exact H2].
      + cbn [flat_map app]. rewrite Eg. exists groups, labs'. split; [reflexivity|]. split; [|split].
        * intros H. inversion H as [|? ? H1 H2]; subst. apply Hnd; exact H2.
        * intros l. rewrite Hl. cbn [In]. split; [tauto|]. intros [[<-|H] Hc]; [|tauto]. exfalso. cbn [fst snd] in Hc. destruct Ho as [ym [Hy Hn]].
          apply Hn. apply (proj2 (region_for_complete values s y r Hg Hr) Hc). exact Hy.
        * exact HFg.
  Qed.

  Lemma tail_error regions : (exists r, In r regions /\ halfb r = true) -> exists e, unique_tail regions = Err e.
  Proof.
    intros [r [Hin Hr]]. unfold unique_tail. assert (H : exists e, map_res (region_group t) regions = Err e).
    { induction regions as [|x u IH]; [destruct Hin|]. cbn [map_res]. destruct (region_group t x) as [o|e] eqn:Eo; cbn [bind]; [|exists e; reflexivity].
      destruct Hin as [->|Hin]; [destruct (proj1 (region_group_spec values r) Hr) as [e E]; fold t in E; congruence|]. destruct (IH Hin) as [e E]. rewrite E. exists e. reflexivity. }
    destruct H as [e E]. rewrite E. exists e. reflexivity.
  Qed.

  Lemma grouping_unique_unfold sorted regions : get_sorted_seasons true seasons = Ok sorted -> candidate_regions sorted (z_unique (map dt_year values)) false = Ok regions ->
    grouping_unique t seasons = (do regions' <- fold_res (fun l xx => pop_nth l xx) (empties halfb 0 regions) regions; unique_tail regions').
  Proof. intros E1 E2. unfold grouping_unique, get_time_regions. rewrite E1. cbn [bind tv_value t]. rewrite E2. cbn [bind]. reflexivity. Qed.

  Lemma void_iff s y r : In s seasons -> RegionFor s y r -> HasYear values y -> (HasTurn s -> HasYear values (y + 1)) -> (halfb r = true <-> VoidSeason values s y).
  Proof.
    intros Hs Hr H1 H2. unfold halfb. rewrite (region_for_empty values s y r (Hgood s Hs) Hr). unfold VoidSeason, HalfEmpty. tauto.
  Qed.

  Theorem grouping_unique_main : 
    ((exists groups, grouping_unique t seasons = Ok groups) <->
       (forall s1 y1 s2 y2, In s1 seasons -> In s2 seasons -> VoidSeason values s1 y1 -> VoidSeason values s2 y2 -> s1 = s2 /\ y1 = y2)) /\
    (forall groups, grouping_unique t seasons = Ok groups -> exists labs,
       NoDup labs /\ (forall s y, In (s, y) labs <-> In s seasons /\ CompleteSeason values s y) /\
       Forall2 (fun l g => (forall k, InGroup g k <-> exists d, nth_error values k = Some d /\ InSeasonYear (fst l) (snd l) d) /\ Encloses t g /\ exists k, InGroup g k /\ nth_error values k = Some (g_repr g)) labs groups).
  Proof.
    destruct unique_candidates as [sorted [labs [regions [Es [Er [HF [HN HL]]]]]]]. rewrite (grouping_unique_unfold sorted regions Es Er).
    assert (Hvoid : forall l r, RegionFor (fst l) (snd l) r -> In l labs -> (halfb r = true <-> VoidSeason values (fst l) (snd l))).
    { intros [s y] r Hr Hin. apply HL in Hin. cbn [fst snd] in *. apply void_iff; tauto. }
    set (clean := filter (fun x => negb (halfb x)) regions).
    assert (Hclean : exists groups labs', unique_tail clean = Ok groups /\ NoDup labs' /\ (forall s y, In (s, y) labs' <-> In s seasons /\ CompleteSeason values s y) /\
      Forall2 (fun l g => (forall k, InGroup g k <-> exists d, nth_error values k = Some d /\ InSeasonYear (fst l) (snd l) d) /\ Encloses t g /\ exists k, InGroup g k /\ nth_error values k = Some (g_repr g)) labs' groups).
    { assert (Hf : exists f : list Z * Z -> bool, forall l r, RegionFor (fst l) (snd l) r -> In l labs -> f l = negb (halfb r)).
      { assert (Hcl : Forall2 (fun l r => RegionFor (fst l) (snd l) r) labs regions) by exact HF. clear -Hcl HN Hvoid.
        exists (fun l => match find (fun p => if list_eq_dec Z.eq_dec (fst (fst p)) (fst l) then snd (fst p) =? snd l else false) (combine labs regions) with Some p => negb (halfb (snd p)) | None => true end).
        intros [s y] r Hr Hin. destruct (find _ _) as [[[s' y'] r']|] eqn:Efind.
        - apply find_some in Efind. destruct Efind as [Hc E]. cbn [fst snd] in *. destruct (list_eq_dec Z.eq_dec s' s) as [->|]; [|discriminate]. apply Z.eqb_eq in E. subst y'.
          f_equal. apply Bool.eq_iff_eq_true. assert (Hr' : RegionFor s y r').
          { clear -Hc Hcl. induction Hcl as [|l0 r0 ls rs H0 Hcl IH]; [destruct Hc|]. destruct Hc as [E|Hc]; [injection E as -> ->; exact H0|apply IH; exact Hc]. }
          rewrite (Hvoid (s, y) r' Hr' Hin), (Hvoid (s, y) r Hr Hin). reflexivity.
        - exfalso. destruct (forall2_in_l _ _ _ _ Hcl Hin) as [r' [_ _]]. apply In_nth_error in Hin. destruct Hin as [k Hk]. destruct (proj2 (nth_error_forall2 _ _ _ Hcl k) _ Hk) as [r2 [Hr2 _]].
          pose proof (find_none _ _ Efind _ (nth_error_In _ _ (nth_error_combine _ _ _ _ _ Hk Hr2))) as E. cbn [fst snd] in E. destruct (list_eq_dec Z.eq_dec s s); [|congruence]. rewrite Z.eqb_refl in E. discriminate. }
      destruct Hf as [f Hf]. assert (HF' : Forall2 (fun l r => RegionFor (fst l) (snd l) r) (filter f labs) clean) by (apply forall2_filter; [exact HF|intros l r Hlr Hin; apply Hf; assumption]).
      destruct (tail_spec (filter f labs) clean HF') as [groups [labs' [Eg [Hnd [Hl HFg]]]]].
      - intros [s y] Hin. apply filter_In in Hin. destruct Hin as [Hin _]. apply HL in Hin. tauto.
      - intros r Hin. apply filter_In in Hin. destruct Hin as [_ Hn]. apply Bool.negb_true_iff; exact Hn.
      - exists groups, labs'. split; [exact Eg|]. split; [apply Hnd, NoDup_filter; exact HN|]. split; [|exact HFg].
        intros s y. rewrite Hl, filter_In. cbn [fst snd]. split.
        + intros [[Hin _] Hc]. apply HL in Hin. tauto.
        + intros [Hs Hc]. destruct (complete_label s y Hs Hc) as [H1 [H2 H3]]. assert (Hin : In (s, y) labs) by (apply HL; tauto). split; [|exact Hc]. split; [exact Hin|].
          destruct (forall2_in_l _ _ _ _ HF Hin) as [r [_ Hr]]. rewrite (Hf (s, y) r Hr Hin). apply Bool.negb_true_iff. destruct (halfb r) eqn:Eh; [|reflexivity]. exfalso. apply H3.
          apply (region_for_empty values s y r (Hgood s Hs) Hr). exact Eh. }
    assert (Hcount : (List.length (empties halfb 0 regions) <= 1)%nat <-> (forall s1 y1 s2 y2, In s1 seasons -> In s2 seasons -> VoidSeason values s1 y1 -> VoidSeason values s2 y2 -> s1 = s2 /\ y1 = y2)).
    { split.
      - intros Hle s1 y1 s2 y2 Hs1 Hs2 Hv1 Hv2. assert (Hin1 : In (s1, y1) labs) by (apply HL; unfold VoidSeason in Hv1; tauto). assert (Hin2 : In (s2, y2) labs) by (apply HL; unfold VoidSeason in Hv2; tauto).
        assert (Hboth : forall i j l1 l2, nth_error labs i = Some l1 -> nth_error labs j = Some l2 -> VoidSeason values (fst l1) (snd l1) -> VoidSeason values (fst l2) (snd l2) -> ~ (i < j)%nat).
        { intros i j l1 l2 Hi Hj H1 H2 Hij. destruct (proj2 (nth_error_forall2 _ _ _ HF i) _ Hi) as [r1 [Hr1 HR1]]. destruct (proj2 (nth_error_forall2 _ _ _ HF j) _ Hj) as [r2 [Hr2 HR2]].
          assert ((List.length (empties halfb 0 regions) > 1)%nat); [|lia]. apply two_indices. exists i, j, r1, r2. split; [exact Hij|]. split; [exact Hr1|]. split; [exact Hr2|].
          split; [apply (Hvoid l1 r1 HR1); [eapply nth_error_In; exact Hi|exact H1]|apply (Hvoid l2 r2 HR2); [eapply nth_error_In; exact Hj|exact H2]]. }
        apply In_nth_error in Hin1. destruct Hin1 as [i Hi]. apply In_nth_error in Hin2. destruct Hin2 as [j Hj].
        pose proof (Hboth i j _ _ Hi Hj Hv1 Hv2). pose proof (Hboth j i _ _ Hj Hi Hv2 Hv1). assert (i = j) by lia. subst j. rewrite Hi in Hj. injection Hj as -> ->. tauto.
      - intros H. destruct (Nat.leb_spec (List.length (empties halfb 0 regions)) 1) as [|Hgt]; [assumption|]. exfalso. assert (Hgt' : (List.length (empties halfb 0 regions) > 1)%nat) by lia.
        apply two_indices in Hgt'. destruct Hgt' as [i [j [r1 [r2 [Hij [Hr1 [Hr2 [Hh1 Hh2]]]]]]]].
        destruct (proj1 (nth_error_forall2 _ _ _ HF i) _ Hr1) as [[s1 y1] [Hl1 HR1]]. destruct (proj1 (nth_error_forall2 _ _ _ HF j) _ Hr2) as [[s2 y2] [Hl2 HR2]].
        pose proof (nth_error_In _ _ Hl1) as Hin1. pose proof (nth_error_In _ _ Hl2) as Hin2. apply (Hvoid (s1, y1) r1 HR1 Hin1) in Hh1. apply (Hvoid (s2, y2) r2 HR2 Hin2) in Hh2. cbn [fst snd] in *.
        destruct (H s1 y1 s2 y2) as [-> ->]; [apply HL in Hin1; tauto|apply HL in Hin2; tauto|exact Hh1|exact Hh2|].
        assert (i = j) by (apply (proj1 (NoDup_nth_error labs) HN); [apply nth_error_Some; congruence|congruence]). lia. }
    rewrite <- Hcount. split; [split|].
    - intros [groups Hg]. destruct (fold_res _ _ regions) as [regions'|] eqn:Ef; cbn [bind] in Hg; [|discriminate]. destruct (pops_spec halfb regions regions' Ef) as [Hbad|[Hle _]]; [|exact Hle].
      destruct (tail_error regions' Hbad) as [e E]. congruence.
    - intros Hle. rewrite (pops_succeed halfb regions Hle). cbn [bind]. destruct Hclean as [groups [labs' [E _]]]. exists groups. exact E.
    - intros groups Hg. destruct (fold_res _ _ regions) as [regions'|] eqn:Ef; cbn [bind] in Hg; [|discriminate]. destruct (pops_spec halfb regions regions' Ef) as [Hbad|[Hle ->]].
      + destruct (tail_error regions' Hbad) as [e E]. congruence.
      + fold clean in Hg. destruct Hclean as [groups' [labs' [E [H1 [H2 H3]]]]]. rewrite E in Hg. injection Hg as <-. exists labs'. tauto.
  Qed.
End Unique.

(** Deciding whether a step belongs to a season. *)
Definition in_season_yearb (s : list Z) (y : Z) (d : date) : bool :=
  z_mem (dt_month d) s && (dt_year d =? (if z_mem 12 s && afterb s (dt_month d) then y + 1 else y)).
Lemma in_season_yearb_spec s y d : (forall m, In m s -> 1 <= m <= 12) -> (in_season_yearb s y d = true <-> InSeasonYear s y d).
Proof.
  intros Hr. unfold in_season_yearb, InSeasonYear. rewrite Bool.andb_true_iff, z_mem_spec, Z.eqb_eq.
  assert (Ha : In (dt_month d) s -> (z_mem 12 s && afterb s (dt_month d) = true <-> AfterTurn s (dt_month d))).
  { intros Hm. rewrite Bool.andb_true_iff, z_mem_spec. split.
    - intros [H12 H]. apply afterb_spec in H; [exact H|exact H12|apply Hr; exact Hm].
    - intros H. pose proof (proj1 H) as H12. split; [exact H12|]. apply afterb_spec; [exact H12|apply Hr; exact Hm|exact H]. }
  split; intros [Hm H]; specialize (Ha Hm); (split; [exact Hm|]); set (c := z_mem 12 s && afterb s (dt_month d)) in *; destruct c.
  - left. split; [apply Ha; reflexivity|exact H].
  - right. split; [|exact H]. rewrite <- Ha. discriminate.
  - destruct H as [[_ H]|[H _]]; [exact H|exfalso; apply H, Ha; reflexivity].
  - destruct H as [[H _]|[_ H]]; [apply Ha in H; discriminate|exact H].
Qed.

Lemma in_season_year_of s y d : (forall m, In m s -> 1 <= m <= 12) -> InSeasonYear s y d ->
  y = (if z_mem 12 s && afterb s (dt_month d) then dt_year d - 1 else dt_year d).
Proof.
  intros Hr H. apply in_season_yearb_spec in H; [|exact Hr]. unfold in_season_yearb in H. destruct (z_mem 12 s && afterb s (dt_month d)); lia.
Qed.

Lemma goodseason_by_decision s : s <> [] -> forallb (fun m => (1 <=? m) && (m <=? 12)) s = true -> NoDup s -> implb (z_mem 12 s && z_mem 1 s) (goodb s) = true -> GoodSeason s.
Proof.
  intros H1 H2 H3 H4. rewrite forallb_forall in H2. assert (Hr : forall m, In m s -> 1 <= m <= 12) by (intros m Hm; specialize (H2 m Hm); lia).
  split; [exact H1|]. split; [exact H3|]. split; [exact Hr|]. intros H12 H1' m Hm. apply z_mem_spec in H12. apply z_mem_spec in H1'. rewrite H12, H1' in H4. cbn [andb implb] in H4.
  unfold goodb in H4. rewrite H12, H1' in H4. cbn [andb] in H4. rewrite forallb_forall in H4. specialize (H4 m (proj2 (in_months12 m) (Hr m Hm))).
  rewrite (proj2 (z_mem_spec m s) Hm) in H4. cbn [implb] in H4. apply Bool.orb_true_iff in H4. destruct H4 as [H4|H4]; [left|right]; intros j Hj; rewrite forallb_forall in H4.
  - specialize (Hr m Hm). assert (Hj' : In j months12) by (apply in_months12; lia). specialize (H4 j Hj'). rewrite implb_leb in H4. apply z_mem_spec, H4. lia.
  - specialize (Hr m Hm). assert (Hj' : In j months12) by (apply in_months12; lia). specialize (H4 j Hj'). rewrite implb_leb in H4. apply z_mem_spec, H4. lia.
Qed.
