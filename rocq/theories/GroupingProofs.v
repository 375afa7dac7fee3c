(** Proofs for C43: temporal groupings, calculations and time regions. *)
From Coq Require Import QArith Ascii Sorted Permutation.
From Verif Require Import Py Lib Spec PicksLib NdProofs ReorderProofs TimeModel TimeSpec CalcModel OpsModel OpsSpec OpsProofs.
Local Open Scope string_scope.
Local Open Scope Z_scope.

(** A check that succeeds exactly if [P]. *)
Definition Checks (P : Prop) (x : res unit) : Prop := (P /\ x = Ok tt) \/ (~ P /\ x = Err DefinitionValidationError).

Lemma eq_ints a b : py_eq (PInt a) (PInt b) = (a =? b).
Proof. cbn. unfold Qeq_bool. cbn. rewrite !Z.mul_1_r. unfold Zeq_bool. rewrite Z.eqb_compare. destruct (a ?= b); reflexivity. Qed.

Lemma eq_item f g : py_eq (PStr f) (item_value g) = true <-> g = GText f.
Proof.
  destruct g as [s|ms]; cbn; [|split; discriminate]. split; [intros H; apply String.eqb_eq in H; congruence|].
  intros H. injection H as ->. apply String.eqb_refl.
Qed.
Lemma eq_item' f g : py_eq (item_value g) (PStr f) = true <-> g = GText f.
Proof.
  destruct g as [s|ms]; cbn; [|split; discriminate]. split; [intros H; apply String.eqb_eq in H; congruence|].
  intros H. injection H as ->. apply String.eqb_refl.
Qed.

Definition seasons (l : list grouping_item) : list (list Z) :=
  flat_map (fun g => match g with GText _ => [] | GSeason ms => [ms] end) l.

Lemma in_seasons l ms : In ms (seasons l) <-> In (GSeason ms) l.
Proof.
  unfold seasons. rewrite in_flat_map. split.
  - intros ([s|m] & H & Hm); [destruct Hm|]. destruct Hm as [<-|[]]. exact H.
  - intros H. exists (GSeason ms). split; [exact H|left; reflexivity].
Qed.

(** ** Members of a set of integers *)

Lemma set_ints zs : forall acc, (forall x, In x acc -> exists z, x = PInt z) ->
  (forall x, In x (fold_left set_add (map PInt zs) acc) -> exists z, x = PInt z) /\
  (forall z, In (PInt z) (fold_left set_add (map PInt zs) acc) <-> In (PInt z) acc \/ In z zs).
Proof.
  induction zs as [|a zs IH]; intros acc Hacc; cbn.
  - split; [exact Hacc|intros z; tauto].
  - assert (H : forall x, In x (set_add acc (PInt a)) -> exists z, x = PInt z).
    { intros x. unfold set_add. destruct (existsb _ _); [apply Hacc|]. intros Hx. apply in_app_or in Hx. destruct Hx as [Hx|[<-|[]]]; eauto. }
    destruct (IH _ H) as [H1 H2]. split; [exact H1|]. intros z. rewrite H2.
    assert (E : In (PInt z) (set_add acc (PInt a)) <-> In (PInt z) acc \/ z = a).
    { unfold set_add. destruct (existsb (fun y => py_eq y (PInt a)) acc) eqn:F.
      - apply existsb_exists in F. destruct F as (y & Hy & Ey). destruct (Hacc y Hy) as (w & ->). rewrite eq_ints in Ey.
        apply Z.eqb_eq in Ey. subst w. intuition (subst; auto).
      - rewrite in_app_iff. cbn. intuition congruence. }
    rewrite E. intuition auto.
Qed.

Definition int_set (zs : list Z) : list pv := fold_left set_add (map PInt zs) [].
Lemma py_set_ints zs : py_set (map PInt zs) = Ok (int_set zs).
Proof. unfold py_set. rewrite forallb_hash_ints. reflexivity. Qed.
Lemma int_set_in zs x : In x (int_set zs) <-> exists z, x = PInt z /\ In z zs.
Proof.
  destruct (set_ints zs []) as [H1 H2]; [intros ? []|]. split.
  - intros H. destruct (H1 _ H) as (z & ->). exists z. split; [reflexivity|]. apply H2 in H. destruct H as [[]|H]; exact H.
  - intros (z & -> & Hz). apply H2. right. exact Hz.
Qed.

Lemma int_set_len zs : (zlen (int_set zs) =? zlen (map PInt zs)) = true <-> NoDup zs.
Proof.
  rewrite <- ints_different. destruct (py_set_len _ _ (py_set_ints zs)) as [_ H]. rewrite <- H. apply Z.eqb_eq.
Qed.

Lemma int_sets_meet a b : existsb (fun x => existsb (py_eq x) (int_set b)) (int_set a) = true <-> exists m, In m a /\ In m b.
Proof.
  rewrite existsb_exists. split.
  - intros (x & Hx & Hy). apply existsb_exists in Hy. destruct Hy as (y & Hy & E).
    apply int_set_in in Hx. apply int_set_in in Hy. destruct Hx as (m & -> & Hm), Hy as (n & -> & Hn).
    rewrite eq_ints in E. apply Z.eqb_eq in E. subst n. eauto.
  - intros (m & Ha & Hb). exists (PInt m). split; [apply int_set_in; eauto|]. apply existsb_exists.
    exists (PInt m). split; [apply int_set_in; eauto|]. rewrite eq_ints. apply Z.eqb_refl.
Qed.

Lemma chars_set_strings s : exists os, py_set (map (fun c => PStr (of_chars [c])) (chars s)) = Ok os /\ forall x, In x os -> is_str x = true.
Proof.
  unfold py_set. assert (H : forall l, forallb hashable (map (fun c => PStr (of_chars [c])) l) = true) by (induction l; auto).
  rewrite H. eexists. split; [reflexivity|].
  assert (G : forall l acc, (forall x, In x acc -> is_str x = true) ->
     forall x, In x (fold_left set_add (map (fun c => PStr (of_chars [c])) l) acc) -> is_str x = true).
  { induction l as [|c l IH]; intros acc Ha x; cbn [map fold_left]; [apply Ha|]. apply IH. intros y. unfold set_add.
    destruct (existsb _ _); [apply Ha|]. intros Hy. apply in_app_or in Hy. destruct Hy as [Hy|[<-|[]]]; [apply Ha; exact Hy|reflexivity]. }
  apply G. intros ? [].
Qed.

(** One season against the items after it. *)
Lemma season_against ms rest :
  Checks (forall b m, In (GSeason b) rest -> In m ms -> In m b -> False)
    (do _ <- map_res (fun other =>
                    do oi <- py_iter other;
                    do os <- py_set oi;
                    if existsb (fun x => existsb (py_eq x) os) (int_set ms)
                    then Err DefinitionValidationError else Ok tt) (map item_value rest); Ok tt).
Proof.
  induction rest as [|g rest IH]; cbn [map map_res].
  - left. split; [intros b m []|reflexivity].
  - destruct g as [s|b]; cbn [item_value py_iter bind].
    + destruct (chars_set_strings s) as (os & -> & Hos). cbn [bind].
      replace (existsb (fun x => existsb (py_eq x) os) (int_set ms)) with false.
      * cbn [bind]. destruct (map_res _ (map item_value rest)) as [u|e]; cbn [bind] in *; destruct IH as [[H1 H2]|[H1 H2]].
        -- left. split; [|reflexivity]. intros b m [X|X]; [discriminate|exact (H1 b m X)].
        -- discriminate.
        -- discriminate.
        -- right. split; [|exact H2]. intros X. apply H1. intros b m Hb. apply (X b m). right. exact Hb.
      * symmetry. destruct (existsb _ (int_set ms)) eqn:E; [|reflexivity]. apply existsb_exists in E. destruct E as (x & Hx & Hy).
        apply existsb_exists in Hy. destruct Hy as (y & Hy & Exy). apply int_set_in in Hx. destruct Hx as (z & -> & _).
        specialize (Hos y Hy). destruct y; discriminate.
    + rewrite py_set_ints. cbn [bind]. destruct (existsb (fun x => existsb (py_eq x) (int_set b)) (int_set ms)) eqn:E; cbn [bind].
      * right. split; [|reflexivity]. apply int_sets_meet in E. destruct E as (m & Ha & Hb). intros X. exact (X b m (or_introl eq_refl) Ha Hb).
      * assert (D : forall m, In m ms -> In m b -> False).
        { intros m Ha Hb. assert (X : existsb (fun x => existsb (py_eq x) (int_set b)) (int_set ms) = true) by (apply int_sets_meet; eauto). congruence. }
        destruct (map_res _ (map item_value rest)) as [u|e]; cbn [bind] in *; destruct IH as [[H1 H2]|[H1 H2]]; try discriminate.
        -- left. split; [|reflexivity]. intros c m [X|X]; [injection X as <-; apply D|exact (H1 c m X)].
        -- right. split; [|exact H2]. intros X. apply H1. intros c m Hc. apply (X c m). right. exact Hc.
Qed.

Lemma nodup_app_iff {A} (a b : list A) : NoDup (a ++ b) <-> NoDup a /\ NoDup b /\ forall x, In x a -> In x b -> False.
Proof.
  split.
  - induction a as [|x a IH]; cbn; intros H; [split; [constructor|]; split; [exact H|intros ? []]|].
    inversion H as [|? ? Hn Hr]; subst. destruct (IH Hr) as (H1 & H2 & H3). split; [|split; [exact H2|]].
    + apply NoDup_cons; [intros X; apply Hn; apply in_or_app; left; exact X|exact H1].
    + intros y [<-|Hy] Hb; [apply Hn; apply in_or_app; right; exact Hb|exact (H3 y Hy Hb)].
  - intros (Ha & Hb & Hd). apply NoDup_app_intro; auto.
Qed.

Lemma sets_disjoint_spec l : Checks (NoDup (concat (seasons l))) (sets_disjoint false (map item_value l)).
Proof.
  induction l as [|g l IH]; [left; split; [constructor|reflexivity]|].
  destruct g as [s|ms]; cbn [map sets_disjoint item_value is_str negb andb].
  - exact IH.
  - cbn [py_iter bind]. rewrite py_set_ints. cbn [bind].
    change (concat (seasons (GSeason ms :: l))) with (ms ++ concat (seasons l))%list.
    destruct (zlen (int_set ms) =? zlen (map PInt ms)) eqn:E; cbn [negb].
    + apply int_set_len in E. pose proof (season_against ms l) as S.
      assert (D : (forall b m, In (GSeason b) l -> In m ms -> In m b -> False) <-> forall x, In x ms -> In x (concat (seasons l)) -> False).
      { split.
        - intros H x Hx Hc. apply in_concat in Hc. destruct Hc as (b & Hb & Hxb). apply in_seasons in Hb. exact (H b x Hb Hx Hxb).
        - intros H b m Hb Hm Hmb. apply (H m Hm). apply in_concat. exists b. split; [apply in_seasons; exact Hb|exact Hmb]. }
      unfold Checks in S. rewrite D in S. destruct (map_res _ (map item_value l)) as [u|e]; cbn [bind] in *; destruct S as [[S1 S2]|[S1 S2]]; try discriminate.
      * destruct IH as [[I1 I2]|[I1 I2]].
        -- left. split; [apply nodup_app_iff; auto|exact I2].
        -- right. split; [|exact I2]. rewrite nodup_app_iff. tauto.
      * right. split; [|exact S2]. rewrite nodup_app_iff. tauto.
    + right. split; [|reflexivity]. rewrite nodup_app_iff. intros (H & _). apply int_set_len in H. congruence.
Qed.

(** ** The uniqueness check *)

Definition has_season (l : list grouping_item) : bool := existsb (fun g => match g with GSeason _ => true | _ => false end) l.

Lemma hashable_items l : forallb hashable (map item_value l) = negb (has_season l).
Proof. induction l as [|[s|ms] l IH]; cbn; [reflexivity|exact IH|reflexivity]. Qed.

Lemma different_items l : has_season l = false -> (AllDifferent (map item_value l) <-> NoDup l).
Proof.
  intros Hs.
  assert (T : forall i g, nth_error l i = Some g -> exists s, g = GText s).
  { intros i g H. destruct g as [s|ms]; [eauto|]. exfalso. apply existsb_false_forall with (x := GSeason ms) in Hs; [discriminate|].
    eapply nth_error_In; exact H. }
  assert (E : forall s t, py_eq (PStr s) (PStr t) = false <-> s <> t) by (intros s t; cbn; apply String.eqb_neq).
  split.
  - intros H. apply NoDup_nth_error. intros i j Hi Hij.
    destruct (nth_error l i) as [g|] eqn:Eg; [|apply nth_error_None in Eg; lia]. destruct (T _ _ Eg) as (s & ->).
    destruct (Nat.lt_trichotomy i j) as [L|[L|L]]; [|exact L|]; exfalso.
    + specialize (H i j (PStr s) (PStr s) L). rewrite !nth_error_map, Eg, <- Hij in H. apply (proj1 (E s s) (H eq_refl eq_refl)). reflexivity.
    + specialize (H j i (PStr s) (PStr s) L). rewrite !nth_error_map, Eg, <- Hij in H. apply (proj1 (E s s) (H eq_refl eq_refl)). reflexivity.
  - intros H i j x y Hij Hx Hy. rewrite nth_error_map in Hx, Hy.
    destruct (nth_error l i) as [a|] eqn:Ea; [|discriminate]. destruct (nth_error l j) as [b|] eqn:Eb; [|discriminate].
    injection Hx as <-. injection Hy as <-. destruct (T _ _ Ea) as (s & ->), (T _ _ Eb) as (t & ->). apply E. intros ->.
    assert (i = j); [|lia]. apply (proj1 (NoDup_nth_error l) H); [apply nth_error_Some; congruence|congruence].
Qed.

Definition UniqueItems (l : list grouping_item) : Prop := if has_season l then NoDup (concat (seasons l)) else NoDup l.

Lemma unique_items l : Checks (UniqueItems l) (check_unique false (map item_value l) (map item_value l)).
Proof.
  unfold UniqueItems. destruct (has_season l) eqn:E.
  - unfold check_unique, py_set. rewrite hashable_items, E. cbn [negb]. apply sets_disjoint_spec.
  - destruct (check_unique_hash false (map item_value l)) as [H1 H2]; [rewrite hashable_items, E; reflexivity|].
    rewrite different_items in H1 by exact E.
    destruct (check_unique false _ _) as [[]|e].
    + left. split; [apply H1; reflexivity|reflexivity].
    + right. split; [|apply H2; discriminate]. intros X. apply H1 in X. discriminate.
Qed.

Lemma types_items l : check_types [TStr; TList] (map item_value l) = Ok (map item_value l).
Proof.
  apply map_res_same. split; [reflexivity|]. apply Forall_forall. intros x H. apply in_map_iff in H. destruct H as ([s|ms] & <- & _); reflexivity.
Qed.

(** ** Validation *)

Lemma mem_standard g : pv_mem (item_value g) standard_groups = true <-> IsPart g.
Proof.
  unfold pv_mem, standard_groups. cbn [existsb]. rewrite !orb_true_iff, !eq_item'. unfold IsPart. intuition discriminate.
Qed.
Lemma mem_flags g : pv_mem (item_value g) grouping_flags = true <-> IsFlag g.
Proof. unfold pv_mem, grouping_flags. cbn [existsb]. rewrite !orb_true_iff, !eq_item'. unfold IsFlag. intuition discriminate. Qed.

Lemma month_mem m : pv_mem (PInt m) (map PInt (zrange 1 13)) = true <-> 1 <= m <= 12.
Proof.
  unfold pv_mem. rewrite existsb_exists. split.
  - intros (x & Hx & E). apply in_map_iff in Hx. destruct Hx as (z & <- & Hz). rewrite eq_ints in E. apply in_zrange in Hz. lia.
  - intros H. exists (PInt m). split; [apply in_map; apply in_zrange; lia|]. rewrite eq_ints. apply Z.eqb_refl.
Qed.

Definition Seasonal (l : list grouping_item) : Prop :=
  (forall s, In (GText s) l -> IsFlag (GText s)) /\ (forall ms m, In (GSeason ms) l -> In m ms -> 1 <= m <= 12).

Lemma seasonal_check l : Checks (Seasonal l)
  (do _ <- map_res (fun element =>
              if pv_mem element grouping_flags then Ok tt
              else if is_str element then Err DefinitionValidationError
              else do ms <- py_iter element;
                   if forallb (fun m => pv_mem m (map PInt (zrange 1 13))) ms then Ok tt
                   else Err DefinitionValidationError) (map item_value l); Ok tt).
Proof.
  induction l as [|g l IH]; cbn [map map_res].
  - left. split; [split; [intros ? []|intros ? ? []]|reflexivity].
  - assert (Hstep : forall P, Checks P (if pv_mem (item_value g) grouping_flags then Ok tt
              else if is_str (item_value g) then Err DefinitionValidationError
              else do ms <- py_iter (item_value g);
                   if forallb (fun m => pv_mem m (map PInt (zrange 1 13))) ms then Ok tt
                   else Err DefinitionValidationError) -> (Seasonal (g :: l) <-> P /\ Seasonal l) ->
       Checks (Seasonal (g :: l)) (do _ <- (do y <- (if pv_mem (item_value g) grouping_flags then Ok tt
              else if is_str (item_value g) then Err DefinitionValidationError
              else do ms <- py_iter (item_value g);
                   if forallb (fun m => pv_mem m (map PInt (zrange 1 13))) ms then Ok tt
                   else Err DefinitionValidationError);
          do ys <- map_res (fun element =>
              if pv_mem element grouping_flags then Ok tt
              else if is_str element then Err DefinitionValidationError
              else do ms <- py_iter element;
                   if forallb (fun m => pv_mem m (map PInt (zrange 1 13))) ms then Ok tt
                   else Err DefinitionValidationError) (map item_value l); Ok (y :: ys)); Ok tt)).
    { intros P [[HP ->]|[HP ->]] Hiff; cbn [bind].
      - destruct (map_res _ (map item_value l)) as [u|e]; cbn [bind] in *; destruct IH as [[H1 H2]|[H1 H2]]; try discriminate.
        + left. split; [tauto|reflexivity].
        + right. split; [tauto|exact H2].
      - right. split; [tauto|reflexivity]. }
    destruct g as [s|ms].
    + apply Hstep with (P := IsFlag (GText s)).
      * destruct (pv_mem (item_value (GText s)) grouping_flags) eqn:E.
        -- left. split; [apply mem_flags; exact E|reflexivity].
        -- right. split; [|reflexivity]. intros H. apply mem_flags in H. congruence.
      * unfold Seasonal. split.
        -- intros [H1 H2]. split; [apply H1; left; reflexivity|]. split; intros; [apply H1; right; assumption|eapply H2; [right; eassumption|assumption]].
        -- intros (H0 & H1 & H2). split.
           ++ intros t [X|X]; [injection X as <-; exact H0|apply H1; exact X].
           ++ intros ms m [X|X]; [discriminate|apply H2; exact X].
    + apply Hstep with (P := forall m, In m ms -> 1 <= m <= 12).
      * destruct (pv_mem (item_value (GSeason ms)) grouping_flags) eqn:E; [apply mem_flags in E; destruct E as [E|E]; discriminate|].
        cbn [item_value is_str py_iter bind].
        destruct (forallb (fun m => pv_mem m (map PInt (zrange 1 13))) (map PInt ms)) eqn:F.
        -- left. split; [|reflexivity]. intros m Hm. rewrite forallb_forall in F. apply month_mem. apply F. apply in_map. exact Hm.
        -- right. split; [|reflexivity]. intros H. assert (X : forallb (fun m => pv_mem m (map PInt (zrange 1 13))) (map PInt ms) = true).
           { apply forallb_forall. intros x Hx. apply in_map_iff in Hx. destruct Hx as (m & <- & Hm). apply month_mem, H, Hm. }
           congruence.
      * unfold Seasonal. split.
        -- intros [H1 H2]. split; [intros m Hm; apply (H2 ms m); [left; reflexivity|exact Hm]|].
           split; intros; [apply H1; right; assumption|eapply H2; [right; eassumption|assumption]].
        -- intros (H0 & H1 & H2). split.
           ++ intros t [X|X]; [discriminate|apply H1; exact X].
           ++ intros ms' m [X|X]; [injection X as <-; apply H0|apply H2; exact X].
Qed.

Lemma validate_spec l : Checks (l = [GText "all"] \/ Forall IsPart l \/ Seasonal l) (validate_grouping (map item_value l)).
Proof.
  unfold validate_grouping.
  assert (A : match map item_value l with [x] => py_eq x (PStr "all") | _ => false end = true <-> l = [GText "all"]).
  { destruct l as [|g [|h t]]; cbn [map]; try (split; discriminate). rewrite eq_item'. split; intros H; congruence. }
  destruct (match map item_value l with [x] => _ | _ => _ end) eqn:E.
  { left. split; [left; apply A; reflexivity|reflexivity]. }
  assert (B : forallb (fun x => pv_mem x standard_groups) (map item_value l) = true <-> Forall IsPart l).
  { rewrite forallb_forall, Forall_forall. split.
    - intros H g Hg. apply mem_standard, H, in_map, Hg.
    - intros H x Hx. apply in_map_iff in Hx. destruct Hx as (g & <- & Hg). apply mem_standard, H, Hg. }
  destruct (forallb _ (map item_value l)) eqn:F.
  { left. split; [right; left; apply B; reflexivity|reflexivity]. }
  destruct (seasonal_check l) as [[H1 H2]|[H1 H2]].
  - left. split; [tauto|exact H2].
  - right. split; [|exact H2]. intros [H|[H|H]]; [apply A in H; discriminate|apply B in H; discriminate|exact (H1 H)].
Qed.

(** ** Flags *)

Lemma mem_item f l : pv_mem (PStr f) (map item_value l) = true <-> In (GText f) l.
Proof.
  unfold pv_mem. rewrite existsb_exists. split.
  - intros (x & Hx & E). apply in_map_iff in Hx. destruct Hx as (g & <- & Hg). apply eq_item in E. congruence.
  - intros H. exists (PStr f). split; [apply (in_map item_value _ _ H)|]. apply (eq_item f (GText f)). reflexivity.
Qed.

Lemma remove_item f l1 l2 : ~ In (GText f) l1 ->
  list_remove (PStr f) (map item_value (l1 ++ GText f :: l2)) = map item_value (l1 ++ l2).
Proof.
  induction l1 as [|g l1 IH]; intros H; cbn [app map list_remove].
  - change (item_value (GText f)) with (PStr f). cbn. rewrite String.eqb_refl. reflexivity.
  - destruct (py_eq (item_value g) (PStr f)) eqn:E.
    + apply eq_item' in E. destruct H. left. exact E.
    + f_equal. apply IH. intros X. apply H. right. exact X.
Qed.

Lemma flags_taken l : AtMostOneFlag l ->
  (exists r f, Permutation l (r ++ [GText f]) /\ IsFlag (GText f) /\ (forall g, In g r -> ~ IsFlag g) /\
               take_flags (map item_value l) = (map item_value r, Some (PStr f))) \/
  ((forall g, In g l -> ~ IsFlag g) /\ take_flags (map item_value l) = (map item_value l, None)).
Proof.
  intros H1.
  assert (Hsplit : forall f l1 l2, IsFlag (GText f) -> l = (l1 ++ GText f :: l2)%list -> forall g, In g (l1 ++ l2) -> ~ IsFlag g).
  { intros f l1 l2 Hf -> g Hg Hfl. apply in_app_or in Hg.
    assert (P : nth_error (l1 ++ GText f :: l2) (List.length l1) = Some (GText f)) by (rewrite nth_error_app2, Nat.sub_diag by lia; reflexivity).
    destruct Hg as [Hg|Hg]; apply In_nth_error in Hg; destruct Hg as (i & Hi).
    - assert (L : (i < List.length l1)%nat) by (apply nth_error_Some; congruence).
      specialize (H1 i (List.length l1) g (GText f)). rewrite nth_error_app1 in H1 by exact L. specialize (H1 Hi P Hfl Hf). lia.
    - specialize (H1 (List.length l1 + S i)%nat (List.length l1) g (GText f)).
      rewrite nth_error_app2 in H1 by lia. replace (List.length l1 + S i - List.length l1)%nat with (S i) in H1 by lia.
      specialize (H1 Hi P Hfl Hf). lia. }
  unfold take_flags, grouping_flags. cbn [fold_left].
  destruct (pv_mem (PStr "unique") (map item_value l)) eqn:Eu.
  - apply mem_item in Eu. apply in_split in Eu. destruct Eu as (l1 & l2 & E). left.
    assert (Hf : IsFlag (GText "unique")) by (left; reflexivity). pose proof (Hsplit "unique" l1 l2 Hf E) as Hn.
    exists (l1 ++ l2)%list, "unique". split; [|split; [exact Hf|split; [exact Hn|]]].
    + rewrite E. rewrite <- Permutation_middle. rewrite (Permutation_app_comm (l1 ++ l2)). reflexivity.
    + rewrite E, remove_item by (intros X; apply (Hn _ (in_or_app _ _ _ (or_introl X))); exact Hf).
      destruct (pv_mem (PStr "year") (map item_value (l1 ++ l2))) eqn:Ey; [|reflexivity].
      apply mem_item in Ey. destruct (Hn _ Ey). right. reflexivity.
  - destruct (pv_mem (PStr "year") (map item_value l)) eqn:Ey.
    + apply mem_item in Ey. apply in_split in Ey. destruct Ey as (l1 & l2 & E). left.
      assert (Hf : IsFlag (GText "year")) by (right; reflexivity). pose proof (Hsplit "year" l1 l2 Hf E) as Hn.
      exists (l1 ++ l2)%list, "year". split; [|split; [exact Hf|split; [exact Hn|]]].
      * rewrite E. rewrite <- Permutation_middle. rewrite (Permutation_app_comm (l1 ++ l2)). reflexivity.
      * rewrite E, remove_item by (intros X; apply (Hn _ (in_or_app _ _ _ (or_introl X))); exact Hf). reflexivity.
    + right. split; [|reflexivity]. intros g Hg [-> | ->]; apply mem_item in Hg; congruence.
Qed.

(** ** Good groupings do not depend on the order *)

Lemma seasons_perm l m : Permutation l m -> Permutation (concat (seasons l)) (concat (seasons m)).
Proof.
  induction 1 as [|g l m _ IH|g h l|l m n _ IH1 _ IH2].
  - reflexivity.
  - destruct g as [s|ms]; cbn; [exact IH|]. apply Permutation_app_head. exact IH.
  - destruct g as [s|ms], h as [t|ns]; cbn; try reflexivity. rewrite !app_assoc. apply Permutation_app_tail. apply Permutation_app_comm.
  - etransitivity; eassumption.
Qed.

Lemma good_seasons_alt l : GoodSeasons l <-> Seasonal l /\ NoDup (concat (seasons l)).
Proof.
  unfold GoodSeasons, Seasonal.
  assert (E : ((forall ms, In (GSeason ms) l -> NoDup ms) /\
     (forall i j a b m, i <> j -> nth_error l i = Some (GSeason a) -> nth_error l j = Some (GSeason b) -> In m a -> In m b -> False)) <->
     NoDup (concat (seasons l))).
  { clear. induction l as [|g l IH]; [split; [constructor|]; intros _; split; [intros ? []|intros [|i] j a b m _ H; discriminate]|].
    destruct g as [s|ms].
    - change (concat (seasons (GText s :: l))) with (concat (seasons l)). rewrite <- IH. split; intros [H1 H2]; split.
      + intros ms Hm. apply H1. right. exact Hm.
      + intros i j a b m Hij Ha Hb. apply (H2 (S i) (S j) a b m); [congruence|exact Ha|exact Hb].
      + intros ms [X|X]; [discriminate|apply H1; exact X].
      + intros [|i] [|j] a b m Hij Ha Hb; cbn in Ha, Hb; try discriminate. apply (H2 i j a b m); [congruence|exact Ha|exact Hb].
    - change (concat (seasons (GSeason ms :: l))) with (ms ++ concat (seasons l))%list. rewrite nodup_app_iff, <- IH. split.
      + intros [H1 H2]. split; [apply H1; left; reflexivity|]. split; [split|].
        * intros a Ha. apply H1. right. exact Ha.
        * intros i j a b m Hij Ha Hb. apply (H2 (S i) (S j) a b m); [congruence|exact Ha|exact Hb].
        * intros x Hx Hc. apply in_concat in Hc. destruct Hc as (b & Hb & Hxb). apply in_seasons, In_nth_error in Hb. destruct Hb as (j & Hj).
          apply (H2 0%nat (S j) ms b x); [discriminate|reflexivity|exact Hj|exact Hx|exact Hxb].
      + intros (Hn & [H1 H2] & Hd). split.
        * intros a [X|X]; [injection X as <-; exact Hn|apply H1; exact X].
        * assert (D : forall j b m, nth_error l j = Some (GSeason b) -> In m ms -> In m b -> False).
          { intros j b m Hj Hm Hmb. apply (Hd m Hm). apply in_concat. exists b. split; [|exact Hmb]. apply in_seasons. eapply nth_error_In; exact Hj. }
          intros [|i] [|j] a b m Hij Ha Hb; cbn in Ha, Hb.
          -- congruence.
          -- injection Ha as <-. apply (D j). exact Hb.
          -- injection Hb as <-. intros X Y. exact (D i a m Ha Y X).
          -- apply (H2 i j a b m); [congruence|exact Ha|exact Hb]. }
  rewrite <- E. tauto.
Qed.

Lemma good_perm l m : Permutation l m -> GoodGrouping l -> GoodGrouping m.
Proof.
  intros P [-> |[[H1 H2]|H]].
  - left. apply Permutation_length_1_inv in P. exact P.
  - right. left. split; [eapply Permutation_Forall; eassumption|eapply Permutation_NoDup; eassumption].
  - right. right. rewrite good_seasons_alt in *. destruct H as [[H1 H2] H3]. split; [split|].
    + intros s Hs. apply H1. eapply Permutation_in; [apply Permutation_sym; exact P|exact Hs].
    + intros ms x Hs. apply H2. eapply Permutation_in; [apply Permutation_sym; exact P|exact Hs].
    + eapply Permutation_NoDup; [apply seasons_perm; exact P|exact H3].
Qed.

Lemma no_season_parts l : Forall IsPart l -> has_season l = false.
Proof.
  induction 1 as [|g l Hg _ IH]; [reflexivity|]. unfold has_season in *. cbn [existsb]. rewrite IH, orb_false_r. destruct g as [s|ms]; [reflexivity|]. destruct Hg as [H|[H|H]]; discriminate.
Qed.

Lemma has_season_spec l : has_season l = true <-> exists ms, In (GSeason ms) l.
Proof.
  unfold has_season. rewrite existsb_exists. split.
  - intros ([s|ms] & H & E); [discriminate|eauto].
  - intros (ms & H). exists (GSeason ms). auto.
Qed.

(** The two checks together; [q] are the items without the flag, [r] all of them. *)
Lemma checks_good q fl : (forall g, In g q -> ~ IsFlag g) -> (fl = [] \/ exists f, fl = [GText f] /\ IsFlag (GText f)) ->
  let r := (q ++ fl)%list in
  (UniqueItems q /\ (r = [GText "all"] \/ Forall IsPart r \/ Seasonal r)) <-> GoodGrouping r.
Proof.
  intros Hq Hfl r.
  assert (Hc : concat (seasons r) = concat (seasons q)).
  { unfold r, seasons. rewrite flat_map_app, concat_app. destruct Hfl as [->|(f & -> & _)]; cbn; rewrite app_nil_r; reflexivity. }
  assert (Hnd : NoDup q -> NoDup r).
  { intros H. unfold r. destruct Hfl as [->|(f & -> & Hf)]; [rewrite app_nil_r; exact H|].
    apply NoDup_app_intro; [exact H|apply NoDup_cons; [intros []|apply NoDup_nil]|]. intros x Hx [<-|[]]. exact (Hq _ Hx Hf). }
  assert (Hnd' : NoDup r -> NoDup q) by (unfold r; intros H; apply nodup_app_iff in H; exact (proj1 H)).
  assert (Hs : has_season r = has_season q).
  { unfold r, has_season. rewrite existsb_app. destruct Hfl as [->|(f & -> & _)]; cbn; rewrite orb_false_r; reflexivity. }
  unfold UniqueItems, GoodGrouping. rewrite good_seasons_alt, Hc. split.
  - intros [Hu [H|[H|H]]]; [auto| |].
    + right. left. split; [exact H|]. apply no_season_parts in H. rewrite Hs in H. rewrite H in Hu. auto.
    + right. right. split; [exact H|]. destruct (has_season q) eqn:E; [exact Hu|].
      assert (X : seasons q = []).
      { destruct (seasons q) as [|ms t] eqn:F; [reflexivity|]. assert (In ms (seasons q)) by (rewrite F; left; reflexivity).
        apply in_seasons in H0. assert (has_season q = true) by (apply has_season_spec; eauto). congruence. }
      rewrite X. constructor.
  - intros [H|[[H1 H2]|[H1 H2]]].
    + split; [|left; exact H]. assert (E : q = [GText "all"]).
      { destruct Hfl as [->|(f & -> & Hf)]; [unfold r in H; rewrite app_nil_r in H; exact H|].
        exfalso. destruct q as [|g q]; [injection H as ->; destruct Hf; discriminate|]. destruct q; discriminate. }
      rewrite E. cbn. apply NoDup_cons; [intros []|constructor].
    + split; [|auto]. pose proof (no_season_parts _ H1) as X. rewrite Hs in X. rewrite X. auto.
    + split; [|auto]. destruct (has_season q) eqn:E; [exact H2|].
      assert (X : q = []); [|rewrite X; constructor].
      destruct q as [|[s|ms] t]; [reflexivity| |discriminate]. exfalso.
      apply (Hq (GText s)); [left; reflexivity|]. apply (proj1 H1). left. reflexivity.
Qed.

Lemma finalize_items l : finalize_grouping (map item_value l) = if match l with [GText s] => String.eqb s "all" | _ => false end then PStr "all" else PTuple (map item_value l).
Proof. destruct l as [|[s|ms] [|h t]]; reflexivity. Qed.

Lemma grouping_set v l : Sequence v (map item_value l) -> AtMostOneFlag l ->
  (GoodGrouping l -> exists r, Permutation l r /\
     calc_grouping_set v = Ok (Some (if match l with [GText s] => String.eqb s "all" | _ => false end then PStr "all" else PTuple (map item_value r)))) /\
  (~ GoodGrouping l -> calc_grouping_set v = Err DefinitionValidationError).
Proof.
  intros Hv H1.
  assert (E : forall q fl, (forall g, In g q -> ~ IsFlag g) -> (fl = [] \/ exists f, fl = [GText f] /\ IsFlag (GText f)) ->
     Permutation l (q ++ fl) ->
     take_flags (map item_value l) = (map item_value q, match fl with [] => None | g :: _ => Some (item_value g) end) ->
     (GoodGrouping l -> exists r, Permutation l r /\
     calc_grouping_set v = Ok (Some (if match l with [GText s] => String.eqb s "all" | _ => false end then PStr "all" else PTuple (map item_value r)))) /\
     (~ GoodGrouping l -> calc_grouping_set v = Err DefinitionValidationError)).
  { intros q fl Hq Hfl P T.
    assert (Es : calc_grouping_set v = do _ <- check_unique false (map item_value q) (map item_value q);
                 do _ <- validate_grouping (map item_value (q ++ fl)); Ok (Some (finalize_grouping (map item_value (q ++ fl))))).
    { assert (F : forall x, x = map item_value l ->
        (let '(parse_value, add_back) := take_flags x in
         do _ <- check_unique false parse_value parse_value;
         do ret <- check_types [TStr; TList] parse_value;
         let ret := (ret ++ match add_back with Some f => [f] | None => [] end)%list in
         do _ <- validate_grouping ret; Ok (Some (finalize_grouping ret))) =
        do _ <- check_unique false (map item_value q) (map item_value q);
        do _ <- validate_grouping (map item_value (q ++ fl)); Ok (Some (finalize_grouping (map item_value (q ++ fl))))).
      { intros x ->. rewrite T, types_items. cbn [bind]. cbv zeta. rewrite map_app.
        assert (Em : match match fl with [] => None | g :: _ => Some (item_value g) end with Some f => [f] | None => [] end = map item_value fl).
        { destruct Hfl as [->|(f & -> & _)]; reflexivity. }
        rewrite Em. reflexivity. }
      destruct Hv as [-> | ->]; unfold calc_grouping_set; cbn [sequence_input bind]; apply F; reflexivity. }
    pose proof (checks_good q fl Hq Hfl) as G. cbv zeta in G.
    assert (Eall : l = [GText "all"] <-> (q ++ fl)%list = [GText "all"]).
    { split; intros X; rewrite X in P; [apply Permutation_length_1_inv in P; exact P|].
      apply Permutation_sym, Permutation_length_1_inv in P. exact P. }
    rewrite Es. split.
    - intros Hg. apply (good_perm _ _ P) in Hg. apply G in Hg. destruct Hg as [Hu Hval].
      destruct (unique_items q) as [[_ ->]|[X _]]; [|tauto]. cbn [bind].
      destruct (validate_spec (q ++ fl)) as [[_ ->]|[X _]]; [|tauto]. cbn [bind].
      exists (q ++ fl)%list. split; [exact P|]. rewrite finalize_items. do 2 f_equal.
      assert (Hb : forall m : list grouping_item, match m with [GText s] => String.eqb s "all" | _ => false end = true <-> m = [GText "all"]).
      { intros [|[s|ms] [|h t]]; cbn; try (split; discriminate). rewrite String.eqb_eq. split; intros X; congruence. }
      assert (Ebb : match (q ++ fl)%list with [GText s] => String.eqb s "all" | _ => false end =
                    match l with [GText s] => String.eqb s "all" | _ => false end).
      { apply eq_true_iff_eq. rewrite !Hb. symmetry. exact Eall. }
      rewrite Ebb. reflexivity.
    - intros Hn. destruct (unique_items q) as [[Hu ->]|[_ ->]]; [|reflexivity]. cbn [bind].
      destruct (validate_spec (q ++ fl)) as [[Hval ->]|[_ ->]]; [|reflexivity]. exfalso. apply Hn.
      apply (good_perm (q ++ fl) l); [apply Permutation_sym; exact P|]. apply G. split; assumption. }
  destruct (flags_taken l H1) as [(r & f & P & Hf & Hn & T)|[Hn T]].
  - apply (E r [GText f]); auto. right. eauto.
  - apply (E l []); auto. rewrite app_nil_r. reflexivity.
Qed.

Lemma grouping_value v l : Sequence v (map item_value l) -> AtMostOneFlag l ->
  (GoodGrouping l ->
     (l = [GText "all"] /\ calc_grouping_set v = Ok (Some (PStr "all"))) \/
     (l <> [GText "all"] /\ exists r, Permutation l r /\ calc_grouping_set v = Ok (Some (PTuple (map item_value r))))) /\
  (~ GoodGrouping l -> calc_grouping_set v = Err DefinitionValidationError).
Proof.
  intros Hv H1. destruct (grouping_set v l Hv H1) as [A B]. split; [|exact B]. intros Hg. destruct (A Hg) as (r & P & E).
  assert (Hb : match l with [GText s] => String.eqb s "all" | _ => false end = true <-> l = [GText "all"]).
  { destruct l as [|[s|ms] [|h t]]; cbn; try (split; discriminate). rewrite String.eqb_eq. split; intros X; congruence. }
  destruct (match l with [GText s] => _ | _ => _ end) eqn:F.
  - left. split; [apply Hb; reflexivity|exact E].
  - right. split; [|eauto]. intros X. apply Hb in X. discriminate.
Qed.

(** ** Calculations *)

Lemma has_equals_spec s : has_equals s = true <-> HasEquals s.
Proof.
  unfold has_equals, HasEquals. change (letters s) with (chars s). rewrite existsb_exists. split.
  - intros (c & H & E). apply Ascii.eqb_eq in E. congruence.
  - intros H. exists "="%char. split; [exact H|apply Ascii.eqb_refl].
Qed.

Lemma calc_item_eval k : WellSpelled k -> calc_is_eval (calc_value k) = match k with KFunc _ _ => false | KExpr _ => true end.
Proof.
  destruct k as [f a|s]; cbn [WellSpelled calc_value calc_is_eval]; intros H.
  - cbn. destruct (has_equals f) eqn:E; [apply has_equals_spec in E; tauto|reflexivity].
  - apply has_equals_spec. exact H.
Qed.

Lemma calc_item_parse reg k : WellSpelled k ->
  (Known reg k /\ calc_parse reg (calc_value k) = Ok (item_out k)) \/ (~ Known reg k /\ calc_parse reg (calc_value k) = Err DefinitionValidationError).
Proof.
  intros H. pose proof (calc_item_eval k H) as E. unfold calc_parse. rewrite E. destruct k as [f a|s]; cbn.
  - destruct (reg f) eqn:R; [left; split; reflexivity|right; split; [discriminate|reflexivity]].
  - left. split; [exact I|reflexivity].
Qed.

Lemma calc_parse_all reg l : Forall WellSpelled l ->
  (Forall (Known reg) l /\ map_res (calc_parse reg) (map calc_value l) = Ok (map item_out l)) \/
  (~ Forall (Known reg) l /\ map_res (calc_parse reg) (map calc_value l) = Err DefinitionValidationError).
Proof.
  induction 1 as [|k l Hk _ IH]; [left; split; [constructor|reflexivity]|]. cbn [map map_res].
  destruct (calc_item_parse reg k Hk) as [[K1 ->]|[K1 ->]]; cbn [bind].
  - destruct IH as [[I1 ->]|[I1 ->]]; cbn [bind].
    + left. split; [constructor; assumption|reflexivity].
    + right. split; [|reflexivity]. intros X. inversion X; tauto.
  - right. split; [|reflexivity]. intros X. inversion X; tauto.
Qed.

Definition name_of (k : calc_item) : pv := match k with KFunc _ a => PStr a | KExpr _ => PNone end.
Lemma names_differ l : AllDifferent (map name_of l) <-> NamesDiffer l.
Proof.
  unfold NamesDiffer. induction l as [|k l IH].
  - split; [|intros _ [|i] j x y _ H; discriminate]. intros _. split; [constructor|intros [|i] j s t H; discriminate].
  - assert (E : AllDifferent (map name_of (k :: l)) <-> (forall j h, nth_error l j = Some h -> py_eq (name_of k) (name_of h) = false) /\ AllDifferent (map name_of l)).
    { split.
      - intros H. split.
        + intros j h Hh. apply (H 0%nat (S j)); [lia|reflexivity|]. cbn. rewrite nth_error_map, Hh. reflexivity.
        + intros i j x y Hij Hx Hy. apply (H (S i) (S j)); [lia|exact Hx|exact Hy].
      - intros [H1 H2] [|i] [|j] x y Hij Hx Hy; cbn in Hx, Hy; try lia.
        + injection Hx as <-. rewrite nth_error_map in Hy. destruct (nth_error l j) as [h|] eqn:Eh; [|discriminate]. injection Hy as <-. apply (H1 j). exact Eh.
        + apply (H2 i j); [lia|exact Hx|exact Hy]. }
    rewrite E, IH. destruct k as [f a|s].
    + change (aliases (KFunc f a :: l)) with (a :: aliases l). split.
      * intros (H1 & H2 & H3). split.
        -- apply NoDup_cons; [|exact H2]. intros X. unfold aliases in X. apply in_flat_map in X. destruct X as ([f' a'|t] & Hk & Ha); [|destruct Ha].
           destruct Ha as [->|[]]. apply In_nth_error in Hk. destruct Hk as (j & Hj). specialize (H1 _ _ Hj). cbn in H1. rewrite String.eqb_refl in H1. discriminate.
        -- intros [|i] [|j] s t Hi Hj; cbn in Hi, Hj; try discriminate. f_equal. eapply H3; eassumption.
      * intros [H1 H2]. inversion H1 as [|? ? Hn Hr]; subst. split; [|split; [exact Hr|]].
        -- intros j [f' a'|t] Hj; cbn; [|reflexivity]. apply String.eqb_neq. intros ->. apply Hn. unfold aliases. apply in_flat_map.
           exists (KFunc f' a'). split; [eapply nth_error_In; exact Hj|left; reflexivity].
        -- intros i j s t Hi Hj. specialize (H2 (S i) (S j) s t Hi Hj). lia.
    + change (aliases (KExpr s :: l)) with (aliases l). split.
      * intros (H1 & H2 & H3). split; [exact H2|]. intros [|i] [|j] x y Hi Hj; cbn in Hi, Hj.
        -- reflexivity.
        -- specialize (H1 _ _ Hj). discriminate.
        -- specialize (H1 _ _ Hi). discriminate.
        -- f_equal. eapply H3; eassumption.
      * intros [H1 H2]. split; [|split; [exact H1|]].
        -- intros j [f' a'|t] Hj; cbn; [reflexivity|]. specialize (H2 0%nat (S j) s t eq_refl Hj). discriminate.
        -- intros i j x y Hi Hj. specialize (H2 (S i) (S j) x y Hi Hj). lia.
Qed.

Lemma same_final k : same_keys (co_keys (item_out k)) calc_final_keys = true.
Proof. destruct k; reflexivity. Qed.

Lemma names_hash l : forallb hashable (map name_of l) = true.
Proof. induction l as [|[f a|s] l IH]; cbn; auto. Qed.

Lemma calc_values reg valid l : Forall WellSpelled l -> (forall s k, l <> (k ++ [KExpr s])%list) ->
  (Forall (Known reg) l /\ (forall k, In k l -> valid (item_out k) = true) /\ NamesDiffer l ->
     calc_set reg valid (map calc_value l) = Ok (map item_out l)) /\
  (~ (Forall (Known reg) l /\ (forall k, In k l -> valid (item_out k) = true) /\ NamesDiffer l) ->
     calc_set reg valid (map calc_value l) = Err DefinitionValidationError).
Proof.
  intros Hw Hlast. unfold calc_set.
  destruct (calc_parse_all reg l Hw) as [[K ->]|[K ->]]; cbn [bind]; [|split; [tauto|reflexivity]]. cbv zeta.
  assert (F : match rev (map calc_value l) with [] => false | v :: _ => calc_is_eval v end = false).
  { rewrite <- map_rev. destruct (rev l) as [|k t] eqn:E; [reflexivity|]. cbn [map].
    assert (El : l = (rev t ++ [k])%list) by (rewrite <- (rev_involutive l), E; reflexivity).
    rewrite calc_item_eval.
    - destruct k as [f a|s]; [reflexivity|]. destruct (Hlast s (rev t) El).
    - rewrite Forall_forall in Hw. apply Hw. rewrite El. apply in_or_app. right. left. reflexivity. }
  rewrite F. assert (En : map co_name (map item_out l) = map name_of l) by (rewrite map_map; apply map_ext; intros [f a|s]; reflexivity).
  rewrite En. destruct (py_set (map name_of l)) as [s|e] eqn:Es.
  2: { unfold py_set in Es. rewrite names_hash in Es. discriminate. }
  cbn [bind]. destruct (py_set_len _ _ Es) as [_ Hd]. rewrite names_differ in Hd.
  assert (Hlen : zlen (map name_of l) = zlen (map item_out l)) by (unfold zlen; rewrite !map_length; reflexivity).
  rewrite Hlen in Hd. destruct (zlen s =? zlen (map item_out l)) eqn:El; cbn [negb].
  2: { split; [|reflexivity]. intros (_ & _ & H). apply Hd in H. lia. }
  assert (Hnd : NamesDiffer l) by (apply Hd; lia).
  assert (Hv : ((forall k, In k l -> valid (item_out k) = true) /\
       (do _ <- map_res (fun c => if same_keys (co_keys c) calc_final_keys && valid c then Ok tt else Err DefinitionValidationError) (map item_out l); Ok (map item_out l)) = Ok (map item_out l)) \/
     (~ (forall k, In k l -> valid (item_out k) = true) /\
       (do _ <- map_res (fun c => if same_keys (co_keys c) calc_final_keys && valid c then Ok tt else Err DefinitionValidationError) (map item_out l); Ok (map item_out l)) = Err DefinitionValidationError)).
  { generalize (map item_out l) at 2 3 5 as out. intros out. clear. induction l as [|k l IH]; [left; split; [intros ? []|reflexivity]|]. cbn [map map_res].
    rewrite same_final. cbn [andb]. destruct (valid (item_out k)) eqn:E; cbn [bind].
    - destruct (map_res _ (map item_out l)) as [u|e]; cbn [bind] in *; destruct IH as [[I1 I2]|[I1 I2]]; try discriminate.
      + left. split; [|exact I2]. intros h [<-|Hh]; [exact E|apply I1; exact Hh].
      + right. split; [|exact I2]. intros X. apply I1. intros h Hh. apply X. right. exact Hh.
    - right. split; [|reflexivity]. intros X. specialize (X k (or_introl eq_refl)). congruence. }
  destruct Hv as [[H1 ->]|[H1 ->]]; split; try tauto; try reflexivity.
Qed.

(** ** Time regions *)

Definition region := list (string * option (list Z)).
Definition with_key (d : region) (k : string) : region := if dmem String.eqb d k then d else dset String.eqb d k None.

Lemma with_key_get d k x : dget String.eqb (with_key d k) x =
  match dget String.eqb d x with Some v => Some v | None => if String.eqb x k then Some None else None end.
Proof.
  unfold with_key, dmem. destruct (dget String.eqb d k) as [v|] eqn:E.
  - destruct (dget String.eqb d x) as [w|] eqn:F; [reflexivity|]. destruct (String.eqb_spec x k) as [->|]; [congruence|reflexivity].
  - destruct (String.eqb_spec x k) as [->|Hn].
    + rewrite (dget_dset_same String.eqb String.eqb_spec), E. reflexivity.
    + rewrite (dget_dset_other String.eqb String.eqb_spec) by congruence. destruct (dget String.eqb d x); reflexivity.
Qed.

Lemma with_key_nodup d k : NoDup (map fst d) -> NoDup (map fst (with_key d k)).
Proof.
  intros H. unfold with_key, dmem. destruct (dget String.eqb d k) eqn:E; [exact H|].
  apply (dset_nodup String.eqb String.eqb_spec); exact H.
Qed.

Lemma in_keys (d : region) k : In k (map fst d) <-> exists v, dget String.eqb d k = Some v.
Proof.
  destruct (dget String.eqb d k) as [v|] eqn:E.
  - split; [eauto|]. intros _. apply (dget_in String.eqb String.eqb_spec) in E. apply in_map_iff. exists (k, v). auto.
  - apply (dget_none String.eqb String.eqb_spec) in E. split; [tauto|]. intros (v & H). discriminate.
Qed.

Lemma region_spec (d : region) : NoDup (map fst d) ->
  (Forall (fun kv => fst kv = "month" \/ fst kv = "year") d ->
     (Forall (fun kv => snd kv = None) d /\ time_region_set d = Ok None) \/
     (~ Forall (fun kv => snd kv = None) d /\ exists r, time_region_set d = Ok (Some r) /\
        (forall k, In k (map fst r) <-> k = "month" \/ k = "year") /\ NoDup (map fst r) /\
        forall k v, In (k, Some v) r <-> In (k, Some v) d)) /\
  (~ Forall (fun kv => fst kv = "month" \/ fst kv = "year") d -> time_region_set d = Err DefinitionValidationError).
Proof.
  intros Hn. set (r := with_key (with_key d "month") "year").
  assert (Eu : time_region_set d =
     if negb (forallb (fun kv => smem (fst kv) ["month"; "year"]) r) then Err DefinitionValidationError
     else if forallb (fun kv : string * option (list Z) => match snd kv with None => true | Some _ => false end) r then Ok None else Ok (Some r)) by reflexivity.
  rewrite Eu. clear Eu.
  assert (Hr : NoDup (map fst r)) by (apply with_key_nodup, with_key_nodup, Hn).
  assert (Hget : forall k, dget String.eqb r k = match dget String.eqb d k with Some v => Some v | None =>
             if String.eqb k "month" then Some None else if String.eqb k "year" then Some None else None end).
  { intros k. unfold r. rewrite !with_key_get. destruct (dget String.eqb d k); [reflexivity|]. destruct (String.eqb k "month"); reflexivity. }
  assert (Hin : forall k v, In (k, Some v) r <-> In (k, Some v) d).
  { intros k v. split; intros H.
    - apply dget_nodup in H; [|exact Hr]. rewrite Hget in H. destruct (dget String.eqb d k) as [w|] eqn:E.
      + apply (dget_in String.eqb String.eqb_spec) in E. congruence.
      + destruct (String.eqb k "month"); [discriminate|]. destruct (String.eqb k "year"); discriminate.
    - apply dget_nodup in H; [|exact Hn]. apply (dget_in String.eqb String.eqb_spec). rewrite Hget, H. reflexivity. }
  assert (Hkeys : forall k, In k (map fst r) <-> In k (map fst d) \/ k = "month" \/ k = "year").
  { intros k. rewrite !in_keys. setoid_rewrite Hget. destruct (dget String.eqb d k) as [v|]; [split; eauto|].
    destruct (String.eqb_spec k "month"); [split; eauto|]. destruct (String.eqb_spec k "year"); [split; eauto|].
    split; [intros (v & H); discriminate|]. intros [(v & H)|[H|H]]; congruence. }
  assert (Hk : forallb (fun kv => smem (fst kv) ["month"; "year"]) r = true <-> Forall (fun kv => fst kv = "month" \/ fst kv = "year") d).
  { rewrite forallb_forall, Forall_forall.
    assert (M : forall k, smem k ["month"; "year"] = true <-> k = "month" \/ k = "year").
    { intros k. unfold smem. cbn [existsb]. rewrite !orb_true_iff, !String.eqb_eq. intuition discriminate. }
    split.
    - intros H [k v] Hd. cbn. apply M. assert (X : In k (map fst r)) by (apply Hkeys; left; apply in_map_iff; exists (k, v); auto).
      apply in_map_iff in X. destruct X as ([k' w] & E & Hx). cbn in E. subst k'. exact (H _ Hx).
    - intros H [k v] Hx. cbn. apply M. assert (X : In k (map fst r)) by (apply in_map_iff; exists (k, v); auto).
      apply Hkeys in X. destruct X as [X|X]; [|exact X]. apply in_map_iff in X. destruct X as (kv & <- & Hd). apply H. exact Hd. }
  assert (Ha : forallb (fun kv : string * option (list Z) => match snd kv with None => true | Some _ => false end) r = true <-> Forall (fun kv => snd kv = None) d).
  { rewrite forallb_forall, Forall_forall. split.
    - intros H [k [v|]] Hd; [|reflexivity]. apply Hin in Hd. specialize (H _ Hd). discriminate.
    - intros H [k [v|]] Hx; [|reflexivity]. apply Hin in Hx. specialize (H _ Hx). discriminate. }
  destruct (forallb (fun kv => smem (fst kv) ["month"; "year"]) r); cbn [negb].
  - split; [|intros X; destruct X; apply Hk; reflexivity]. intros Hf.
    destruct (forallb _ r).
    + left. split; [apply Ha; reflexivity|reflexivity].
    + right. split; [intros X; apply Ha in X; discriminate|]. exists r. split; [reflexivity|]. split; [|split; [exact Hr|exact Hin]].
      intros k. rewrite Hkeys. split; [|tauto]. intros [X|X]; [|exact X].
      apply in_map_iff in X. destruct X as (kv & <- & Hd). rewrite Forall_forall in Hf. apply Hf. exact Hd.
  - split; [|reflexivity]. intros X. apply Hk in X. discriminate.
Qed.
