(** C51 and C57: daily percentile windows, threshold counts. *)
From Verif Require Import Py Lib Spec PicksLib NdModel TimeModel TimeProofs SeasonProofs CalcModel CalcSpec CalcProofs DurationProofs.
From Coq Require Import Sorted Permutation.

(** ** The calendar *)
Lemma zrange_snoc lo hi : lo <= hi -> zrange lo (hi + 1) = zrange lo hi ++ [hi].
Proof. intros H. rewrite (zrange_app lo hi (hi + 1)) by lia. f_equal. rewrite zrange_cons by lia. rewrite zrange_nil by lia. reflexivity. Qed.
Lemma days_before_next_month y m : 1 <= m -> days_before_month y (m + 1) = days_before_month y m + days_in_month y m.
Proof. intros H. unfold days_before_month. rewrite zrange_snoc by lia. rewrite map_app, zsum_app. cbn [map]. unfold zsum at 2. cbn. lia. Qed.
Lemma days_before_january y : days_before_month y 1 = 0.
Proof. reflexivity. Qed.
Lemma year_length y : days_before_month y 13 = if is_leap y then 366 else 365.
Proof. unfold days_before_month. change (zrange 1 13) with [1;2;3;4;5;6;7;8;9;10;11;12]. unfold days_in_month. cbn. destruct (is_leap y); reflexivity. Qed.
Lemma days_before_next_year y : days_before_year (y + 1) = days_before_year y + if is_leap y then 366 else 365.
Proof.
  unfold days_before_year, is_leap. cbv zeta. replace (y + 1 - 1) with y by lia.
  destruct (Z.eqb_spec (y mod 4) 0), (Z.eqb_spec (y mod 100) 0), (Z.eqb_spec (y mod 400) 0); cbn [andb orb negb]; lia.
Qed.

(** The day after a date. *)
Theorem ordinal_next_day : forall y m d, 1 <= m <= 12 -> 1 <= d <= days_in_month y m ->
  (d < days_in_month y m -> ordinal y m (d + 1) = ordinal y m d + 1) /\
  (d = days_in_month y m -> m < 12 -> ordinal y (m + 1) 1 = ordinal y m d + 1) /\
  (d = days_in_month y m -> m = 12 -> ordinal (y + 1) 1 1 = ordinal y m d + 1).
Proof.
  intros y m d Hm Hd. unfold ordinal. split; [lia|]. split.
  - intros -> H. rewrite days_before_next_month by lia. lia.
  - intros -> ->. rewrite days_before_next_year, days_before_january.
    pose proof (year_length y) as Hy. change 13 with (12 + 1) in Hy. rewrite days_before_next_month in Hy by lia. lia.
Qed.

(** ** Windows *)
Lemma make_datetime_ok y m d h : 1 <= y <= 9999 -> 1 <= m <= 12 -> 1 <= d <= days_in_month y m -> 0 <= h <= 23 ->
  make_datetime y m d h = Ok (mkdate y m d h 0 0).
Proof. intros. unfold make_datetime. replace (_ && _) with true by lia. reflexivity. Qed.

Lemma within_iff d y m dd hour h : 0 <= h ->
  (2 * h + 1 <? 2 * abs_delta_days d (mkdate y m dd hour 0 0)) = false <-> WithinDays h d y m dd hour.
Proof. intros Hh. unfold WithinDays, abs_delta_days. set (D := Z.abs _). assert (0 <= D) by (unfold D; lia). clearbody D. lia. Qed.

Lemma days_in_month_const y y' m : m <> 2 -> days_in_month y m = days_in_month y' m.
Proof. intros H. unfold days_in_month. destruct (Z.eqb_spec m 2); [congruence|reflexivity]. Qed.
Lemma days_in_february y : 28 <= days_in_month y 2 <= 29.
Proof. unfold days_in_month. cbn. destruct (is_leap y); lia. Qed.


Theorem get_masked_spec : forall d m dd hour h only_leap, ValidDate d -> CalendarDay m dd -> 0 <= hour <= 23 -> 0 <= h ->
  exists b, get_masked d m dd hour (2 * h + 1) only_leap = Ok b /\ (b = false <-> InWindow h only_leap m dd hour d).
Proof.
  intros d m dd hour h ol (Hy & Hm & Hd & _) (Hcm & y0 & Hdd) Hh H0. unfold get_masked, InWindow.
  rewrite (andb_comm (m =? 2)). destruct ((dd =? 29) && (m =? 2)) eqn:E.
  - assert (dd = 29 /\ m = 2) as [-> ->] by lia. destruct (is_leap (dt_year d)) eqn:El.
    + rewrite make_datetime_ok; [|lia|lia|unfold days_in_month; cbn; rewrite El; lia|lia]. cbn [bind].
      eexists. split; [reflexivity|]. apply within_iff. exact H0.
    + destruct ol; [exists true; split; [reflexivity|]; split; [discriminate|intros [? _]; discriminate]|].
      rewrite make_datetime_ok; [|lia|lia|pose proof (days_in_february (dt_year d)); lia|lia]. cbn [bind].
      eexists. split; [reflexivity|]. unfold delta_days. set (D := seconds_of d - _). clearbody D. split.
      * intros H. split; [reflexivity|]. lia.
      * intros [_ H]. lia.
  - assert (Hv : forall y, 1 <= dd <= days_in_month y m).
    { intros y. destruct (Z.eq_dec m 2) as [->|Hn]; [|rewrite (days_in_month_const y y0 m Hn); exact Hdd].
      pose proof (days_in_february y). pose proof (days_in_february y0). lia. }
    rewrite !make_datetime_ok by (lia || apply Hv). cbn [bind].
    eexists. split; [reflexivity|]. split.
    + intros H.
      set (a1 := abs_delta_days d (mkdate (dt_year d) m dd hour 0 0)) in *.
      set (a2 := abs_delta_days d (mkdate (dt_year d + 1) m dd hour 0 0)) in *.
      set (a3 := abs_delta_days d (mkdate (dt_year d - 1) m dd hour 0 0)) in *.
      assert (Hc : (2 * h + 1 <? 2 * a1) = false \/ (2 * h + 1 <? 2 * a2) = false \/ (2 * h + 1 <? 2 * a3) = false) by lia.
      destruct Hc as [Hc|[Hc|Hc]]; apply within_iff in Hc; try exact H0; eexists; (split; [|exact Hc]); lia.
    + intros (y & Hyr & Hw). apply within_iff in Hw; [|exact H0].
      assert (Hcases : y = dt_year d \/ y = dt_year d + 1 \/ y = dt_year d - 1) by lia.
      destruct Hcases as [-> | [-> | ->]]; lia.
Qed.

(** For a date at the hour asked for, the window is [h] days to each side. *)
Theorem within_days : forall h y m d y' m' d' hour,
  WithinDays h (mkdate y m d hour 0 0) y' m' d' hour <-> Z.abs (ordinal y m d - ordinal y' m' d') <= h.
Proof. intros. unfold WithinDays, seconds_of. cbn [dt_year dt_month dt_day dt_hour dt_minute dt_second]. lia. Qed.

(** ** The table of percentiles *)
Lemma forall2_both {A B} (R : A -> B -> Prop) l l' : Forall2 R l l' -> forall k x y, nth_error l k = Some x -> nth_error l' k = Some y -> R x y.
Proof. intros H. induction H; intros [|k] a b E1 E2; try discriminate; cbn in *; [congruence|eauto]. Qed.

Definition cal_step (d : list (Z * list Z)) (dt : date) : list (Z * list Z) :=
  dset Z.eqb d (dt_month dt) (match dget Z.eqb d (dt_month dt) with Some l => l | None => [] end ++ [dt_day dt]).
Lemma caldays_fold : forall dates,
  let dic := fold_left cal_step dates [] in
  NoDup (map fst dic) /\
  forall m dd, (exists l, dget Z.eqb dic m = Some l /\ In dd l) <-> exists d, In d dates /\ dt_month d = m /\ dt_day d = dd.
Proof.
  intros dates. cbv zeta. induction dates as [|d dates [IHn IH]] using rev_ind.
  - cbn. split; [constructor|]. intros m dd. split; [intros (l & H & _); discriminate|intros (d & [] & _)].
  - rewrite fold_left_app. cbn [fold_left]. set (dic := fold_left cal_step dates []) in *. unfold cal_step at 1. split.
    + unfold cal_step. apply dset_nodup; [exact Z.eqb_spec|exact IHn].
    + unfold cal_step. intros m dd. destruct (Z.eq_dec m (dt_month d)) as [->|Hne].
      * rewrite dget_dset_same by exact Z.eqb_spec. split.
        -- intros (l & E & Hin). injection E as <-. apply in_app_or in Hin. destruct Hin as [Hin|[<-|[]]].
           ++ destruct (dget Z.eqb dic (dt_month d)) as [l|] eqn:E; [|contradiction].
              destruct (proj1 (IH (dt_month d) dd)) as (d' & Hd' & H1 & H2); [eauto|]. exists d'. split; [apply in_or_app; left; exact Hd'|auto].
           ++ exists d. split; [apply in_or_app; right; left; reflexivity|auto].
        -- intros (d' & Hd' & H1 & H2). eexists. split; [reflexivity|]. apply in_or_app. apply in_app_or in Hd'. destruct Hd' as [Hd'|[<-|[]]].
           ++ left. destruct (proj2 (IH (dt_month d) dd)) as (l & E & Hl); [eauto|]. rewrite E. exact Hl.
           ++ right. left. exact H2.
      * rewrite dget_dset_other by (exact Z.eqb_spec || exact Hne). rewrite IH. split; intros (d' & Hd' & H1 & H2); exists d'.
        -- split; [apply in_or_app; left; exact Hd'|auto].
        -- apply in_app_or in Hd'. destruct Hd' as [Hd'|[<-|[]]]; [auto|congruence].
Qed.

Definition cal_keys (dates : list date) : list (Z * Z) :=
  flat_map (fun kv => map (fun d => (fst kv, d)) (snd kv)) (get_dict_caldays dates).
Lemma cal_keys_in dates m dd : In (m, dd) (cal_keys dates) <-> exists d, In d dates /\ dt_month d = m /\ dt_day d = dd.
Proof.
  destruct (caldays_fold dates) as [Hn H]. rewrite <- H. clear H. unfold cal_keys, get_dict_caldays. fold cal_step. cbv zeta.
  set (dic := fold_left cal_step dates []) in *. rewrite in_flat_map. split.
  - intros ((k & l) & Hin & Hd). apply in_map_iff in Hin. destruct Hin as ((k' & l') & E & Hin). cbn [fst snd] in E. injection E as <- <-.
    cbn [fst snd] in Hd. apply in_map_iff in Hd. destruct Hd as (x & E & Hx). injection E as -> ->. exists l'. split.
    + apply in_dget; [exact Z.eqb_spec|exact Hn|exact Hin].
    + rewrite z_unique_in in Hx. exact Hx.
  - intros (l & E & Hl). apply dget_in in E; [|exact Z.eqb_spec]. exists (m, z_unique l). split.
    + apply in_map_iff. exists (m, l). auto.
    + cbn [fst snd]. apply in_map. rewrite z_unique_in. exact Hl.
Qed.
Lemma cal_keys_nodup dates : NoDup (cal_keys dates).
Proof.
  destruct (caldays_fold dates) as [Hn _]. unfold cal_keys, get_dict_caldays. fold cal_step. cbv zeta in *.
  revert Hn. generalize (fold_left cal_step dates []). induction l as [|[k l] t IH]; cbn [map flat_map fst snd]; intros Hn; [constructor|].
  inversion Hn; subst. apply NoDup_app_intro.
  - apply FinFun.Injective_map_NoDup; [intros a b E; congruence|]. apply sorted_nodup, z_unique_sorted.
  - apply IH. assumption.
  - intros [a b] Hq1 H2'. apply in_map_iff in Hq1. destruct Hq1 as (x & E & _). injection E as <- <-.
    apply in_flat_map in H2'. destruct H2' as ((k' & l') & Hin & Hd). cbn [fst snd] in Hd. apply in_map_iff in Hd. destruct Hd as (y & E & _). injection E as -> _.
    match goal with H : ~ In k _ |- _ => apply H end. clear -Hin. apply in_map_iff in Hin. destruct Hin as ((k1 & l1) & E & Hin). cbn in E. injection E as <- <-.
    apply in_map_iff. exists (k1, l1). auto.
Qed.

Theorem daily_percentile_spec : forall A B (perc : list A -> B) (arr : list A) dates first rest h only_leap,
  dates = first :: rest -> List.length arr = List.length dates -> (forall d, In d dates -> ValidDate d) -> 0 <= h ->
  exists table, get_daily_percentile perc arr dates (2 * h + 1) only_leap = Ok table /\ NoDup (map fst table) /\
    (forall m dd, In (m, dd) (map fst table) <-> exists d, In d dates /\ dt_month d = m /\ dt_day d = dd) /\
    forall m dd v, In ((m, dd), v) table ->
      exists basis, v = perc basis /\
        Picks (fun k => exists d, nth_error dates k = Some d /\ InWindow h only_leap m dd (dt_hour first) d) arr basis.
Proof.
  intros A B perc arr dates first rest h ol Edt Hlen Hv Hh. unfold get_daily_percentile.
  assert (Ef : py_index dates 0 = Ok first).
  { subst dates. destruct (py_index_nat (first :: rest) 0) as (x & E1 & E2); [rewrite zlen_cons; pose proof (zlen_nonneg rest); lia|]. cbn in E2. congruence. }
  rewrite Ef. cbn [bind]. fold (cal_keys dates).
  assert (Hhour : 0 <= dt_hour first <= 23) by (destruct (Hv first) as (_ & _ & _ & ? & _); [subst dates; left; reflexivity|assumption]).
  set (F := fun md : Z * Z => do masked <- map_res (fun dt => get_masked dt (fst md) (snd md) (dt_hour first) (2 * h + 1) ol) dates;
    Ok (md, perc (bool_select (map negb masked) arr))).
  assert (HF : forall m dd, In (m, dd) (cal_keys dates) -> exists v, F (m, dd) = Ok ((m, dd), v) /\ exists basis, v = perc basis /\
    Picks (fun k => exists d, nth_error dates k = Some d /\ InWindow h ol m dd (dt_hour first) d) arr basis).
  { intros m dd Hin. apply cal_keys_in in Hin. destruct Hin as (d0 & Hd0 & Em & Ed).
    assert (Hc : CalendarDay m dd) by (destruct (Hv d0 Hd0) as (_ & ? & ? & _); subst m dd; split; [assumption|eexists; eassumption]).
    assert (Hm : exists masked, map_res (fun dt => get_masked dt m dd (dt_hour first) (2 * h + 1) ol) dates = Ok masked).
    { apply map_res_exists. intros d Hd. destruct (get_masked_spec d m dd (dt_hour first) h ol (Hv d Hd) Hc Hhour Hh) as (b & E & _). eauto. }
    destruct Hm as (masked & Em'). unfold F. cbn [fst snd]. rewrite Em'. cbn [bind]. eexists. split; [reflexivity|]. eexists. split; [reflexivity|].
    apply map_res_ok in Em'. pose proof (Forall2_len _ _ _ Em') as El.
    eapply picks_ext; [apply picks_bool_select; rewrite map_length; congruence|]. cbn beta. intros k Hk. rewrite nth_error_map. split.
    - intros Hs. destruct (nth_error masked k) as [b|] eqn:Eb; [|discriminate]. cbn in Hs. injection Hs as Hs. destruct b; [discriminate|].
      destruct (nth_error dates k) as [d|] eqn:Ek; [|apply nth_error_None in Ek; lia].
      exists d. split; [reflexivity|]. pose proof (forall2_both _ _ _ Em' _ _ _ Ek Eb) as Hg. cbn beta in Hg.
      destruct (get_masked_spec d m dd (dt_hour first) h ol (Hv d (nth_error_In _ _ Ek)) Hc Hhour Hh) as (b & E & Hb). rewrite E in Hg. injection Hg as ->.
      apply Hb. reflexivity.
    - intros (d & Ek & Hw). destruct (nth_error masked k) as [b|] eqn:Eb; [|apply nth_error_None in Eb; lia]. cbn.
      pose proof (forall2_both _ _ _ Em' _ _ _ Ek Eb) as Hg. cbn beta in Hg.
      destruct (get_masked_spec d m dd (dt_hour first) h ol (Hv d (nth_error_In _ _ Ek)) Hc Hhour Hh) as (b' & E & Hb). rewrite E in Hg. injection Hg as ->.
      apply Hb in Hw. subst b. reflexivity. }
  destruct (map_res_exists F (cal_keys dates)) as (table & Et).
  { intros [m dd] Hin. destruct (HF m dd Hin) as (v & E & _). eauto. }
  exists table. split; [exact Et|]. apply map_res_ok in Et.
  assert (Hkeys : map fst table = cal_keys dates).
  { clear -Et HF. revert HF. generalize (cal_keys dates) at 1 as K. intros K HK. 
    assert (H : forall md r, F md = Ok r -> fst r = md).
    { intros md r E. unfold F in E. destruct (map_res _ dates); [|discriminate]. cbn in E. injection E as <-. reflexivity. }
    induction Et as [|md r l l' E _ IH]; [reflexivity|]. cbn. rewrite IH. f_equal. apply H. exact E. }
  rewrite Hkeys. split; [apply cal_keys_nodup|]. split; [intros; apply cal_keys_in|].
  intros m dd v Hin.
  assert (Hk : In (m, dd) (cal_keys dates)) by (rewrite <- Hkeys; apply in_map_iff; exists ((m, dd), v); auto).
  assert (HE : F (m, dd) = Ok ((m, dd), v)).
  { clear -Et Hin. assert (H : forall md r, F md = Ok r -> fst r = md).
    { intros md r E. unfold F in E. destruct (map_res _ dates); [|discriminate]. cbn in E. injection E as <-. reflexivity. }
    induction Et as [|md r l l' E _ IH]; [contradiction|]. destruct Hin as [->|Hin]; [|apply IH; exact Hin]. 
    pose proof (H _ _ E) as Hf. cbn in Hf. subst md. exact E. }
  destruct (HF m dd Hk) as (v' & E & basis & Hb & Hp). rewrite HE in E. injection E as ->. exists basis. auto.
Qed.

(** ** C57 *)
Lemma count_zsum {A} (f : A -> bool) l : zsum (map (fun x => if f x then 1 else 0) l) = zlen (filter f l).
Proof. induction l as [|x l IH]; [reflexivity|]. cbn [map]. rewrite zsum_cons, IH. cbn [filter]. destruct (f x); [rewrite zlen_cons|]; lia. Qed.

Lemma count_of_filter {A} (f : A -> bool) (P : A -> Prop) l : (forall x, f x = true <-> P x) -> CountOf P l (zlen (filter f l)).
Proof.
  intros H. exists (filter f l). split; [|reflexivity]. eapply picks_ext; [apply picks_filter|]. cbn beta. intros k _.
  split; intros (x & Hx & Hp); exists x; (split; [exact Hx|apply H; exact Hp]).
Qed.

Lemma ma_count_spec {A} (holds : A -> bool) (P : A -> Prop) (values : list (mcell A)) : (forall v, holds v = true <-> P v) ->
  exists n, ma_count holds values = (forallb fst values, n) /\ CountOf (fun c => fst c = false /\ P (snd c)) values n.
Proof.
  intros H. unfold ma_count. eexists. split; [reflexivity|]. rewrite count_zsum. apply count_of_filter.
  intros [b v]. cbn. rewrite andb_true_iff, negb_true_iff, H. reflexivity.
Qed.

Theorem threshold_count_spec : forall op threshold values, op <> OtherOp ->
  exists n, threshold_count op threshold values = Ok (forallb fst values, n) /\
    CountOf (fun c => fst c = false /\ Satisfies op threshold (snd c)) values n.
Proof.
  intros op thr values Hop. destruct (compare_op_spec NotImplementedError op thr Hop) as (holds & E & Hh).
  destruct (ma_count_spec holds _ values Hh) as (n & En & Hn). exists n. split; [|exact Hn]. unfold threshold_count. rewrite E. cbn [bind]. congruence.
Qed.
Theorem threshold_unknown_raises : forall threshold values, threshold_count OtherOp threshold values = Err NotImplementedError.
Proof. reflexivity. Qed.

Theorem between_count_spec : forall lower upper values, (lower <= upper)%Q ->
  exists n, between_count lower upper values = Ok (forallb fst values, n) /\
    CountOf (fun c => fst c = false /\ (lower <= snd c <= upper)%Q) values n.
Proof.
  intros lo up values H. destruct (ma_count_spec (fun v => Qle_bool lo v && Qle_bool v up) (fun v => (lo <= v <= up)%Q) values) as (n & En & Hn).
  { intros v. rewrite andb_true_iff, !Qle_bool_iff. reflexivity. }
  exists n. split; [|exact Hn]. unfold between_count. apply Qle_bool_iff in H. rewrite H. congruence.
Qed.
Theorem between_inverted_raises : forall lower upper values, (upper < lower)%Q -> between_count lower upper values = Err AssertionError.
Proof.
  intros lo up values H. unfold between_count. destruct (Qle_bool lo up) eqn:E; [|reflexivity]. apply Qle_bool_iff in E. apply Qlt_not_le in H. contradiction.
Qed.

Theorem sample_size_spec : forall A (values : list (mcell A)) fill_mask, values <> [] ->
  exists n, get_sample_size values fill_mask = Ok (fill_mask, n) /\ CountOf (fun c => fst c = false) values n.
Proof.
  intros A values fm H. destruct values as [|c values]; [congruence|]. eexists. split; [reflexivity|]. cbn [snd].
  replace (zsum (map (fun c : mcell A => if fst c then 0 else 1) (c :: values))) with (zlen (filter (fun c : mcell A => negb (fst c)) (c :: values))).
  - apply count_of_filter. intros [b v]. cbn. apply negb_true_iff.
  - rewrite <- count_zsum. f_equal. apply map_ext. intros [[] v]; reflexivity.
Qed.

Lemma count_of_unique {A} (P : A -> Prop) l n n' : CountOf P l n -> CountOf P l n' -> n = n'.
Proof. intros (r & Hr & ->) (r' & Hr' & ->). f_equal. eapply picks_unique; eassumption. Qed.

(** Whatever is counted among the unmasked steps, there are at most as many as
    unmasked steps. *)
Lemma count_le_zsum {A} (f g : A -> bool) l : (forall x, f x = true -> g x = true) -> zlen (filter f l) <= zlen (filter g l).
Proof.
  intros H. induction l as [|x l IH]; [reflexivity|]. cbn [filter]. specialize (H x). destruct (f x), (g x); rewrite ?zlen_cons; try lia; discriminate H; reflexivity.
Qed.
Theorem count_at_most_sample : forall op threshold values fill_mask m n c k,
  threshold_count op threshold values = Ok (m, n) -> get_sample_size values fill_mask = Ok (c, k) -> 0 <= n <= k.
Proof.
  intros op thr values fm m n c k H1 H2. unfold threshold_count in H1. destruct (compare_op _ op thr) as [holds|]; [|discriminate]. cbn [bind] in H1.
  unfold ma_count in H1. injection H1 as _ <-. destruct values as [|v values]; [discriminate|]. unfold get_sample_size in H2.
  assert (Ek : zsum (map (fun c : mcell Q => if fst c then 0 else 1) (v :: values)) = k) by (cbv zeta in H2; cbn [snd] in H2; congruence). rewrite <- Ek. clear Ek H2.
  rewrite (count_zsum (fun c : mcell Q => negb (fst c) && holds (snd c))).
  rewrite (map_ext _ (fun c : mcell Q => if negb (fst c) then 1 else 0)) by (intros [[] ?]; reflexivity). rewrite (count_zsum (fun c : mcell Q => negb (fst c))).
  split; [apply zlen_nonneg|]. apply count_le_zsum. intros x Hx. apply andb_true_iff in Hx. apply Hx.
Qed.
