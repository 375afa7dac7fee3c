(** Proofs for C24, C25 and C26. *)
From Verif Require Import Py Lib Spec PicksLib PartitionModel TimeModel TimeSpec TimeProofs.

(** ** C26 *)
Ltac dates := unfold YearStart, Within, ValidDate, DateLe, DateLt, MonthStart in *; cbn [dt_year dt_month dt_day dt_hour dt_minute dt_second] in *.

Theorem between_month_sound lower upper m b : ValidDate lower -> ValidDate upper -> DateLt lower upper -> 1 <= m <= 12 ->
  get_is_date_between lower upper (Some m) None = Ok b -> b = true -> MonthOccurs lower upper m.
Proof.
  intros Hl Hu Hlt Hm H ->. cbn [get_is_date_between] in H. injection H as H. unfold is_between_parts in H.
  destruct (Z.eqb_spec (dt_month lower) m) as [E|E].
  - exists lower. split; [|exact E]. split; [exact Hl|left; reflexivity].
  - exists (mkdate (dt_year lower) m 1 0 0 0). split; [|reflexivity].
    destruct (Z.eqb_spec (dt_month lower) (dt_month upper)) as [E'|E']; cbn [negb] in H; [lia|].
    split; [dates; lia|]. right. destruct (Z.ltb_spec (dt_month upper) (dt_month lower)); dates; lia.
Qed.

Theorem between_year_sound lower upper y b : ValidDate lower -> ValidDate upper -> DateLt lower upper ->
  get_is_date_between lower upper None (Some y) = Ok b -> b = true -> YearOccurs lower upper y.
Proof.
  intros Hl Hu Hlt H ->. cbn [get_is_date_between] in H. injection H as H. unfold is_between_parts in H.
  destruct (Z.eqb_spec (dt_year lower) y) as [E|E].
  - exists lower. split; [|exact E]. split; [exact Hl|left; reflexivity].
  - exists (mkdate y 1 1 0 0 0). split; [|reflexivity].
    destruct (Z.eqb_spec (dt_year lower) (dt_year upper)) as [E'|E']; cbn [negb] in H; [lia|].
    destruct (Z.ltb_spec (dt_year upper) (dt_year lower)); [dates; lia|].
    split; [dates; lia|]. right. dates; lia.
Qed.

Theorem between_month_exact lower upper m : ValidDate lower -> ValidDate upper -> DateLt lower upper -> 1 <= m <= 12 ->
  (dt_year upper = dt_year lower \/ (dt_year upper = dt_year lower + 1 /\ dt_month upper = 1 /\ dt_month lower <> 1)) ->
  (dt_month lower = dt_month upper \/ MonthStart upper) ->
  exists b, get_is_date_between lower upper (Some m) None = Ok b /\ (b = true <-> MonthOccurs lower upper m).
Proof.
  intros Hl Hu Hlt Hm Hy Hs. eexists. split; [reflexivity|]. split.
  - intros H. eapply between_month_sound; try eassumption; reflexivity.
  - intros [d [[Hv Hd] <-]]. unfold is_between_parts.
    destruct (Z.eqb_spec (dt_month lower) (dt_month upper)) as [E'|E']; cbn [negb].
    + assert (dt_month d = dt_month lower); [|lia]. destruct Hd as [->|[Hd1 Hd2]]; [reflexivity|]. dates; lia.
    + destruct Hs as [Hs|Hs]; [congruence|]. destruct (Z.ltb_spec (dt_month upper) (dt_month lower)).
      * destruct Hd as [->|[Hd1 Hd2]]; dates; lia.
      * destruct Hd as [->|[Hd1 Hd2]]; dates; lia.
Qed.

Theorem between_year_exact lower upper y : ValidDate lower -> ValidDate upper -> DateLt lower upper ->
  (dt_year lower = dt_year upper \/ YearStart upper) ->
  exists b, get_is_date_between lower upper None (Some y) = Ok b /\ (b = true <-> YearOccurs lower upper y).
Proof.
  intros Hl Hu Hlt Hs. eexists. split; [reflexivity|]. split.
  - intros H. eapply between_year_sound; try eassumption; reflexivity.
  - intros [d [[Hv Hd] <-]]. unfold is_between_parts.
    destruct (Z.eqb_spec (dt_year lower) (dt_year upper)) as [E'|E']; cbn [negb].
    + destruct Hd as [->|[Hd1 Hd2]]; [lia|]. dates; lia.
    + destruct Hs as [Hs|Hs]; [congruence|]. destruct (Z.ltb_spec (dt_year upper) (dt_year lower)); [dates; lia|].
      destruct Hd as [->|[Hd1 Hd2]]; dates; lia.
Qed.

(** ** C24 *)
Lemma region_kept region : 
  let region' := flat_map (fun kv : dpart * option (list Z) => match snd kv with Some v => [(fst kv, v)] | None => [] end) region in
  forall p v, In (p, v) region' <-> In (p, Some v) region.
Proof.
  intros region' p v. unfold region'. rewrite in_flat_map. split.
  - intros [[q [w|]] [H1 H2]]; cbn [fst snd] in H2; [destruct H2 as [E|[]]; injection E as <- <-; exact H1|destruct H2].
  - intros H. exists (p, Some v). split; [exact H|left; reflexivity].
Qed.

Lemma map_res_pure {A B} (f : A -> res B) (g : A -> B) l : (forall x, In x l -> f x = Ok (g x)) -> map_res f l = Ok (map g l).
Proof.
  induction l as [|x t IH]; intros H; [reflexivity|]. cbn [map_res map]. rewrite (H x (or_introl eq_refl)). cbn [bind]. rewrite IH; [reflexivity|].
  intros y Hy. apply H. right; exact Hy.
Qed.

Definition in_regionb (region : list (dpart * list Z)) (d : date) : bool := forallb (fun kv => z_mem (part (fst kv) d) (snd kv)) region.

Lemma region_select_values values region : (exists p v, In (p, Some v) region) ->
  exists sel, region_select (mktvar values None) region = Ok sel /\ List.length sel = List.length values /\
    forall k, nth_error sel k = Some true <-> exists d, nth_error values k = Some d /\ InRegion region d.
Proof.
  intros Hne. unfold region_select. cbn [tv_value tv_bounds]. pose proof (region_kept region) as Hk. cbv zeta in Hk.
  set (region' := flat_map _ region) in *. clearbody region'.
  destruct region' as [|kv0 rest] eqn:Er; [exfalso; destruct Hne as [p [v H]]; apply Hk in H; destruct H|]. rewrite <- Er in *. clear Er kv0 rest.
  exists (map (in_regionb region') values). split; [|split; [apply map_length|]].
  - induction values as [|d t IH]; [reflexivity|]. cbn [map combine map_res fst snd].
    rewrite (map_res_pure (fun kv => region_row d None (fst kv) (snd kv)) (fun kv => z_mem (part (fst kv) d) (snd kv))) by reflexivity.
    cbn [bind]. rewrite IH. cbn [bind]. f_equal. f_equal. unfold in_regionb. clear. induction region' as [|kv r IHr]; cbn [map forallb]; [reflexivity|]. rewrite IHr. reflexivity.
  - intros k. rewrite nth_error_map. destruct (nth_error values k) as [d|]; cbn [option_map].
    + assert (E : in_regionb region' d = true <-> InRegion region d).
      { unfold in_regionb, InRegion. rewrite forallb_forall. split.
        - intros H p v Hin. apply z_mem_spec. apply (H (p, v)). apply Hk; exact Hin.
        - intros H [p v] Hin. cbn [fst snd]. apply z_mem_spec. apply H, Hk; exact Hin. }
      split; [intros H; injection H as H; exists d; split; [reflexivity|apply E; exact H]|].
      intros [d' [Ed H]]. injection Ed as <-. f_equal. apply E; exact H.
    + split; [discriminate|intros [d [E _]]; discriminate].
Qed.

Theorem time_region_values {A} (items : list A) values region : List.length items = List.length values -> (exists p v, In (p, Some v) region) ->
  let Keep k := exists d, nth_error values k = Some d /\ InRegion region d in
  (exists r i, get_time_region items (mktvar values None) region = Ok (r, i) /\ Picks Keep items r /\ Picks Keep (zrange 0 (zlen values)) i) \/
  (get_time_region items (mktvar values None) region = Err EmptySubsetError /\ forall k, ~ Keep k).
Proof.
  intros Hl Hne Keep. destruct (region_select_values values region Hne) as [sel [E [Hs Hk]]]. unfold get_time_region. rewrite E. cbn [bind tv_value].
  destruct (existsb (fun b => b) sel) eqn:Ex; cbn [negb].
  - left. eexists _, _. split; [reflexivity|]. split.
    + eapply picks_ext; [apply picks_bool_select; congruence|]. intros k _. apply Hk.
    + eapply picks_ext; [apply picks_bool_select; rewrite zrange_length; unfold zlen; lia|]. intros k _. apply Hk.
  - right. split; [reflexivity|]. intros k Hkk. apply Hk in Hkk. apply nth_error_In in Hkk.
    assert (existsb (fun b => b) sel = true) by (apply existsb_exists; exists true; tauto). congruence.
Qed.

(** With bounds: months and years. *)
Lemma existsb_map' {A B} (f : B -> bool) (g : A -> B) l : existsb f (map g l) = existsb (fun x => f (g x)) l.
Proof. induction l as [|x t IH]; cbn [map existsb]; [reflexivity|]. rewrite IH. reflexivity. Qed.

Definition accepts (b : date * date) (kv : dpart * list Z) : bool :=
  existsb (fun e => match fst kv with
                    | PMonth => is_between_parts (dt_month (fst b)) (dt_month (snd b)) e
                    | _ => is_between_parts (dt_year (fst b)) (dt_year (snd b)) e end) (snd kv).

Theorem time_region_bounds {A} (items : list A) values bounds region : List.length items = List.length values -> List.length bounds = List.length values ->
  (exists p v, In (p, Some v) region) -> (forall p v, In (p, Some v) region -> p = PMonth \/ p = PYear) ->
  let Keep k := exists lo hi, nth_error bounds k = Some (lo, hi) /\
      (forall v, In (PMonth, Some v) region -> exists m, In m v /\ get_is_date_between lo hi (Some m) None = Ok true) /\
      (forall v, In (PYear, Some v) region -> exists y, In y v /\ get_is_date_between lo hi None (Some y) = Ok true) in
  (exists r i, get_time_region items (mktvar values (Some bounds)) region = Ok (r, i) /\ Picks Keep items r /\ Picks Keep (zrange 0 (zlen values)) i) \/
  (get_time_region items (mktvar values (Some bounds)) region = Err EmptySubsetError /\ forall k, ~ Keep k).
Proof.
  intros Hl Hb Hne Hp Keep. pose proof (region_kept region) as Hk. cbv zeta in Hk.
  assert (Hsel : exists sel, region_select (mktvar values (Some bounds)) region = Ok sel /\ List.length sel = List.length values /\
    forall k, nth_error sel k = Some true <-> Keep k).
  { unfold region_select. cbn [tv_value tv_bounds].
    set (region' := flat_map _ region) in *. clearbody region'.
    destruct region' as [|kv0 rest] eqn:Er; [exfalso; destruct Hne as [p [v H]]; apply Hk in H; destruct H|]. rewrite <- Er in *. clear Er kv0 rest.
    exists (map (fun b => forallb (accepts b) region') bounds). split; [|split; [rewrite map_length; exact Hb|]].
    - clear Keep Hl. revert values Hb. induction bounds as [|[lo hi] t IH]; intros [|d vs] Hb; try discriminate; [reflexivity|]. injection Hb as Hb.
      cbn [map combine map_res fst snd].
      rewrite (map_res_pure (fun kv => region_row d (Some (lo, hi)) (fst kv) (snd kv)) (accepts (lo, hi))).
      + cbn [bind]. rewrite IH by exact Hb. cbn [bind]. f_equal. f_equal. clear. induction region' as [|kv r IHr]; cbn [map forallb]; [reflexivity|]. rewrite IHr. reflexivity.
      + intros [p v] Hin. cbn [fst snd region_row]. apply Hk, Hp in Hin. unfold accepts; cbn [fst snd].
        rewrite (map_res_pure _ (fun e => match p with
                    | PMonth => is_between_parts (dt_month lo) (dt_month hi) e
                    | _ => is_between_parts (dt_year lo) (dt_year hi) e end)).
        * cbn [bind]. rewrite existsb_map'. reflexivity.
        * intros e _. destruct Hin as [->| ->]; reflexivity.
    - intros k. rewrite nth_error_map. unfold Keep. destruct (nth_error bounds k) as [[lo hi]|]; cbn [option_map].
      + assert (E : forallb (accepts (lo, hi)) region' = true <->
          (forall v, In (PMonth, Some v) region -> exists m, In m v /\ get_is_date_between lo hi (Some m) None = Ok true) /\
          (forall v, In (PYear, Some v) region -> exists y, In y v /\ get_is_date_between lo hi None (Some y) = Ok true)).
        { rewrite forallb_forall. split.
          - intros H. split; intros v Hin; apply Hk, H in Hin; unfold accepts in Hin; cbn [fst snd] in Hin; apply existsb_exists in Hin; destruct Hin as [e [He1 He2]];
              exists e; (split; [exact He1|]); cbn [get_is_date_between]; rewrite He2; reflexivity.
          - intros [H1 H2] [p v] Hin. apply Hk in Hin. unfold accepts; cbn [fst snd]. apply existsb_exists.
            destruct (Hp p v Hin) as [->| ->]; [destruct (H1 v Hin) as [e [He1 He2]]|destruct (H2 v Hin) as [e [He1 He2]]];
              exists e; (split; [exact He1|]); cbn [get_is_date_between] in He2; injection He2 as He2; exact He2. }
        split; [intros H; injection H as H; exists lo, hi; split; [reflexivity|apply E; exact H]|].
        intros [lo' [hi' [Eb H]]]. injection Eb as <- <-. f_equal. apply E; exact H.
      + split; [discriminate|intros [lo [hi [E _]]]; discriminate]. }
  destruct Hsel as [sel [E [Hs Hks]]]. unfold get_time_region. rewrite E. cbn [bind tv_value].
  destruct (existsb (fun b => b) sel) eqn:Ex; cbn [negb].
  - left. eexists _, _. split; [reflexivity|]. split.
    + eapply picks_ext; [apply picks_bool_select; congruence|]. intros k _. apply Hks.
    + eapply picks_ext; [apply picks_bool_select; rewrite zrange_length; unfold zlen; lia|]. intros k _. apply Hks.
  - right. split; [reflexivity|]. intros k Hkk. apply Hks in Hkk. apply nth_error_In in Hkk.
    assert (existsb (fun b => b) sel = true) by (apply existsb_exists; exists true; tauto). congruence.
Qed.

Theorem time_region_no_restriction {A} (items : list A) t region : (forall p v, ~ In (p, Some v) region) -> get_time_region items t region = Err AssertionError.
Proof.
  intros H. unfold get_time_region, region_select. pose proof (region_kept region) as Hk. cbv zeta in Hk.
  destruct (flat_map _ region) as [|[p v] r]; [reflexivity|]. exfalso. apply (H p v). apply Hk. left; reflexivity.
Qed.

(** ** C25 *)
Lemma count_months_spec : forall n month stop_month year stop_year (forward : bool) count,
  1 <= month <= 12 -> 1 <= stop_month <= 12 ->
  let diff := (12 * stop_year + stop_month) - (12 * year + month) in
  Z.of_nat n = (if forward then diff else - diff) ->
  forall extra, count_months (n + extra)%nat month stop_month year stop_year forward count = Ok (count + diff).
Proof.
  induction n as [|n IH]; intros month stop_month year stop_year forward count Hm Hs diff Hn extra.
  - assert (Hd : diff = 0) by (destruct forward; lia). unfold diff in *.
    assert (E : (month =? stop_month) && (year =? stop_year) = true) by lia.
    cbn [Nat.add]; destruct extra; cbn [count_months]; rewrite E; f_equal; lia.
  - cbn [Nat.add count_months]. assert (Hd : diff <> 0) by (destruct forward; lia).
    assert (E : (month =? stop_month) && (year =? stop_year) = false) by (unfold diff in *; lia). rewrite E.
    destruct forward.
    + destruct (Z.eqb_spec (month + 1) 13) as [Em|Em].
      * cbn [Z.eqb]. rewrite IH by (unfold diff in *; lia). f_equal. unfold diff. lia.
      * destruct (Z.eqb_spec (month + 1) 0); [lia|]. rewrite IH by (unfold diff in *; lia). f_equal. unfold diff. lia.
    + destruct (Z.eqb_spec (month - 1) 13) as [Em|Em]; [lia|]. destruct (Z.eqb_spec (month - 1) 0).
      * rewrite IH by (unfold diff in *; lia). f_equal. unfold diff. lia.
      * rewrite IH by (unfold diff in *; lia). f_equal. unfold diff. lia.
Qed.

Theorem difference_in_months_spec origin target fuel : 1 <= dt_month origin <= 12 -> 1 <= dt_month target <= 12 ->
  Z.abs (month_number target - month_number origin) <= Z.of_nat fuel ->
  get_difference_in_months fuel origin target = Ok (month_number target - month_number origin).
Proof.
  intros Ho Ht Hf. unfold get_difference_in_months, month_number in *.
  set (diff := 12 * dt_year target + dt_month target - (12 * dt_year origin + dt_month origin)) in *.
  assert (Hdir : if date_leb origin target then 0 <= diff else diff <= 0).
  { unfold date_leb. destruct (date_ltb target origin) eqn:E; cbn [negb].
    - apply date_ltb_spec in E. unfold DateLt, diff in *. lia.
    - apply date_ltb_false in E. unfold DateLe, DateLt, diff in *. lia. }
  replace fuel with (Z.to_nat (Z.abs diff) + (fuel - Z.to_nat (Z.abs diff)))%nat by lia.
  rewrite count_months_spec; [f_equal; unfold diff; lia|exact Ho|exact Ht|]. fold diff. destruct (date_leb origin target); lia.
Qed.

Lemma make_month_date_ok y m d : make_month_date y m = Ok d -> 1 <= dt_month d <= 12 /\ month_number d = 12 * y + m.
Proof.
  unfold make_month_date. destruct ((1 <=? m) && (m <=? 12)) eqn:E; [|discriminate]. intros H. injection H as <-. unfold month_number; cbn. lia.
Qed.

Lemma decode_loop_sound : forall vec om cy corr ds, decode_months_loop vec om cy corr = Ok ds ->
  Forall2 (fun v d => 1 <= dt_month d <= 12 /\ month_number d = 12 * cy - corr + om + v) vec ds.
Proof.
  induction vec as [|v t IH]; intros om cy corr ds H; cbn [decode_months_loop] in H; [injection H as <-; constructor|].
  destruct (make_month_date cy (om + v - corr)) as [d|] eqn:E.
  - destruct (decode_months_loop t om cy corr) as [r|] eqn:Er; cbn [bind] in H; [|discriminate]. injection H as <-. constructor; [|apply IH; exact Er].
    apply make_month_date_ok in E. lia.
  - destruct (make_month_date (cy + 1) (om + v - (corr + 12))) as [d|] eqn:E'; cbn [bind] in H; [|discriminate].
    destruct (decode_months_loop t om (cy + 1) (corr + 12)) as [r|] eqn:Er; cbn [bind] in H; [|discriminate]. injection H as <-. constructor.
    + apply make_month_date_ok in E'. lia.
    + apply IH in Er. eapply Forall2_imp; [|exact Er]. cbn beta. intros x y Hxy. lia.
Qed.

Lemma forall2_map_l {A B C} (R : B -> C -> Prop) (f : A -> B) : forall l l', Forall2 R (map f l) l' <-> Forall2 (fun x y => R (f x) y) l l'.
Proof.
  induction l as [|x t IH]; intros l'; cbn [map]; (split; intros H; inversion H; subst; constructor; try assumption; apply IH; assumption).
Qed.

Theorem decode_months_sound vec origin ds : decode_months vec origin = Ok ds ->
  Forall2 (fun v d => 1 <= dt_month d <= 12 /\ month_number d = month_number origin + v) vec ds.
Proof.
  destruct vec as [|v0 t]; cbn [decode_months]; [discriminate|]. set (k := if 12 <=? v0 then v0 / 12 else 0). intros H.
  apply decode_loop_sound in H. change (v0 - 12 * k :: map (fun v => v - 12 * k) t) with (map (fun v => v - 12 * k) (v0 :: t)) in H.
  apply forall2_map_l in H. eapply Forall2_imp; [|exact H]. cbn beta. intros v d [H1 H2]. unfold month_number in *. lia.
Qed.

Theorem months_round_trip vec origin ds fuel : 1 <= dt_month origin <= 12 -> decode_months vec origin = Ok ds ->
  (forall v, In v vec -> Z.abs v <= Z.of_nat fuel) -> encode_months fuel ds origin = Ok vec.
Proof.
  intros Ho H Hf. apply decode_months_sound in H. unfold encode_months. induction H as [|v d vec ds [H1 H2] HF IH]; [reflexivity|].
  cbn [map_res]. rewrite difference_in_months_spec; [|exact Ho|exact H1|specialize (Hf v (or_introl eq_refl)); lia].
  cbn [bind]. rewrite IH; [|intros w Hw; apply Hf; right; exact Hw]. cbn [bind]. f_equal. f_equal. lia.
Qed.

Lemma decode_loop_ok om : forall vec cy corr prev, NoJump prev vec -> 1 <= om + prev - corr <= 12 -> exists ds, decode_months_loop vec om cy corr = Ok ds.
Proof.
  induction vec as [|v t IH]; intros cy corr prev Hj Hp; cbn [decode_months_loop]; [eexists; reflexivity|]. destruct Hj as [Hv Hj].
  destruct (make_month_date cy (om + v - corr)) as [d|] eqn:E; unfold make_month_date in E.
  - destruct ((1 <=? om + v - corr) && (om + v - corr <=? 12)) eqn:E1; [|discriminate].
    destruct (IH cy corr v Hj) as [ds Ed]; [lia|]. rewrite Ed. cbn [bind]. eexists; reflexivity.
  - destruct ((1 <=? om + v - corr) && (om + v - corr <=? 12)) eqn:E1; [discriminate|]. unfold make_month_date.
    replace ((1 <=? om + v - (corr + 12)) && (om + v - (corr + 12) <=? 12)) with true by lia. cbn [bind].
    destruct (IH (cy + 1) (corr + 12) v Hj) as [ds Ed]; [lia|]. rewrite Ed. cbn [bind]. eexists; reflexivity.
Qed.

Lemma nojump_shift c : forall l v, NoJump v l -> NoJump (v - c) (map (fun x => x - c) l).
Proof. induction l as [|w t IH]; intros v H; cbn [map NoJump] in *; [exact I|]. destruct H as [H1 H2]. split; [lia|apply IH; exact H2]. Qed.

Theorem decode_months_ok v0 vec origin : 1 <= dt_month origin <= 12 -> 0 <= v0 -> NoJump v0 vec -> exists ds, decode_months (v0 :: vec) origin = Ok ds.
Proof.
  intros Ho Hv Hj. cbn [decode_months]. set (k := if 12 <=? v0 then v0 / 12 else 0).
  assert (Hk : 0 <= v0 - 12 * k <= 11) by (unfold k; destruct (Z.leb_spec 12 v0); lia).
  apply (decode_loop_ok (dt_month origin) (map (fun v => v - 12 * k) (v0 :: vec)) _ 0 0); [|lia].
  cbn [map NoJump]. split; [lia|]. apply nojump_shift. exact Hj.
Qed.
