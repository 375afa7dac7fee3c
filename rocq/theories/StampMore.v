From Verif Require Import Py Lib TimeModel CalcModel StampModel StampSpec.
From Coq Require Import Lia.
Local Open Scope Z_scope.

(** ** Words *)

Lemma split_nonempty : forall l, split_blank l <> [].
Proof. intros [|[d| | |c] t]; cbn [split_blank]; try discriminate; destruct (split_blank t); discriminate. Qed.

Lemma join_split : forall l, join_blank (split_blank l) = l.
Proof.
  induction l as [|c t IH]; [reflexivity|].
  pose proof (split_nonempty t) as Hn. destruct (split_blank t) as [|w ws] eqn:E; [congruence|].
  assert (forall c', c' <> Blank -> split_blank (c' :: t) = (c' :: w) :: ws) as Hc.
  { intros c' Hc'. cbn [split_blank]. rewrite E. destruct c'; congruence. }
  assert (c = Blank \/ c <> Blank) as [->|Hb] by (destruct c; (left; reflexivity) || (right; discriminate)).
  - cbn [split_blank]. rewrite E. cbn [join_blank app]. f_equal. exact IH.
  - rewrite Hc by exact Hb. destruct ws as [|w' ws'].
    + cbn [join_blank] in *. f_equal. exact IH.
    + change (join_blank ((c :: w) :: w' :: ws')) with (c :: (w ++ Blank :: join_blank (w' :: ws'))).
      f_equal. exact IH.
Qed.

Lemma split_word : forall w t, Word w -> split_blank (w ++ Blank :: t) = w :: split_blank t.
Proof.
  induction w as [|c w IH]; intros t H; [reflexivity|].
  cbn [app]. assert (Word w) as H' by (intros F; apply H; right; exact F).
  specialize (IH t H'). destruct c; cbn [split_blank]; rewrite ?IH; try reflexivity.
  exfalso. apply H. left. reflexivity.
Qed.

Lemma text_of : forall w1 w2 text, Word w1 -> Word w2 ->
  join_blank (skipn 2 (split_blank (w1 ++ Blank :: w2 ++ Blank :: text))) = text.
Proof. intros. rewrite !split_word by assumption. cbn [skipn]. apply join_split. Qed.

(** ** Matches *)

Definition digit_first (r : Z * list chr) : Prop := exists a t, snd r = Dig a :: t.
Definition no_digit (l : list chr) : Prop := forall a t, l <> Dig a :: t.

Ltac enumerate n lo hi :=
  let rec go k := (destruct (Z.eq_dec n k) as [->|?];
    [|let k' := eval vm_compute in (k + 1) in
      let stop := eval vm_compute in (hi <? k') in
      match stop with true => exfalso; lia | false => go k' end]) in go lo.

Lemma no_digit_one : forall f a l, no_digit l -> p_two f (Dig a :: l) = [].
Proof. intros f a [|[d| | |c] t] H; try reflexivity. exfalso. exact (H d t eq_refl). Qed.

Lemma month_match : forall m lm rest, OneOrTwo m lm -> 1 <= m <= 12 -> no_digit rest ->
  exists others, p_month (lm ++ rest) = (m, rest) :: others /\ Forall digit_first others.
Proof.
  intros m lm rest H Hm Hr. destruct H as [n H|n H].
  - cbn [app two]. enumerate n 1 12; (eexists; split; [reflexivity|]); repeat constructor; try (eexists; eexists; reflexivity).
  - cbn [app]. unfold p_month. rewrite !no_digit_one by exact Hr. cbn [app p_one].
    destruct (Z.leb_spec 1 n); [|lia]. eexists. split; [reflexivity|constructor].
Qed.

Lemma day_match : forall d ld rest, DayText d ld -> 1 <= d <= 31 -> no_digit rest ->
  exists others, p_day (ld ++ rest) = (d, rest) :: others /\ Forall digit_first others.
Proof.
  intros d ld rest [H|[H ->]] Hd Hr.
  - destruct H as [n H|n H].
    + cbn [app two]. enumerate n 1 31; (eexists; split; [reflexivity|]); repeat constructor; try (eexists; eexists; reflexivity).
    + cbn [app]. unfold p_day. rewrite !no_digit_one by exact Hr. cbn [app p_one].
      destruct (Z.leb_spec 1 n); [|lia]. eexists. split; [reflexivity|constructor].
  - cbn [app]. unfold p_day, p_two, p_one. cbn [app]. destruct (Z.leb_spec 1 d); [|lia].
    eexists. split; [reflexivity|constructor].
Qed.

Lemma hour_match : forall h lh, OneOrTwo h lh -> 0 <= h <= 23 -> exists others, p_hour lh = (h, []) :: others.
Proof.
  intros h lh H Hh. destruct H as [n H|n H].
  - unfold two. enumerate n 0 23; eexists; reflexivity.
  - eexists. reflexivity.
Qed.

Lemma blanks_match : forall blanks rest, blanks <> [] -> Forall (eq Blank) blanks ->
  (forall t, rest <> Blank :: t) ->
  exists others, p_blanks (blanks ++ rest) = (0, rest) :: others /\ Forall (fun r => exists t, snd r = Blank :: t) others.
Proof.
  induction blanks as [|b bs IH]; intros rest Hn Hb Hr; [congruence|]. inversion Hb as [|? ? E Hb']; subst.
  cbn [app p_blanks]. destruct bs as [|b' bs'].
  - cbn [app]. assert (p_blanks rest = []) as ->.
    { destruct rest as [|[d| | |c] t]; try reflexivity. exfalso. exact (Hr t eq_refl). }
    exists []. split; [reflexivity|constructor].
  - destruct (IH rest) as [o [Eo Ho]]; [discriminate|exact Hb'|exact Hr|]. rewrite Eo.
    eexists. split; [reflexivity|]. apply Forall_app. split; [exact Ho|]. constructor; [|constructor].
    inversion Hb'; subst. eexists. reflexivity.
Qed.

Lemma flat_first : forall {A B} (f : A -> list B) x others, (forall r, In r others -> f r = []) ->
  flat_map f (x :: others) = f x.
Proof.
  intros A B f x others H. cbn [flat_map].
  assert (flat_map f others = []) as ->; [|apply app_nil_r].
  induction others as [|y t IH]; [reflexivity|]. cbn [flat_map]. rewrite H by (left; reflexivity). apply IH.
  intros r Hr. apply H. right. exact Hr.
Qed.

Lemma year_four : forall y rest, 0 <= y <= 9999 -> p_year (four y ++ rest) = [(y, rest)].
Proof.
  intros y rest H. cbn [four app p_year]. repeat f_equal.
  pose proof (Z.div_mod y 10 ltac:(lia)). pose proof (Z.div_mod (y / 10) 10 ltac:(lia)).
  pose proof (Z.div_mod (y / 100) 10 ltac:(lia)).
  assert (y / 10 / 10 = y / 100) by (apply Z.div_div; lia). assert (y / 100 / 10 = y / 1000) by (apply Z.div_div; lia).
  lia.
Qed.

Lemma dash_no_digit : forall l, no_digit (Dash :: l).
Proof. intros l a t H. discriminate. Qed.
Lemma nil_no_digit : no_digit [].
Proof. intros a t H. discriminate. Qed.

Lemma make_ok : forall x, HourOfDay x -> dt_minute x = 0 -> dt_second x = 0 ->
  make_datetime (dt_year x) (dt_month x) (dt_day x) (dt_hour x) = Ok x.
Proof.
  intros [y m d h mi s] [Hy [[H1 [H2 H3]] Hh]] Hm Hs. cbn in *. subst. unfold make_datetime.
  destruct (Z.leb_spec 1 y); [|lia]. destruct (Z.leb_spec y 9999); [|lia].
  destruct (Z.leb_spec 1 m); [|lia]. destruct (Z.leb_spec m 12); [|lia].
  destruct (Z.leb_spec 1 d); [|lia]. destruct (Z.leb_spec d (days_in_month y m)); [|lia].
  destruct (Z.leb_spec 0 h); [|lia]. destruct (Z.leb_spec h 23); [|lia]. reflexivity.
Qed.

Lemma make_sound : forall y m d h x, make_datetime y m d h = Ok x -> x = mkdate y m d h 0 0 /\ HourOfDay x.
Proof.
  intros y m d h x H. unfold make_datetime in H.
  destruct (_ && _) eqn:E in H; [|discriminate]. inversion H; subst. split; [reflexivity|].
  repeat (apply andb_true_iff in E; destruct E as [E ?]).
  repeat match goal with K : (_ <=? _) = true |- _ => apply Z.leb_le in K end.
  unfold HourOfDay, Day. cbn [dt_year dt_month dt_day dt_hour]. lia.
Qed.

Lemma format_month_first : forall y m lm rest, 0 <= y <= 9999 -> OneOrTwo m lm -> 1 <= m <= 12 -> no_digit rest ->
  exists others, format_month (four y ++ [Dash] ++ lm ++ rest) = ((y, m, 1, 0), rest) :: others.
Proof.
  intros y m lm rest Hy Hl Hm Hr. unfold format_month, p_then at 1. rewrite year_four by exact Hy. cbn [flat_map fst snd].
  unfold p_then at 1. cbn [app p_dash flat_map fst snd].
  destruct (month_match m lm rest Hl Hm Hr) as [o [E _]]. unfold p_then. rewrite E. cbn [flat_map fst snd p_return app].
  eexists. reflexivity.
Qed.

Lemma format_hour_first : forall y m d h lm ld lh blanks, 0 <= y <= 9999 ->
  OneOrTwo m lm -> 1 <= m <= 12 -> DayText d ld -> 1 <= d <= 31 -> OneOrTwo h lh -> 0 <= h <= 23 ->
  blanks <> [] -> Forall (eq Blank) blanks ->
  exists others, format_hour (four y ++ [Dash] ++ lm ++ [Dash] ++ ld ++ blanks ++ lh) = ((y, m, d, h), []) :: others.
Proof.
  intros y m d h lm ld lh blanks Hy Hlm Hm Hld Hd Hlh Hh Hb Hb'.
  unfold format_hour. unfold p_then at 1. rewrite year_four by exact Hy. cbn [flat_map fst snd]. rewrite app_nil_r.
  unfold p_then at 1. cbn [app p_dash flat_map fst snd]. rewrite app_nil_r.
  destruct (month_match m lm (Dash :: ld ++ blanks ++ lh) Hlm Hm (dash_no_digit _)) as [o [E Ho]].
  unfold p_then at 1. rewrite E. rewrite flat_first.
  2: { intros r Hr. rewrite Forall_forall in Ho. destruct (Ho r Hr) as [a [t Et]]. rewrite Et. reflexivity. }
  cbn [fst snd]. unfold p_then at 1. cbn [p_dash flat_map fst snd]. rewrite app_nil_r.
  assert (no_digit (blanks ++ lh)) as Hnd.
  { destruct blanks as [|b bs]; [congruence|]. inversion Hb'; subst. intros a t F. discriminate. }
  destruct (day_match d ld (blanks ++ lh) Hld Hd Hnd) as [o2 [E2 Ho2]].
  unfold p_then at 1. rewrite E2. rewrite flat_first.
  2: { intros r Hr. rewrite Forall_forall in Ho2. destruct (Ho2 r Hr) as [a [t Et]]. rewrite Et. reflexivity. }
  cbn [fst snd].
  assert (forall t, lh <> Blank :: t) as Hlb.
  { intros t F. destruct Hlh; [unfold two in F|]; discriminate. }
  destruct (blanks_match blanks lh Hb Hb' Hlb) as [o3 [E3 Ho3]].
  unfold p_then at 1. rewrite E3. rewrite flat_first.
  2: { intros r Hr. rewrite Forall_forall in Ho3. destruct (Ho3 r Hr) as [t Et]. rewrite Et. reflexivity. }
  cbn [fst snd]. destruct (hour_match h lh Hlh Hh) as [o4 E4]. unfold p_then. rewrite E4. cbn [flat_map fst snd p_return app].
  eexists. reflexivity.
Qed.

Lemma day_31 : forall y m d, Day y m d -> d <= 31.
Proof.
  intros y m d [_ [_ H]]. unfold days_in_month in H.
  destruct (m =? 2); [destruct (is_leap y); lia|]. destruct ((m =? 4) || (m =? 6) || (m =? 9) || (m =? 11)); lia.
Qed.

Lemma read_complete : forall python3 w1 w2 text x, Word w1 -> Word w2 -> Writing text x -> HourOfDay x ->
  months_origin python3 (w1 ++ Blank :: w2 ++ Blank :: text) = Ok x.
Proof.
  intros python3 w1 w2 text x H1 H2 HW HV. unfold months_origin. rewrite text_of by assumption.
  pose proof HV as [Hy [HD Hh]]. pose proof (day_31 _ _ _ HD) as H31. destruct HD as [Hd1 [Hd2 Hd3]].
  destruct HW as [y m lm Hlm|y m d h lm ld lh blanks Hlm Hld Hlh Hb Hb']; cbn [dt_year dt_month dt_day dt_hour] in *.
  - destruct (format_month_first y m lm [] ltac:(lia) Hlm Hd2 nil_no_digit) as [o E]. rewrite app_nil_r in E.
    unfold strptime at 1. rewrite E. pose proof (make_ok _ HV eq_refl eq_refl) as M. cbn [dt_year dt_month dt_day dt_hour] in M.
    rewrite M. reflexivity.
  - destruct (format_month_first y m lm ([Dash] ++ ld ++ blanks ++ lh) ltac:(lia) Hlm Hd2 (dash_no_digit _)) as [o E].
    unfold strptime at 1. rewrite E. cbn [app].
    destruct (format_hour_first y m d h lm ld lh blanks ltac:(lia) Hlm Hd2 Hld ltac:(lia) Hlh Hh Hb Hb') as [o' E'].
    unfold strptime. cbn [app] in E'. rewrite E'. pose proof (make_ok _ HV eq_refl eq_refl) as M. cbn [dt_year dt_month dt_day dt_hour] in M.
    rewrite M. reflexivity.
Qed.

(** ** What is read was written *)

Lemma year_in : forall l y r, Wellformed l -> In (y, r) (p_year l) -> l = four y ++ r.
Proof.
  intros l y r W H. destruct l as [|[a| | |k1] [|[b| | |k2] [|[c'| | |k3] [|[d| | |k4] t]]]]; try contradiction.
  destruct H as [H|[]].
  pose proof (f_equal fst H) as E1. pose proof (f_equal snd H) as E2. clear H. cbn [fst snd] in E1, E2. rewrite <- E1, <- E2. clear E1 E2.
  pose proof (W a ltac:(left; reflexivity)). pose proof (W b ltac:(right; left; reflexivity)).
  pose proof (W c' ltac:(do 2 right; left; reflexivity)). pose proof (W d ltac:(do 3 right; left; reflexivity)).
  unfold four. cbn [app].
  assert ((1000 * a + 100 * b + 10 * c' + d) / 1000 = a) as -> by (symmetry; apply Z.div_unique with (100 * b + 10 * c' + d); lia).
  assert ((1000 * a + 100 * b + 10 * c' + d) / 100 = 10 * a + b) as -> by (symmetry; apply Z.div_unique with (10 * c' + d); lia).
  assert ((1000 * a + 100 * b + 10 * c' + d) / 10 = 100 * a + 10 * b + c') as -> by (symmetry; apply Z.div_unique with d; lia).
  assert ((1000 * a + 100 * b + 10 * c' + d) mod 10 = d) as -> by (symmetry; apply Z.mod_unique with (100 * a + 10 * b + c'); lia).
  assert ((10 * a + b) mod 10 = b) as -> by (symmetry; apply Z.mod_unique with a; lia).
  assert ((100 * a + 10 * b + c') mod 10 = c') as -> by (symmetry; apply Z.mod_unique with (10 * a + b); lia).
  reflexivity.
Qed.

Lemma two_in : forall f l n r, Wellformed l -> In (n, r) (p_two f l) -> exists lm, OneOrTwo n lm /\ l = lm ++ r.
Proof.
  intros f l n r W H. destruct l as [|[a| | |k1] [|[b| | |k2] t]]; try contradiction. cbn [p_two] in H.
  destruct (f a b); [|contradiction]. destruct H as [H|[]].
  pose proof (f_equal fst H) as E1. pose proof (f_equal snd H) as E2. clear H. cbn [fst snd] in E1, E2. rewrite <- E1, <- E2. clear E1 E2.
  pose proof (W a ltac:(left; reflexivity)). pose proof (W b ltac:(right; left; reflexivity)).
  exists (two (10 * a + b)). split; [constructor; lia|]. unfold two. cbn [app].
  assert ((10 * a + b) / 10 = a) as -> by (symmetry; apply Z.div_unique with b; lia).
  assert ((10 * a + b) mod 10 = b) as -> by (symmetry; apply Z.mod_unique with a; lia).
  reflexivity.
Qed.

Lemma one_in : forall f l n r, Wellformed l -> In (n, r) (p_one f l) -> exists lm, OneOrTwo n lm /\ l = lm ++ r /\ lm = [Dig n].
Proof.
  intros f l n r W H. destruct l as [|[a| | |c] t]; try contradiction. cbn [p_one] in H.
  destruct (f a); [|contradiction]. destruct H as [H|[]]. inversion H; subst.
  pose proof (W n ltac:(left; reflexivity)).
  exists [Dig n]. split; [apply one_digit; lia|]. split; reflexivity.
Qed.

Lemma one_in' : forall f l n r, Wellformed l -> In (n, r) (p_one f l) -> exists lm, OneOrTwo n lm /\ l = lm ++ r.
Proof. intros f l n r W H. destruct (one_in f l n r W H) as [lm [A [B _]]]. eauto. Qed.

Lemma month_in : forall l n r, Wellformed l -> In (n, r) (p_month l) -> exists lm, OneOrTwo n lm /\ l = lm ++ r.
Proof.
  intros l n r W H. unfold p_month in H. rewrite !in_app_iff in H.
  destruct H as [H|[H|H]]; [eapply two_in|eapply two_in|eapply one_in']; eassumption.
Qed.

Lemma hour_in : forall l n r, Wellformed l -> In (n, r) (p_hour l) -> exists lm, OneOrTwo n lm /\ l = lm ++ r.
Proof.
  intros l n r W H. unfold p_hour in H. rewrite !in_app_iff in H.
  destruct H as [H|[H|H]]; [eapply two_in|eapply two_in|eapply one_in']; eassumption.
Qed.

Lemma day_in : forall l n r, Wellformed l -> In (n, r) (p_day l) -> exists ld, DayText n ld /\ l = ld ++ r.
Proof.
  intros l n r W H. unfold p_day in H. rewrite !in_app_iff in H.
  assert (forall ld, OneOrTwo n ld /\ l = ld ++ r -> exists ld, DayText n ld /\ l = ld ++ r) as K.
  { intros ld [A B]. exists ld. split; [left; exact A|exact B]. }
  destruct H as [H|[H|[H|[H|H]]]].
  - destruct (two_in _ _ _ _ W H) as [ld X]. exact (K ld X).
  - destruct (two_in _ _ _ _ W H) as [ld X]. exact (K ld X).
  - destruct (two_in _ _ _ _ W H) as [ld X]. exact (K ld X).
  - destruct (one_in' _ _ _ _ W H) as [ld X]. exact (K ld X).
  - destruct l as [|[a| | |c] t]; try contradiction.
    assert (Wellformed t) as W' by (intros d Hd; apply W; right; exact Hd).
    destruct (one_in _ _ _ _ W' H) as [ld [A [B C]]]. subst. cbn [app].
    exists [Blank; Dig n]. split; [|reflexivity]. right. split; [|reflexivity].
    pose proof (W n ltac:(right; left; reflexivity)). lia.
Qed.

Lemma dash_in : forall l n r, In (n, r) (p_dash l) -> l = Dash :: r.
Proof. intros [|[a| | |c] t] n r H; try contradiction. destruct H as [H|[]]. inversion H; subst. reflexivity. Qed.

Lemma blanks_in : forall l n r, In (n, r) (p_blanks l) ->
  exists blanks, blanks <> [] /\ Forall (eq Blank) blanks /\ l = blanks ++ r.
Proof.
  induction l as [|[a| | |c] t IH]; intros n r H; try contradiction. cbn [p_blanks] in H. apply in_app_iff in H.
  destruct H as [H|[H|[]]].
  - destruct (IH n r H) as [b [A [B C]]]. exists (Blank :: b). split; [discriminate|]. split; [constructor; auto|].
    rewrite C. reflexivity.
  - inversion H; subst. exists [Blank]. split; [discriminate|]. split; [repeat constructor|reflexivity].
Qed.

Lemma then_in : forall {A B} (p : parser A) (q : A -> parser B) l b r, In (b, r) (p_then p q l) ->
  exists a r', In (a, r') (p l) /\ In (b, r) (q a r').
Proof.
  intros A B p q l b r H. unfold p_then in H. apply in_flat_map in H. destruct H as [[a r'] [H1 H2]]. eauto.
Qed.

Lemma wf_app : forall a b, Wellformed (a ++ b) -> Wellformed b.
Proof. intros a b W d H. apply W. apply in_app_iff. right. exact H. Qed.
Lemma wf_tail : forall c b, Wellformed (c :: b) -> Wellformed b.
Proof. intros c b W d H. apply W. right. exact H. Qed.

Lemma read_sound : forall python3 w1 w2 text x, Word w1 -> Word w2 -> Wellformed text ->
  months_origin python3 (w1 ++ Blank :: w2 ++ Blank :: text) = Ok x -> Writing text x /\ HourOfDay x.
Proof.
  intros python3 w1 w2 text x H1 H2 W H. unfold months_origin in H. rewrite text_of in H by assumption.
  assert (forall format, strptime format text = Ok x -> exists y m d h,
    In ((y, m, d, h), []) (format text) /\ make_datetime y m d h = Ok x) as P.
  { intros format E. unfold strptime in E. destruct (format text) as [|[[[[y m] d] h] r] t]; [discriminate|].
    destruct r; [|discriminate]. exists y, m, d, h. split; [left; reflexivity|exact E]. }
  destruct (strptime format_month text) eqn:E.
  - inversion H; subst. destruct (P _ E) as [y [m [d [h [Hi Hm]]]]]. clear P. apply make_sound in Hm. destruct Hm as [-> HV].
    split; [|exact HV].
    apply then_in in Hi. destruct Hi as [y' [r1 [I1 Hi]]]. apply then_in in Hi. destruct Hi as [z [r2 [I2 Hi]]].
    apply then_in in Hi. destruct Hi as [m' [r3 [I3 Hi]]]. destruct Hi as [Hi|[]]. inversion Hi; subst.
    apply year_in in I1; [|exact W]. subst text. apply wf_app in W. apply dash_in in I2. subst r1. apply wf_tail in W.
    apply month_in in I3; [|exact W]. destruct I3 as [lm [Hl ->]]. rewrite app_nil_r. exact (month_writing y m lm Hl).
  - destruct (strptime format_hour text) eqn:E'; [|discriminate].
    inversion H; subst. destruct (P _ E') as [y [m [d [h [Hi Hm]]]]]. clear P. apply make_sound in Hm. destruct Hm as [-> HV].
    split; [|exact HV].
    apply then_in in Hi. destruct Hi as [y' [r1 [I1 Hi]]]. apply then_in in Hi. destruct Hi as [z [r2 [I2 Hi]]].
    apply then_in in Hi. destruct Hi as [m' [r3 [I3 Hi]]]. apply then_in in Hi. destruct Hi as [z2 [r4 [I4 Hi]]].
    apply then_in in Hi. destruct Hi as [d' [r5 [I5 Hi]]]. apply then_in in Hi. destruct Hi as [z3 [r6 [I6 Hi]]].
    apply then_in in Hi. destruct Hi as [h' [r7 [I7 Hi]]]. destruct Hi as [Hi|[]]. inversion Hi; subst.
    apply year_in in I1; [|exact W]. subst text. apply wf_app in W. apply dash_in in I2. subst r1. apply wf_tail in W.
    apply month_in in I3; [|exact W]. destruct I3 as [lm [Hl ->]]. apply wf_app in W.
    apply dash_in in I4. subst r3. apply wf_tail in W. apply day_in in I5; [|exact W]. destruct I5 as [ld [Hld ->]].
    apply wf_app in W. apply blanks_in in I6. destruct I6 as [b [B1 [B2 ->]]]. apply wf_app in W.
    apply hour_in in I7; [|exact W]. destruct I7 as [lh [Hlh ->]]. rewrite app_nil_r.
    exact (hour_writing y m d h lm ld lh b Hl Hld Hlh B1 B2).
Qed.

Lemma refused : forall python3 w1 w2 text, Word w1 -> Word w2 -> Wellformed text -> (forall x, ~ Writing text x) ->
  months_origin python3 (w1 ++ Blank :: w2 ++ Blank :: text) = Err (if python3 then NameError else ValueError).
Proof.
  intros python3 w1 w2 text H1 H2 W N.
  destruct (months_origin python3 (w1 ++ Blank :: w2 ++ Blank :: text)) as [x|e] eqn:E.
  - exfalso. apply (N x). exact (proj1 (read_sound _ _ _ _ _ H1 H2 W E)).
  - unfold months_origin in E. rewrite text_of in E by assumption. destruct (strptime format_month text); [discriminate|].
    destruct (strptime format_hour text); [discriminate|]. symmetry. exact E.
Qed.

Lemma chr_dec : forall a b : chr, {a = b} + {a <> b}.
Proof. decide equality; apply Z.eq_dec. Defined.

Lemma one_or_two_chars : forall n l c, OneOrTwo n l -> In c l -> exists d, c = Dig d.
Proof. intros n l c H Hc. destruct H; [unfold two in Hc|]; cbn [In] in Hc; intuition (subst; eauto). Qed.

Lemma day_text_chars : forall n l c, DayText n l -> In c l -> c = Blank \/ exists d, c = Dig d.
Proof.
  intros n l c [H|[_ ->]] Hc; [right; eapply one_or_two_chars; eassumption|]. cbn [In] in Hc. intuition (subst; eauto).
Qed.

Lemma writing_chars : forall l x c, Writing l x -> In c l -> forall k, c <> Other k.
Proof.
  intros l x c H Hc k ->. destruct H as [y m lm Hl|y m d h lm ld lh b Hl Hld Hlh B1 B2]; rewrite ?in_app_iff in Hc.
  - destruct Hc as [Hc|[Hc|Hc]].
    + cbn [four In] in Hc. intuition discriminate.
    + cbn [In] in Hc. intuition discriminate.
    + destruct (one_or_two_chars _ _ _ Hl Hc). discriminate.
  - destruct Hc as [Hc|[Hc|[Hc|[Hc|[Hc|[Hc|Hc]]]]]].
    + cbn [four In] in Hc. intuition discriminate.
    + cbn [In] in Hc. intuition discriminate.
    + destruct (one_or_two_chars _ _ _ Hl Hc). discriminate.
    + cbn [In] in Hc. intuition discriminate.
    + destruct (day_text_chars _ _ _ Hld Hc) as [|[? ?]]; discriminate.
    + rewrite Forall_forall in B2. specialize (B2 _ Hc). discriminate.
    + destruct (one_or_two_chars _ _ _ Hlh Hc). discriminate.
Qed.

Lemma day_only : forall y m d lm ld x, OneOrTwo m lm -> OneOrTwo d ld -> ~ Writing (four y ++ [Dash] ++ lm ++ [Dash] ++ ld) x.
Proof.
  intros y m d lm ld x Hm Hd H.
  remember (four y ++ [Dash] ++ lm ++ [Dash] ++ ld) as l eqn:E.
  assert (forall n l, OneOrTwo n l -> count_occ chr_dec l Dash = 0%nat) as C0.
  { intros n l0 H0. apply count_occ_not_In. intros F. destruct (one_or_two_chars _ _ _ H0 F). discriminate. }
  assert (forall z, count_occ chr_dec (four z) Dash = 0%nat) as C4 by (intros z; reflexivity).
  destruct H as [y' m' lm' Hl|y' m' d' h lm' ld' lh b Hl Hld Hlh B1 B2].
  - apply (f_equal (fun l => count_occ chr_dec l Dash)) in E. rewrite !count_occ_app, !C4 in E.
    rewrite (C0 _ _ Hl), (C0 _ _ Hm), (C0 _ _ Hd) in E. cbn in E. discriminate.
  - assert (In Blank (four y ++ [Dash] ++ lm ++ [Dash] ++ ld)) as F.
    { rewrite <- E. rewrite !in_app_iff. destruct b as [|c b]; [congruence|]. inversion B2; subst.
      do 5 right. left. left. reflexivity. }
    rewrite !in_app_iff in F. destruct F as [F|[F|[F|[F|F]]]].
    + cbn [four In] in F. intuition discriminate.
    + cbn [In] in F. intuition discriminate.
    + destruct (one_or_two_chars _ _ _ Hm F). discriminate.
    + cbn [In] in F. intuition discriminate.
    + destruct (one_or_two_chars _ _ _ Hd F). discriminate.
Qed.
