(** Proofs about resolutions and periodic grids. *)
From Verif Require Import Py Lib Spec PeriodModel PeriodSpec.

Lemma regular_length d n : forall a, List.length (regular a d n) = n.
Proof. induction n as [|n IH]; intros a; cbn [regular List.length]; [reflexivity|]. rewrite IH. reflexivity. Qed.
Lemma regular_app d k : forall j a, regular a d (j + k) = (regular a d j ++ regular (a + Z.of_nat j * d) d k)%list.
Proof.
  induction j as [|j IH]; intros a.
  - cbn [regular app Nat.add]. f_equal. lia.
  - cbn [regular app Nat.add]. rewrite IH. f_equal. f_equal. f_equal. lia.
Qed.
Lemma regular_firstn d : forall n k a, firstn k (regular a d n) = regular a d (Nat.min k n).
Proof. induction n as [|n IH]; intros [|k] a; cbn [regular firstn Nat.min]; try reflexivity. rewrite IH. reflexivity. Qed.
Lemma regular_skipn d : forall n k a, (k <= n)%nat -> skipn k (regular a d n) = regular (a + Z.of_nat k * d) d (n - k).
Proof.
  induction n as [|n IH]; intros [|k] a H.
  - reflexivity.
  - lia.
  - cbn [skipn Nat.sub]. f_equal. lia.
  - cbn [regular skipn Nat.sub]. rewrite IH by lia. f_equal. lia.
Qed.
Lemma regular_in d : forall n a x, In x (regular a d n) -> exists i, (i < n)%nat /\ x = a + Z.of_nat i * d.
Proof.
  induction n as [|n IH]; intros a x H; [destruct H|]. destruct H as [<-|H]; [exists O; split; [lia|lia]|]. destruct (IH _ _ H) as [i [Hi ->]]. exists (S i). split; [lia|]. lia.
Qed.

Lemma min_regular d : 0 < d -> forall n c a, c <= a -> list_min c (regular a d n) = c.
Proof.
  intros Hd. unfold list_min. induction n as [|n IH]; intros c a H; [reflexivity|]. cbn [regular fold_left]. replace (Z.min c a) with c by lia. apply IH. lia.
Qed.
Lemma max_regular d : 0 < d -> forall n a, list_max a (regular (a + d) d n) = a + Z.of_nat n * d.
Proof.
  intros Hd. unfold list_max. induction n as [|n IH]; intros a; [cbn; lia|]. cbn [regular fold_left]. replace (Z.max a (a + d)) with (a + d) by lia. rewrite IH. lia.
Qed.

Lemma filter_all {A} (p : A -> bool) l : (forall x, In x l -> p x = true) -> filter p l = l.
Proof. induction l as [|x t IH]; intros H; [reflexivity|]. cbn [filter]. rewrite H by (left; reflexivity). f_equal. apply IH. intros y Hy. apply H. right; exact Hy. Qed.
Lemma filter_nothing {A} (p : A -> bool) l : (forall x, In x l -> p x = false) -> filter p l = [].
Proof. induction l as [|x t IH]; intros H; [reflexivity|]. cbn [filter]. rewrite H by (left; reflexivity). apply IH. intros y Hy. apply H. right; exact Hy. Qed.

(** ** Steps *)
Lemma zsum_repeat d n : zsum (repeat d n) = Z.of_nat n * d.
Proof. induction n as [|n IH]; [reflexivity|]. cbn [repeat]. rewrite zsum_cons, IH. lia. Qed.

Lemma steps_nonneg d : 0 < d -> forall n a, 0 <= a -> abs_steps (regular a d n) = repeat d (n - 1).
Proof.
  intros Hd. induction n as [|n IH]; intros a Ha; [reflexivity|]. destruct n as [|n]; [reflexivity|]. cbn [regular]. cbn [abs_steps].
  replace (S (S n) - 1)%nat with (S (S n - 1)) by lia. cbn [repeat]. f_equal; [lia|]. specialize (IH (a + d) ltac:(lia)). cbn [regular] in IH. exact IH.
Qed.
Lemma steps_neg d : 0 < d -> forall n a, last_of a d n <= 0 -> abs_steps (regular a d n) = repeat d (n - 1).
Proof.
  intros Hd. unfold last_of. induction n as [|n IH]; intros a Ha; [reflexivity|]. destruct n as [|n]; [reflexivity|]. cbn [regular]. cbn [abs_steps].
  replace (S (S n) - 1)%nat with (S (S n - 1)) by lia. cbn [repeat]. f_equal; [nia|]. specialize (IH (a + d) ltac:(lia)). cbn [regular] in IH. exact IH.
Qed.
Lemma steps_mixed d : 0 < d -> forall j k a, a + Z.of_nat j * d < 0 -> 0 <= a + (Z.of_nat j + 1) * d ->
  abs_steps (regular a d (S j + S k)) = (repeat d j ++ Z.abs (2 * (a + (Z.of_nat j + 1) * d) - d) :: repeat d k)%list.
Proof.
  intros Hd. induction j as [|j IH]; intros k a H1 H2.
  - cbn [Nat.add regular]. cbn [abs_steps]. cbn [repeat app]. f_equal; [lia|].
    pose proof (steps_nonneg d Hd (S k) (a + d) ltac:(lia)) as E. cbn [regular] in E. etransitivity; [exact E|]. f_equal. lia.
  - replace (S (S j) + S k)%nat with (S (S j + S k)) by lia. cbn [regular]. specialize (IH k (a + d) ltac:(lia) ltac:(lia)).
    replace (S j + S k)%nat with (S (j + S k)) in * by lia. cbn [regular] in IH |- *. cbn [abs_steps]. cbn [repeat app]. f_equal; [nia|]. etransitivity; [exact IH|]. f_equal. f_equal. f_equal. lia.
Qed.

(** ** Resolution *)
Lemma resolution_some n a d t : (2 <= n)%nat -> abs_steps (firstn resolution_limit (regular a d n)) = t -> t <> [] ->
  array_resolution (regular a d n) = Some (zsum t, zlen t).
Proof.
  intros Hn E Ht. destruct n as [|[|n]]; [lia|lia|]. cbn [regular] in E |- *. unfold array_resolution. rewrite E. destruct t; [congruence|reflexivity].
Qed.
Lemma limit_pos : exists l, resolution_limit = S (S (S l)).
Proof. exists 97%nat. reflexivity. Qed.

Lemma resolution_flat a d n t m : (2 <= n)%nat -> Nat.min resolution_limit n = m -> abs_steps (regular a d m) = repeat d t -> t = (m - 1)%nat ->
  array_resolution (regular a d n) = Some (Z.of_nat t * d, Z.of_nat t) /\ (1 <= t)%nat.
Proof.
  intros Hn Hm E ->. destruct limit_pos as [l Hl]. assert (2 <= m)%nat by lia. split; [|lia].
  rewrite (resolution_some n a d (repeat d (m - 1)) Hn).
  - rewrite zsum_repeat. unfold zlen. rewrite repeat_length. reflexivity.
  - rewrite regular_firstn, Hm. exact E.
  - destruct m as [|[|m]]; [lia|lia|]. cbn. discriminate.
Qed.

Lemma resolution_nonneg a d n : 0 < d -> 0 <= a -> (2 <= n)%nat -> exists t, (1 <= t)%nat /\ array_resolution (regular a d n) = Some (Z.of_nat t * d, Z.of_nat t).
Proof.
  intros Hd Ha Hn. set (m := Nat.min resolution_limit n). destruct (resolution_flat a d n (m - 1) m Hn eq_refl (steps_nonneg d Hd m a Ha) eq_refl) as [E H]. exists (m - 1)%nat. split; [exact H|exact E].
Qed.
Lemma resolution_neg a d n : 0 < d -> last_of a d n <= 0 -> (2 <= n)%nat -> exists t, (1 <= t)%nat /\ array_resolution (regular a d n) = Some (Z.of_nat t * d, Z.of_nat t).
Proof.
  intros Hd Ha Hn. set (m := Nat.min resolution_limit n). destruct (resolution_flat a d n (m - 1) m Hn eq_refl) with (1 := steps_neg d Hd m a ltac:(unfold last_of in *; subst m; nia)) as [E H]; [reflexivity|].
  exists (m - 1)%nat. split; [exact H|exact E].
Qed.

(** The first column that is not negative. *)
Lemma crossing a d n : 0 < d -> a < 0 -> 0 <= last_of a d n -> exists j k, n = (S j + S k)%nat /\ a + Z.of_nat j * d < 0 /\ 0 <= a + (Z.of_nat j + 1) * d.
Proof.
  intros Hd Ha Hl. unfold last_of in Hl. set (q := (- a - 1) / d).
  assert (Hq : 0 <= q /\ a + q * d < 0 /\ 0 <= a + (q + 1) * d).
  { pose proof (Z.div_mod (- a - 1) d ltac:(lia)) as E. pose proof (Z.mod_pos_bound (- a - 1) d Hd) as B. fold q in E. split; [apply Z.div_pos; lia|]. split; nia. }
  destruct Hq as [Q0 [Q1 Q2]]. exists (Z.to_nat q), (n - S (S (Z.to_nat q)))%nat. rewrite Z2Nat.id by exact Q0. split; [|split; [exact Q1|exact Q2]].
  assert (q + 1 < Z.of_nat n) by nia. lia.
Qed.

Lemma resolution_mixed a d n : 0 < d -> a < 0 -> 0 <= last_of a d n ->
  exists j k p s t, n = (S j + S k)%nat /\ p = a + (Z.of_nat j + 1) * d /\ 0 <= p < d /\
    array_resolution (regular a d n) = Some (s, Z.of_nat t) /\ (1 <= t)%nat /\ s <= Z.of_nat t * d /\
    ((resolution_limit <= S j)%nat -> s = Z.of_nat t * d) /\ ((S j < resolution_limit)%nat -> s = (Z.of_nat t - 1) * d + Z.abs (2 * p - d)) /\
    t = (Nat.min resolution_limit n - 1)%nat.
Proof.
  intros Hd Ha Hl. destruct (crossing a d n Hd Ha Hl) as [j [k [-> [H1 H2]]]]. exists j, k, (a + (Z.of_nat j + 1) * d). destruct limit_pos as [l El].
  assert (Hp : 0 <= a + (Z.of_nat j + 1) * d < d) by lia.
  destruct (Nat.lt_ge_cases (S j) resolution_limit) as [L|L].
  - set (m := Nat.min resolution_limit (S j + S k)). set (k' := (m - S j - 1)%nat). assert (Em : m = (S j + S k')%nat) by lia.
    exists ((Z.of_nat (m - 1) - 1) * d + Z.abs (2 * (a + (Z.of_nat j + 1) * d) - d)), (m - 1)%nat. split; [reflexivity|]. split; [reflexivity|]. split; [exact Hp|]. split; [|split; [lia|split; [|split; [lia|split; [intros _; reflexivity|reflexivity]]]]].
    + rewrite (resolution_some _ a d (repeat d j ++ Z.abs (2 * (a + (Z.of_nat j + 1) * d) - d) :: repeat d k')%list); [|lia| |destruct (repeat d j); discriminate].
      * rewrite zsum_app, zsum_cons, !zsum_repeat. unfold zlen. rewrite app_length. cbn [List.length]. rewrite !repeat_length. f_equal. f_equal; [|lia]. nia.
      * rewrite regular_firstn. fold m. rewrite Em. apply steps_mixed; assumption.
    + assert (Z.abs (2 * (a + (Z.of_nat j + 1) * d) - d) <= d) by lia. nia.
  - assert (Hm : Nat.min resolution_limit (S j + S k) = resolution_limit) by lia.
    destruct (resolution_flat a d (S j + S k) (resolution_limit - 1) resolution_limit ltac:(lia) Hm) with (1 := steps_neg d Hd resolution_limit a ltac:(unfold last_of; nia)) as [E H]; [reflexivity|].
    exists (Z.of_nat (resolution_limit - 1) * d), (resolution_limit - 1)%nat. split; [reflexivity|]. split; [reflexivity|]. split; [exact Hp|]. split; [exact E|]. split; [lia|]. split; [lia|]. split; [intros _; reflexivity|].
    split; [lia|]. rewrite Hm. reflexivity.
Qed.

(** ** One rank *)
Lemma edges_nonneg turn a d n : 0 < d -> 0 <= a -> (1 <= n)%nat -> edges turn (regular a d n) = Ok (a, last_of a d n).
Proof.
  intros Hd Ha Hn. destruct n as [|n]; [lia|]. cbn [regular edges]. rewrite min_regular by lia. destruct (a <? 0) eqn:E; [lia|]. rewrite max_regular by exact Hd.
  unfold last_of. f_equal. f_equal. lia.
Qed.
Lemma edges_neg turn a d n : 0 < d -> last_of a d n < 0 -> (1 <= n)%nat -> edges turn (regular a d n) = Ok (a, last_of a d n + turn).
Proof.
  intros Hd Hl Hn. unfold last_of in *. destruct n as [|n]; [lia|]. assert (Ha : a < 0) by nia.
  assert (F1 : filter (fun x => x <? 0) (regular a d (S n)) = regular a d (S n)) by (apply filter_all; intros x Hx; destruct (regular_in _ _ _ _ Hx) as [i [Hi ->]]; nia).
  assert (F2 : filter (fun x => 0 <=? x) (regular a d (S n)) = []) by (apply filter_nothing; intros x Hx; destruct (regular_in _ _ _ _ Hx) as [i [Hi ->]]; nia).
  cbn [regular edges]. cbn [regular] in F1, F2. rewrite F1, F2. rewrite min_regular by lia. destruct (a <? 0) eqn:E; [|lia]. rewrite max_regular by exact Hd. f_equal. f_equal. lia.
Qed.
Lemma edges_mixed turn a d j k : 0 < d -> a + Z.of_nat j * d < 0 -> 0 <= a + (Z.of_nat j + 1) * d ->
  edges turn (regular a d (S j + S k)) = Ok (a + (Z.of_nat j + 1) * d, a + Z.of_nat j * d + turn).
Proof.
  intros Hd H1 H2. pose proof (regular_app d (S k) (S j) a) as E. replace (a + Z.of_nat (S j) * d) with (a + (Z.of_nat j + 1) * d) in E by lia. set (p := a + (Z.of_nat j + 1) * d) in *.
  assert (F1 : filter (fun x => x <? 0) (regular a d (S j + S k)) = regular a d (S j)).
  { rewrite E, filter_app. rewrite filter_all; [rewrite filter_nothing; [apply app_nil_r|]|]; intros x Hx; destruct (regular_in _ _ _ _ Hx) as [i [Hi ->]]; nia. }
  assert (F2 : filter (fun x => 0 <=? x) (regular a d (S j + S k)) = regular p d (S k)).
  { rewrite E, filter_app. rewrite filter_nothing; [rewrite filter_all; [reflexivity|]|]; intros x Hx; destruct (regular_in _ _ _ _ Hx) as [i [Hi ->]]; nia. }
  unfold edges. assert (Er : regular a d (S j + S k) = a :: regular (a + d) d (j + S k)) by reflexivity. rewrite F1, F2. rewrite Er. rewrite min_regular by lia. destruct (a <? 0) eqn:Ea; [|nia].
  cbn [regular]. rewrite max_regular by exact Hd. rewrite min_regular by lia. reflexivity.
Qed.

Lemma near_iff s n x e : near (Some (s, n)) x e = true <-> e * n - s <= x * n <= e * n + s.
Proof. cbn [near]. rewrite andb_true_iff. lia. Qed.
Lemma near_flat t d x e : (1 <= t)%nat -> near (Some (Z.of_nat t * d, Z.of_nat t)) x e = true <-> e - d <= x <= e + d.
Proof. intros Ht. rewrite near_iff. split; intros H; nia. Qed.

Lemma flags_nonneg turn a d n : 0 < d -> 0 <= a -> (2 <= n)%nat -> exists b c, rank_flags turn (regular a d n) = Ok (b, c) /\
  (b = true <-> a <= d) /\ (c = true <-> turn - d <= last_of a d n <= turn + d).
Proof.
  intros Hd Ha Hn. unfold rank_flags. rewrite edges_nonneg by (assumption || lia). cbn [bind]. destruct (resolution_nonneg a d n Hd Ha Hn) as [t [Ht ->]].
  eexists _, _. split; [reflexivity|]. rewrite !near_flat by exact Ht. split; lia.
Qed.
Lemma flags_neg turn a d n : 0 < d -> last_of a d n < 0 -> (2 <= n)%nat -> exists b c, rank_flags turn (regular a d n) = Ok (b, c) /\
  (b = true <-> - d <= a) /\ (c = true <-> - d <= last_of a d n).
Proof.
  intros Hd Ha Hn. unfold rank_flags. rewrite edges_neg by (assumption || lia). cbn [bind]. destruct (resolution_neg a d n Hd ltac:(lia) Hn) as [t [Ht ->]].
  assert (a < 0) by (unfold last_of in Ha; nia).
  eexists _, _. split; [reflexivity|]. rewrite !near_flat by exact Ht. split; lia.
Qed.
Lemma flags_mixed turn a d n : 0 < d -> a < 0 -> 0 <= last_of a d n -> (3 <= n)%nat -> rank_flags turn (regular a d n) = Ok (true, true).
Proof.
  intros Hd Ha Hl Hn. destruct (resolution_mixed a d n Hd Ha Hl) as [j [k [p [s [t [-> [Ep [Hp [Er [Ht [Hs [S1 [S2 Et]]]]]]]]]]]]]. unfold rank_flags.
  rewrite edges_mixed by lia. cbn [bind]. rewrite Er. destruct limit_pos as [l El]. assert (Ht2 : (2 <= t)%nat) by lia.
  assert (Hb : Z.of_nat t * p <= s /\ Z.of_nat t * (d - p) <= s).
  { destruct (Nat.lt_ge_cases (S j) resolution_limit) as [L|L]; [rewrite (S2 L)|rewrite (S1 L)]; split; nia. }
  replace (near (Some (s, Z.of_nat t)) (a + (Z.of_nat j + 1) * d) 0) with true by (symmetry; apply near_iff; nia).
  replace (near (Some (s, Z.of_nat t)) (a + Z.of_nat j * d + turn) turn) with true; [reflexivity|]. symmetry. apply near_iff. nia.
Qed.

(** ** Whole grids *)
Lemma straddling turn a d n : 0 < d -> a < 0 -> 0 <= last_of a d n -> (3 <= n)%nat -> is_periodic turn [regular a d n] = Ok true.
Proof. intros Hd Ha Hl Hn. unfold is_periodic. cbn [map_res]. rewrite flags_mixed by assumption. reflexivity. Qed.
Lemma unwrapped turn a d n : 0 < d -> 0 <= a -> (2 <= n)%nat -> exists b, is_periodic turn [regular a d n] = Ok b /\ (b = true <-> a <= d /\ turn - d <= last_of a d n <= turn + d).
Proof.
  intros Hd Ha Hn. destruct (flags_nonneg turn a d n Hd Ha Hn) as [b [c [E [Hb Hc]]]]. unfold is_periodic. cbn [map_res]. rewrite E. cbn [bind existsb fst snd]. eexists. split; [reflexivity|].
  rewrite !orb_false_r, andb_true_iff, Hb, Hc. tauto.
Qed.
Lemma global turn a d n : 0 < d -> Z.of_nat n * d = turn -> (3 <= n)%nat -> - turn + d <= a <= d -> is_periodic turn [regular a d n] = Ok true.
Proof.
  intros Hd Ht Hn Ha. destruct (Z.lt_ge_cases a 0) as [L|L].
  - apply straddling; try assumption. unfold last_of. lia.
  - destruct (unwrapped turn a d n Hd L ltac:(lia)) as [b [-> Hb]]. f_equal. apply Hb. unfold last_of. lia.
Qed.

(** Pieces on several ranks. *)
Fixpoint pieces (a d : Z) (ns : list nat) : list (list Z) :=
  match ns with [] => [] | n :: t => regular a d n :: pieces (a + Z.of_nat n * d) d t end.
Lemma split_pieces d : forall ns a, split_over ns (regular a d (total_of ns)) = pieces a d ns.
Proof.
  induction ns as [|n t IH]; intros a; [reflexivity|]. cbn [split_over pieces total_of fold_right]. fold (total_of t). rewrite regular_firstn, regular_skipn by lia.
  replace (Nat.min n (n + total_of t)) with n by lia. replace (n + total_of t - n)%nat with (total_of t) by lia. rewrite IH. reflexivity.
Qed.

Lemma pieces_nonneg turn d : 0 < d -> forall ns a, 0 <= a -> ns <> [] -> Forall (fun n => (2 <= n)%nat) ns -> last_of a d (total_of ns) <= turn + d ->
  exists fl, map_res (rank_flags turn) (pieces a d ns) = Ok fl /\ (existsb fst fl = true <-> a <= d) /\ (existsb snd fl = true <-> turn - d <= last_of a d (total_of ns)).
Proof.
  intros Hd. induction ns as [|n t IH]; intros a Ha Hne HF Hl; [congruence|]. inversion HF as [|? ? Hn HF']; subst. cbn [pieces map_res total_of fold_right] in *. fold (total_of t) in *.
  destruct (flags_nonneg turn a d n Hd Ha Hn) as [b [c [E [Hb Hc]]]]. rewrite E. cbn [bind]. destruct t as [|n2 t].
  - cbn [pieces map_res bind existsb fst snd]. eexists. split; [reflexivity|]. cbn [existsb fst snd]. rewrite !orb_false_r. cbn [total_of fold_right] in *. rewrite Nat.add_0_r in *. split; [exact Hb|]. rewrite Hc. lia.
  - assert (Hlast : last_of (a + Z.of_nat n * d) d (total_of (n2 :: t)) = last_of a d (n + total_of (n2 :: t))) by (unfold last_of; lia).
    destruct (IH (a + Z.of_nat n * d)) as [fl [E' [Hf Hs]]]; [nia|discriminate|exact HF'|rewrite Hlast; exact Hl|]. rewrite E'. cbn [bind]. eexists. split; [reflexivity|]. cbn [existsb fst snd].
    rewrite !orb_true_iff, Hb, Hc, Hf, Hs, Hlast. inversion HF' as [|? ? Hn2 _]; subst. assert (0 < Z.of_nat (total_of (n2 :: t))) by (cbn [total_of fold_right]; lia). split; [nia|].
    unfold last_of in *. split; [|lia]. intros [K|K]; [|lia]. nia.
Qed.

Lemma ranks_nonneg turn a d ns : 0 < d -> 0 <= a -> ns <> [] -> Forall (fun n => (2 <= n)%nat) ns -> last_of a d (total_of ns) <= turn + d ->
  is_periodic turn (split_over ns (regular a d (total_of ns))) = is_periodic turn [regular a d (total_of ns)].
Proof.
  intros Hd Ha Hne HF Hl. rewrite split_pieces. assert (Hn : (2 <= total_of ns)%nat) by (destruct ns; [congruence|]; inversion HF; subst; cbn [total_of fold_right]; lia).
  destruct (unwrapped turn a d (total_of ns) Hd Ha Hn) as [b [E Hb]]. rewrite E. unfold is_periodic. destruct (pieces_nonneg turn d Hd ns a Ha Hne HF Hl) as [fl [E' [Hf Hs]]]. rewrite E'. cbn [bind]. f_equal.
  destruct (existsb fst fl && existsb snd fl) eqn:F, b; try reflexivity.
  - apply andb_true_iff in F. rewrite Hf, Hs in F. symmetry. apply Hb. lia.
  - destruct Hb as [Hb _]. specialize (Hb eq_refl). apply andb_false_iff in F. destruct F as [F|F].
    + assert (existsb fst fl = true) by (apply Hf; lia). congruence.
    + assert (existsb snd fl = true) by (apply Hs; lia). congruence.
Qed.

(** Straddling zero on several ranks. *)
Lemma pieces_ok turn d : 0 < d -> forall ns a, Forall (fun n => (3 <= n)%nat) ns -> exists fl, map_res (rank_flags turn) (pieces a d ns) = Ok fl /\
  ((ns <> [] -> 0 <= a <= d -> existsb fst fl = true)) /\
  (a < 0 -> 0 <= last_of a d (total_of ns) -> existsb fst fl = true /\ existsb snd fl = true).
Proof.
  intros Hd. induction ns as [|n t IH]; intros a HF.
  - exists []. split; [reflexivity|]. split; [congruence|]. unfold last_of. cbn [total_of fold_right]. nia.
  - inversion HF as [|? ? Hn HF']; subst. destruct (IH (a + Z.of_nat n * d) HF') as [fl [E [I1 I2]]]. cbn [pieces map_res total_of fold_right]. fold (total_of t).
    destruct (Z.lt_ge_cases a 0) as [L|L].
    + destruct (Z.lt_ge_cases (last_of a d n) 0) as [L'|L'].
      * destruct (flags_neg turn a d n Hd L' ltac:(lia)) as [b [c [F [Hb Hc]]]]. rewrite F. cbn [bind]. rewrite E. cbn [bind]. eexists. split; [reflexivity|]. cbn [existsb fst snd]. split; [lia|].
        intros _ Hl. unfold last_of in *. destruct (Z.lt_ge_cases (a + Z.of_nat n * d) 0) as [M|M].
        -- destruct I2 as [X Y]; [exact M|lia|]. rewrite X, Y, !orb_true_r. split; reflexivity.
        -- assert (Hc' : c = true) by (apply Hc; lia). rewrite Hc'. cbn [orb]. split; [|reflexivity]. rewrite I1; [apply orb_true_r| |lia]. intros ->. cbn [total_of fold_right] in Hl. lia.
      * rewrite flags_mixed by (assumption || lia). cbn [bind]. rewrite E. cbn [bind]. eexists. split; [reflexivity|]. cbn [existsb fst snd orb]. split; [reflexivity|]. intros; split; reflexivity.
    + destruct (flags_nonneg turn a d n Hd L ltac:(lia)) as [b [c [F [Hb Hc]]]]. rewrite F. cbn [bind]. rewrite E. cbn [bind]. eexists. split; [reflexivity|]. cbn [existsb fst snd]. split; [|lia].
      intros _ Ha. rewrite (proj2 Hb) by lia. reflexivity.
Qed.
Lemma ranks_straddling turn a d ns : 0 < d -> a < 0 -> 0 <= last_of a d (total_of ns) -> Forall (fun n => (3 <= n)%nat) ns ->
  is_periodic turn (split_over ns (regular a d (total_of ns))) = Ok true.
Proof.
  intros Hd Ha Hl HF. rewrite split_pieces. unfold is_periodic. destruct (pieces_ok turn d Hd ns a HF) as [fl [E [_ H]]]. rewrite E. cbn [bind]. destruct (H Ha Hl) as [-> ->]. reflexivity.
Qed.

(** ** Spacing *)
Lemma steps_same d : forall n a, OneSide a d n -> abs_steps (regular a d n) = repeat (Z.abs d) (n - 1).
Proof.
  unfold OneSide, last_of. induction n as [|n IH]; intros a Ha; [reflexivity|]. destruct n as [|n]; [reflexivity|]. cbn [regular]. cbn [abs_steps].
  replace (S (S n) - 1)%nat with (S (S n - 1)) by lia. cbn [repeat].
  assert (H : (0 <= a /\ 0 <= a + d) \/ (a <= 0 /\ a + d <= 0)) by nia.
  f_equal; [lia|]. specialize (IH (a + d) ltac:(nia)). cbn [regular] in IH. exact IH.
Qed.
Lemma one_side_min a d n m : (1 <= m <= n)%nat -> OneSide a d n -> OneSide a d m.
Proof.
  unfold OneSide, last_of. intros Hm H. destruct (Z.le_ge_cases 0 d) as [D|D]; destruct H as [[A B]|[A B]]; [left|right|left|right]; split; nia.
Qed.
Lemma spacing_steps a d n : (2 <= n)%nat -> OneSide a d n -> exists t, (1 <= t)%nat /\ abs_steps (firstn resolution_limit (regular a d n)) = repeat (Z.abs d) t.
Proof.
  intros Hn H. destruct limit_pos as [l El]. rewrite regular_firstn. exists (Nat.min resolution_limit n - 1)%nat. split; [lia|]. apply steps_same. apply (one_side_min a d n); [lia|exact H].
Qed.
Lemma resolves_repeat d t : (1 <= t)%nat -> Resolves (Some (zsum (repeat d t), zlen (repeat d t))) d.
Proof. intros Ht. exists (zsum (repeat d t)), (zlen (repeat d t)). split; [reflexivity|]. unfold zlen. rewrite repeat_length, zsum_repeat. lia. Qed.

Lemma spacing_partial a d n : (2 <= n)%nat -> OneSide a d n ->
  Resolves (array_resolution (regular a d n)) (Z.abs d) /\ exists r, variable_resolution (regular a d n) None = Ok r /\ Resolves r (Z.abs d).
Proof.
  intros Hn H. destruct (spacing_steps a d n Hn H) as [t [Ht E]]. split.
  - rewrite (resolution_some n a d (repeat (Z.abs d) t) Hn E); [apply resolves_repeat; exact Ht|]. destruct t; [lia|discriminate].
  - destruct n as [|[|n]]; [lia|lia|]. cbn [regular] in *. unfold variable_resolution. rewrite E. eexists. split; [reflexivity|]. apply resolves_repeat. exact Ht.
Qed.

Lemma finer_refuted a d n : 0 < d -> a < 0 -> 0 <= last_of a d n -> (n <= resolution_limit)%nat -> (forall i : nat, a + Z.of_nat i * d <> 0) ->
  Finer (array_resolution (regular a d n)) d /\ exists r, variable_resolution (regular a d n) None = Ok r /\ Finer r d.
Proof.
  intros Hd Ha Hl Hn Hz. destruct (resolution_mixed a d n Hd Ha Hl) as [j [k [p [s [t [En [Ep [Hp [Er [Ht [Hs [S1 [S2 Et]]]]]]]]]]]]].
  assert (Hp0 : p <> 0) by (rewrite Ep; replace (Z.of_nat j + 1) with (Z.of_nat (S j)) by lia; apply Hz).
  assert (F : Finer (array_resolution (regular a d n)) d). { exists s, (Z.of_nat t). split; [exact Er|]. split; [lia|]. rewrite S2 by lia. nia. }
  split; [exact F|]. exists (array_resolution (regular a d n)). split; [|exact F]. rewrite En. cbn [Nat.add]. replace (j + S k)%nat with (S (j + k)) by lia. cbn [regular]. unfold array_resolution, variable_resolution.
  destruct limit_pos as [l El]. rewrite El. cbn [firstn abs_steps]. reflexivity.
Qed.

Lemma limit_only l l' : (2 <= List.length l)%nat -> (2 <= List.length l')%nat -> firstn resolution_limit l = firstn resolution_limit l' -> array_resolution l = array_resolution l'.
Proof.
  intros H H' E. destruct l as [|a [|b l]]; [cbn in H; lia|cbn in H; lia|]. destruct l' as [|a' [|b' l']]; [cbn in H'; lia|cbn in H'; lia|]. unfold array_resolution. rewrite E. reflexivity.
Qed.

Lemma widths_repeat w q : forall bs, Forall (fun b : Z * Z => Z.abs (snd b - fst b) = w) bs ->
  map (fun b : Z * Z => Z.abs (snd b - fst b)) (firstn q bs) = repeat w (List.length (firstn q bs)).
Proof.
  induction q as [|q IH]; intros [|c bs] HF; try reflexivity. cbn [firstn map List.length repeat]. rewrite (Forall_inv HF). f_equal. apply IH. exact (Forall_inv_tail HF).
Qed.

Lemma width_spec value bs w : bs <> [] -> Forall (fun b => Z.abs (snd b - fst b) = w) bs -> exists r, variable_resolution value (Some bs) = Ok r /\ Resolves r w.
Proof.
  intros Hne HF. unfold variable_resolution.
  assert (E : exists t, (1 <= t)%nat /\ map (fun b : Z * Z => Z.abs (snd b - fst b)) (firstn resolution_limit bs) = repeat w t).
  { exists (List.length (firstn resolution_limit bs)). split; [|apply widths_repeat; exact HF]. destruct limit_pos as [l El]. rewrite El. destruct bs; [congruence|]. cbn. lia. }
  destruct E as [t [Ht E]]. rewrite E. destruct t; [lia|]. eexists. split; [reflexivity|]. apply resolves_repeat. lia.
Qed.

(** A global grid without one of its columns. *)
Lemma missing_refuted d n : 0 < d -> (2 <= n)%nat -> is_periodic (Z.of_nat (S n) * d) [regular d d n] = Ok true.
Proof.
  intros Hd Hn. destruct (unwrapped (Z.of_nat (S n) * d) d d n Hd ltac:(lia) Hn) as [b [-> Hb]]. f_equal. apply Hb. unfold last_of. lia.
Qed.
