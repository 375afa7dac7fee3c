(** Proofs for StackProperties.v. *)
From Verif Require Import Py Lib NdModel Spec RequestNames StackModel StackSpec.
Local Open Scope string_scope.
Local Open Scope list_scope.
Local Open Scope Z_scope.

Lemma in_firstn' {A} n (l : list A) x : In x (firstn n l) -> In x l.
Proof. intros H. rewrite <- (firstn_skipn n l). apply in_or_app. now left. Qed.
Lemma in_skipn' {A} n (l : list A) x : In x (skipn n l) -> In x l.
Proof. intros H. rewrite <- (firstn_skipn n l). apply in_or_app. now right. Qed.

Lemma bind_Ok {A B} (m : res A) (f : A -> res B) r : bind m f = Ok r -> exists x, m = Ok x /\ f x = Ok r.
Proof. destruct m as [x|e]; cbn [bind]; [|discriminate]. intros H. now exists x. Qed.

(** ** Assignment *)

Lemma fits_rev_same s : fits_rev s s = true.
Proof. induction s as [|x t IH]; [reflexivity|]. cbn [fits_rev]. rewrite Z.eqb_refl, IH. reflexivity. Qed.

Lemma fits_same s : fits s s = true.
Proof. apply fits_rev_same. Qed.

Lemma source_rev_same s i : Forall2 (fun n k => 0 <= k < n) s i -> source_rev s i = i.
Proof.
  induction 1 as [|n k s i H _ IH]; [reflexivity|]. cbn [source_rev]. rewrite IH. f_equal. destruct (Z.eqb_spec n 1); lia.
Qed.

Lemma Forall2_rev' {A B} (P : A -> B -> Prop) l m : Forall2 P l m -> Forall2 P (rev l) (rev m).
Proof.
  induction 1 as [|a b l m H _ IH]; [constructor|]. cbn [rev]. apply Forall2_app; [exact IH|]. now constructor.
Qed.

Lemma source_same s i : IndexOf s i -> source s i = i.
Proof.
  intros H. unfold source. rewrite source_rev_same; [apply rev_involutive|]. now apply Forall2_rev'.
Qed.

Section Stack.
Variable name : string.

Definition win (a b : Z) (dims : list dim) (idx : list Z) : Prop :=
  Forall2 (fun d i => if String.eqb (d_name d) name then a <= i < b else 0 <= i < d_len d) dims idx.

Definition from_ (dims : list dim) (a : Z) := map (fun d => if String.eqb (d_name d) name then a else 0) dims.
Definition to_ (dims : list dim) (b : Z) := map (fun d => if String.eqb (d_name d) name then b else d_len d) dims.

Lemma inside_win a b dims idx : inside (from_ dims a) (to_ dims b) idx = true <-> win a b dims idx.
Proof.
  revert idx. induction dims as [|d t IH]; intros [|i idx]; cbn [from_ to_ map inside].
  - split; [constructor|reflexivity].
  - split; [easy|intros H; inversion H].
  - split; [easy|intros H; inversion H].
  - fold (from_ t a) (to_ t b). split.
    + intros H. apply andb_prop in H. destruct H as [H1 H2]. constructor; [|now apply IH]. destruct (String.eqb (d_name d) name); lia.
    + intros H. inversion H as [|? ? ? ? H1 H2]; subst. apply IH in H2. rewrite H2. destruct (String.eqb (d_name d) name); lia.
Qed.

Lemma inside_not a b dims idx : ~ win a b dims idx -> inside (from_ dims a) (to_ dims b) idx = false.
Proof. intros H. destruct (inside (from_ dims a) (to_ dims b) idx) eqn:E; [|reflexivity]. apply inside_win in E. contradiction. Qed.

Lemma minus_to_from dims a b : minus (to_ dims b) (from_ dims a) = map (fun d => if String.eqb (d_name d) name then b - a else d_len d) dims.
Proof.
  induction dims as [|d t IH]; [reflexivity|]. cbn [to_ from_ map minus]. fold (to_ t b) (from_ t a). rewrite IH.
  destruct (String.eqb (d_name d) name); f_equal; lia.
Qed.

Lemma minus_shifted dims a idx : length idx = length dims -> minus (shifted name dims a idx) (from_ dims a) = idx.
Proof.
  revert idx. induction dims as [|d t IH]; intros [|i idx] L; try easy. cbn [shifted from_ map minus]. fold (from_ t a).
  rewrite IH by (cbn [length] in L; lia). destruct (String.eqb (d_name d) name); f_equal; lia.
Qed.

Lemma win_disjoint a b c e dims idx : In name (map d_name dims) -> win a b dims idx -> win c e dims idx -> b <= c -> False.
Proof.
  intros I W. revert I. induction W as [|d i dims idx H W IH]; [easy|]. intros I W' L. inversion W' as [|? ? ? ? H' W'']; subst.
  destruct (String.eqb_spec (d_name d) name) as [E|N]; [lia|]. destruct I as [E|I]; [contradiction|]. now apply IH.
Qed.

Lemma win_any a b c e dims idx : ~ In name (map d_name dims) -> win a b dims idx -> win c e dims idx.
Proof.
  intros N W. revert N. induction W as [|d i dims idx H W IH]; intros N; constructor.
  - destruct (String.eqb_spec (d_name d) name) as [E|N']; [|exact H]. destruct N. now left.
  - apply IH. intros I. apply N. now right.
Qed.

Lemma win_split a b c dims idx : NoDup (map d_name dims) -> In name (map d_name dims) -> win a c dims idx -> win a b dims idx \/ win b c dims idx.
Proof.
  intros D I W. revert D I. induction W as [|d i dims idx H W IH]; intros D I; [easy|].
  cbn [map] in D. apply NoDup_cons_iff in D. destruct D as [D1 D2].
  destruct (String.eqb_spec (d_name d) name) as [E|N].
  - assert (N : ~ In name (map d_name dims)) by now rewrite <- E.
    destruct (Z.lt_ge_cases i b) as [L|L]; [left|right]; (constructor; [rewrite <- E, String.eqb_refl; lia|now apply (win_any a c)]).
  - destruct I as [E|I]; [contradiction|]. apply String.eqb_neq in N.
    destruct (IH D2 I) as [K|K]; [left|right]; (constructor; [now rewrite N in *|exact K]).
Qed.

Lemma win_empty a b dims idx : In name (map d_name dims) -> b <= a -> ~ win a b dims idx.
Proof. intros I L W. now apply (win_disjoint a b a b dims idx I W W). Qed.

Lemma win_wider a b c e dims idx : win a b dims idx -> c <= a -> b <= e -> win c e dims idx.
Proof.
  intros W A B. induction W as [|d i dims idx H W IH]; constructor; [|exact IH]. destruct (String.eqb (d_name d) name); lia.
Qed.

(** The dimensions of a variable like the first one. *)
Definition like (dims dims' : list dim) : Prop :=
  Forall2 (fun d e => d_name d = d_name e /\ (d_name d <> name -> d_len d = d_len e)) dims dims'.

Definition along_ (dims : list dim) : Z := fold_right (fun d n => if String.eqb (d_name d) name then d_len d else n) 0 dims.

Lemma like_names dims dims' : like dims dims' -> map d_name dims = map d_name dims'.
Proof. induction 1 as [|d e l m [H _] _ IH]; [reflexivity|]. cbn [map]. now rewrite H, IH. Qed.

Lemma like_lens dims dims' : like dims dims' -> NoDup (map d_name dims') ->
  map (fun d => if String.eqb (d_name d) name then along_ dims' else d_len d) dims = map d_len dims'.
Proof.
  intros L D.
  assert (G : forall n, (In name (map d_name dims') -> n = along_ dims') ->
    map (fun d => if String.eqb (d_name d) name then n else d_len d) dims = map d_len dims').
  { induction L as [|d e l m [H1 H2] L IH]; intros n Hn; [reflexivity|]. cbn [map]. cbn [map] in D. apply NoDup_cons_iff in D. destruct D as [D1 D2].
    cbn [along_ fold_right] in Hn. destruct (String.eqb_spec (d_name d) name) as [E|N].
    - assert (Ee : d_name e = name) by congruence. rewrite Ee, String.eqb_refl in Hn. rewrite (Hn (or_introl Ee)). f_equal.
      apply IH; [exact D2|]. intros I. rewrite Ee in D1. contradiction.
    - f_equal; [now apply H2|]. apply IH; [exact D2|]. intros I.
      assert (Ne : d_name e <> name) by congruence. apply String.eqb_neq in Ne. rewrite Ne in Hn. apply Hn. now right. }
  now apply G.
Qed.

Lemma shifted_names dims dims' off idx : map d_name dims = map d_name dims' -> shifted name dims off idx = shifted name dims' off idx.
Proof.
  revert dims' idx. induction dims as [|d t IH]; intros [|e t'] idx H; try discriminate; [reflexivity|].
  cbn [map] in H. injection H as H1 H2. destruct idx as [|i idx]; [reflexivity|]. cbn [shifted]. rewrite H1. f_equal. now apply IH.
Qed.

Lemma shifted_win dims dims' a idx : like dims dims' -> NoDup (map d_name dims') -> IndexOf (map d_len dims') idx ->
  win a (a + along_ dims') dims (shifted name dims a idx).
Proof.
  intros L D H. rewrite <- (like_lens dims dims' L D) in H. generalize (along_ dims') H. clear H L D dims'. intros n.
  revert idx. induction dims as [|d t IH]; intros idx H; inversion H as [|? i ? idx' H1 H2]; subst; [constructor|].
  cbn [shifted]. constructor; [|now apply IH]. destruct (String.eqb (d_name d) name); lia.
Qed.

Lemma win_shifted dims dims' a idx : like dims dims' -> NoDup (map d_name dims') -> win a (a + along_ dims') dims idx ->
  exists idx', IndexOf (map d_len dims') idx' /\ idx = shifted name dims a idx'.
Proof.
  intros L D. unfold IndexOf. rewrite <- (like_lens dims dims' L D). generalize (along_ dims'). clear L D dims'. intros n W.
  induction W as [|d i dims idx H W IH].
  - exists []. split; [constructor|reflexivity].
  - destruct IH as (idx' & H1 & H2). exists ((if String.eqb (d_name d) name then i - a else i) :: idx'). split.
    + cbn [map]. constructor; [|exact H1]. destruct (String.eqb (d_name d) name); lia.
    + cbn [shifted]. rewrite <- H2. destruct (String.eqb (d_name d) name); f_equal; lia.
Qed.

Context {A : Type}.

Lemma len_of_along (v : var A) : NoDup (dim_names v) -> In name (dim_names v) -> len_of name v = Ok (along name v).
Proof.
  unfold len_of, along, dim_names. intros D I.
  assert (F : find (fun d => String.eqb (d_name d) name) (rev (v_dims v)) = find (fun d => String.eqb (d_name d) name) (v_dims v)).
  { induction (v_dims v) as [|d t IH]; [reflexivity|]. cbn [map] in D. apply NoDup_cons_iff in D. destruct D as [D1 D2]. cbn [rev find].
    assert (G : forall l m, find (fun d => String.eqb (d_name d) name) (l ++ m) =
      match find (fun d => String.eqb (d_name d) name) l with Some x => Some x | None => find (fun d => String.eqb (d_name d) name) m end).
    { induction l as [|x l IHl]; intros m; [reflexivity|]. cbn [app find]. destruct (String.eqb (d_name x) name); [reflexivity|apply IHl]. }
    rewrite G. cbn [find]. destruct (String.eqb_spec (d_name d) name) as [E|N].
    - destruct (find (fun d0 => String.eqb (d_name d0) name) (rev t)) as [x|] eqn:X; [|reflexivity].
      apply find_some in X. destruct X as [X1 X2]. apply String.eqb_eq in X2. destruct D1. rewrite E, <- X2. apply in_map. now apply in_rev.
    - destruct I as [E|I]; [contradiction|]. rewrite (IH D2 I).
      destruct (find (fun d0 => String.eqb (d_name d0) name) t); reflexivity. }
  rewrite F. clear F D. induction (v_dims v) as [|d t IH]; [easy|]. cbn [find fold_right]. destruct (String.eqb_spec (d_name d) name) as [E|N]; [reflexivity|].
  apply IH. destruct I as [E|I]; [contradiction|exact I].
Qed.

(** ** One step *)

Variable arch : var A.
Hypothesis named : In name (dim_names arch).

Lemma step v acc prev : sound v -> alike name arch v ->
  exists r, set_item acc (starts arch name prev) (stops arch name (prev + along name v)) v = Ok r /\
    v_name r = v_name acc /\ v_dims r = v_dims acc /\ v_units r = v_units acc /\ v_bounds r = v_bounds acc /\ nd_shape (v_value r) = nd_shape (v_value acc) /\
    (forall idx, ~ win prev (prev + along name v) (v_dims arch) idx -> nd_at (v_value r) idx = nd_at (v_value acc) idx /\ is_masked r idx = is_masked acc idx) /\
    (forall idx, IndexOf (map d_len (v_dims v)) idx -> nd_at (v_value r) (shifted name (v_dims arch) prev idx) = nd_at (v_value v) idx) /\
    ((forall idx, win prev (prev + along name v) (v_dims arch) idx -> is_masked acc idx = false) ->
     forall idx, IndexOf (map d_len (v_dims v)) idx -> is_masked r (shifted name (v_dims arch) prev idx) = is_masked v idx).
Proof.
  intros S' L. destruct S' as [D Ln Sv Sm].
  assert (M : minus (stops arch name (prev + along name v)) (starts arch name prev) = map d_len (v_dims v)).
  { change (stops arch name (prev + along name v)) with (to_ (v_dims arch) (prev + along name v)).
    change (starts arch name prev) with (from_ (v_dims arch) prev). rewrite minus_to_from.
    replace (prev + along name v - prev) with (along name v) by lia. apply (like_lens _ _ L D). }
  assert (LI : forall idx, IndexOf (map d_len (v_dims v)) idx -> length idx = length (v_dims arch)).
  { intros idx H. apply Forall2_len in H. rewrite map_length in H. rewrite <- H. symmetry. exact (Forall2_len _ _ _ L). }
  assert (In1 : forall idx, IndexOf (map d_len (v_dims v)) idx ->
    inside (starts arch name prev) (stops arch name (prev + along name v)) (shifted name (v_dims arch) prev idx) = true).
  { intros idx H. apply inside_win. now apply shifted_win. }
  assert (Mi : forall idx, IndexOf (map d_len (v_dims v)) idx -> minus (shifted name (v_dims arch) prev idx) (starts arch name prev) = idx).
  { intros idx H. apply minus_shifted. now apply LI. }
  assert (Out : forall idx, ~ win prev (prev + along name v) (v_dims arch) idx ->
    inside (starts arch name prev) (stops arch name (prev + along name v)) idx = false) by (intros idx H; now apply inside_not).
  unfold set_item, np_assign. rewrite M, Sv, fits_same. cbn [bind].
  destruct (v_mask v) as [m|] eqn:Em.
  - rewrite (Sm m eq_refl), fits_same. cbn [bind]. eexists. split; [reflexivity|]. cbn [v_name v_dims v_units v_bounds v_value nd_shape nd_at]. do 5 (split; [reflexivity|]).
    unfold is_masked. cbn [v_mask nd_at]. split; [|split].
    + intros idx H. rewrite (Out idx H). split; [reflexivity|]. destruct (v_mask acc); reflexivity.
    + intros idx H. rewrite (In1 idx H), (Mi idx H), source_same by exact H. reflexivity.
    + intros _ idx H. rewrite (In1 idx H), (Mi idx H), source_same by exact H. now rewrite Em.
  - cbn [bind]. eexists. split; [reflexivity|]. cbn [v_name v_dims v_units v_bounds v_value nd_shape nd_at]. do 5 (split; [reflexivity|]).
    unfold is_masked. cbn [v_mask nd_at]. split; [|split].
    + intros idx H. rewrite (Out idx H). now split.
    + intros idx H. rewrite (In1 idx H), (Mi idx H), source_same by exact H. reflexivity.
    + intros U idx H. rewrite Em. apply U. now apply shifted_win.
Qed.

Lemma alike_in v : alike name arch v -> In name (dim_names v).
Proof. intros L. unfold dim_names. rewrite <- (like_names _ _ L). exact named. Qed.

Lemma along_nonneg v : sound v -> 0 <= along name (v : var A).
Proof.
  intros S'. pose proof (sd_lens v S') as F. unfold along. induction F as [|d t H _ IH]; cbn [fold_right]; [lia|].
  destruct (String.eqb (d_name d) name); [exact H|exact IH].
Qed.

Lemma fill_spec targets : forall prev acc, Forall sound targets -> Forall (alike name arch) targets ->
  (forall idx, win prev (prev + total name targets) (v_dims arch) idx -> is_masked acc idx = false) ->
  exists r, fill_stack arch name prev targets acc = Ok r /\
    v_name r = v_name acc /\ v_dims r = v_dims acc /\ v_units r = v_units acc /\ v_bounds r = v_bounds acc /\ nd_shape (v_value r) = nd_shape (v_value acc) /\
    (forall idx, ~ win prev (prev + total name targets) (v_dims arch) idx -> nd_at (v_value r) idx = nd_at (v_value acc) idx /\ is_masked r idx = is_masked acc idx) /\
    (forall j v idx, nth_error targets j = Some v -> IndexOf (map d_len (v_dims v)) idx ->
       nd_at (v_value r) (shifted name (v_dims arch) (prev + offset name targets j) idx) = nd_at (v_value v) idx /\
       is_masked r (shifted name (v_dims arch) (prev + offset name targets j) idx) = is_masked v idx).
Proof.
  induction targets as [|v t IH]; intros prev acc S' L U.
  - exists acc. cbn [fill_stack]. do 6 (split; [reflexivity|]). split; [now intros|]. intros [|j] v idx H; discriminate.
  - inversion S' as [|? ? Sv St]; subst. inversion L as [|? ? Lv Lt]; subst. cbn [fill_stack].
    rewrite len_of_along by (try apply (sd_names v Sv); now apply alike_in). cbn [bind].
    assert (T : total name (v :: t) = along name v + total name t) by reflexivity.
    pose proof (along_nonneg v Sv) as Nv.
    assert (Nt : 0 <= total name t).
    { clear -St. induction St as [|w t Sw _ IHt]; [unfold total, zsum; cbn; lia|]. pose proof (along_nonneg w Sw). change (total name (w :: t)) with (along name w + total name t). lia. }
    rewrite T in *.
    destruct (step v acc prev Sv Lv) as (r1 & E1 & N1 & D1 & U1 & B1 & Sh1 & O1 & V1 & M1). rewrite E1. cbn [bind].
    assert (M1' : forall idx, IndexOf (map d_len (v_dims v)) idx -> is_masked r1 (shifted name (v_dims arch) prev idx) = is_masked v idx).
    { apply M1. intros idx W. apply U. apply (win_wider _ _ _ _ _ _ W); lia. }
    destruct (IH (prev + along name v) r1 St Lt) as (r & E & N & D & Ur & B & Sh & O & V).
    { intros idx W.
      destruct (O1 idx) as [_ ->].
      - intros W'. apply (win_disjoint _ _ _ _ (v_dims arch) idx named W' W). lia.
      - apply U. apply (win_wider _ _ _ _ _ _ W); lia. }
    exists r. rewrite E. split; [reflexivity|]. split; [congruence|]. split; [congruence|]. split; [congruence|]. split; [congruence|]. split; [congruence|].
    split.
    + intros idx W. destruct (O idx) as [-> ->].
      { intros W'. apply W. apply (win_wider _ _ _ _ _ _ W'); lia. }
      apply O1. intros W'. apply W. apply (win_wider _ _ _ _ _ _ W'); lia.
    + intros [|j] w idx Hj Hi.
      * cbn [nth_error] in Hj. injection Hj as ->. unfold offset. cbn [firstn map zsum fold_right]. rewrite Z.add_0_r.
        assert (W : win prev (prev + along name w) (v_dims arch) (shifted name (v_dims arch) prev idx)) by (now apply shifted_win; [| apply sd_names|]).
        destruct (O (shifted name (v_dims arch) prev idx)) as [-> ->].
        { intros W'. apply (win_disjoint _ _ _ _ (v_dims arch) _ named W W'). lia. }
        split; [now apply V1|now apply M1'].
      * cbn [nth_error] in Hj. destruct (V j w idx Hj Hi) as [V1' V2']. unfold offset in *. cbn [firstn map zsum fold_right].
        rewrite Z.add_assoc. now split.
Qed.

Lemma cover targets : forall prev, Forall sound targets -> Forall (alike name arch) targets -> NoDup (dim_names arch) ->
  forall idx, win prev (prev + total name targets) (v_dims arch) idx ->
  exists j v idx', nth_error targets j = Some v /\ IndexOf (map d_len (v_dims v)) idx' /\ idx = shifted name (v_dims arch) (prev + offset name targets j) idx'.
Proof.
  induction targets as [|v t IH]; intros prev S' L D idx W.
  - unfold total in W. cbn [map zsum fold_right] in W. destruct (win_empty _ _ (v_dims arch) idx named (Z.eq_le_incl _ _ (Z.add_0_r prev)) W).
  - inversion S' as [|? ? Sv St]; subst. inversion L as [|? ? Lv Lt]; subst.
    assert (T : total name (v :: t) = along name v + total name t) by reflexivity. rewrite T in W.
    destruct (win_split prev (prev + along name v) _ _ _ D named W) as [W'|W'].
    + destruct (win_shifted (v_dims arch) (v_dims v) prev idx Lv (sd_names v Sv) W') as (idx' & H1 & H2).
      exists 0%nat, v, idx'. split; [reflexivity|]. split; [exact H1|]. unfold offset. cbn [firstn map zsum fold_right]. now rewrite Z.add_0_r.
    + rewrite Z.add_assoc in W'. destruct (IH (prev + along name v) St Lt D idx W') as (j & w & idx' & H1 & H2 & H3).
      exists (S j), w, idx'. split; [exact H1|]. split; [exact H2|]. rewrite H3. unfold offset. cbn [firstn map zsum fold_right]. now rewrite Z.add_assoc.
Qed.

End Stack.

Lemma new_dims_win {A} (arch : var A) name n idx : win name 0 n (v_dims arch) idx <-> IndexOf (map d_len (new_dims arch name n)) idx.
Proof.
  unfold win, new_dims, IndexOf. rewrite map_map.
  assert (G : forall l, Forall2 (fun d i => if String.eqb (d_name d) name then 0 <= i < n else 0 <= i < d_len d) l idx <->
    Forall2 (fun m i => 0 <= i < m) (map (fun x => d_len (if String.eqb (d_name x) name then mkdim (d_name x) n (d_unlimited x) else x)) l) idx).
  { induction idx as [|i idx IH]; intros [|d l]; split; intros H; try (constructor; fail); try (inversion H; fail).
    - inversion H; subst. cbn [map]. constructor; [|now apply IH]. destruct (String.eqb (d_name d) name); assumption.
    - cbn [map] in H. inversion H; subst. constructor; [|now apply IH]. destruct (String.eqb (d_name d) name); assumption. }
  apply G.
Qed.

Lemma stack_ok {A} (fill : A) arch t name : In name (dim_names arch) -> Forall sound (arch :: t) -> Forall (alike name arch) (arch :: t) ->
  exists r, stack_variables fill (arch :: t) name = Ok r /\ v_name r = v_name arch /\ v_units r = v_units arch /\ v_bounds r = None /\
    v_dims r = new_dims arch name (total name (arch :: t)) /\ nd_shape (v_value r) = map d_len (v_dims r) /\ one_after_other name (arch :: t) r.
Proof.
  intros N S' L. unfold stack_variables.
  assert (Sz : map_res (len_of name) (arch :: t) = Ok (map (along name) (arch :: t))).
  { clear fill. revert S' L. generalize (arch :: t). induction l as [|v l IH]; intros S' L; [reflexivity|].
    inversion S'; subst. inversion L; subst. cbn [map_res map].
    rewrite len_of_along; [|now apply sd_names|now apply (alike_in name arch N)]. cbn [bind]. now rewrite IH. }
  rewrite Sz. cbn [bind]. fold (zsum (map (along name) (arch :: t))). fold (total name (arch :: t)).
  inversion S' as [|? ? Sa _]; subst.
  edestruct (fill_spec name arch N (arch :: t) 0) as (r & E & En & Ed & Eu & Eb & Es & _ & V); [exact S'|exact L| |].
  2: { exists r. rewrite E. cbn [v_name v_dims v_units v_bounds v_value nd_shape] in *.
       split; [reflexivity|]. split; [exact En|]. split; [exact Eu|]. split; [exact Eb|]. split; [exact Ed|]. split; [now rewrite Es, Ed|].
       assert (Nm : forall j v, nth_error (arch :: t) j = Some v -> map d_name (v_dims arch) = map d_name (v_dims v)).
       { intros j v Hj. apply nth_error_In in Hj. rewrite Forall_forall in L. exact (like_names name _ _ (L v Hj)). }
       constructor.
       - intros j v idx Hj Hi. rewrite <- (shifted_names name _ _ (offset name (arch :: t) j) idx (Nm j v Hj)). exact (proj1 (V j v idx Hj Hi)).
       - intros j v idx Hj Hi. rewrite <- (shifted_names name _ _ (offset name (arch :: t) j) idx (Nm j v Hj)). exact (proj2 (V j v idx Hj Hi)).
       - intros j v idx Hj Hi. rewrite <- (shifted_names name _ _ (offset name (arch :: t) j) idx (Nm j v Hj)). rewrite Ed. apply new_dims_win.
         pose proof (nth_error_In _ _ Hj) as I. rewrite Forall_forall in L, S'.
         pose proof (shifted_win name (v_dims arch) (v_dims v) (offset name (arch :: t) j) idx (L v I) (sd_names v (S' v I)) Hi) as W.
         apply (win_wider name _ _ _ _ _ _ W).
         + unfold offset. assert (F : Forall sound (firstn j (arch :: t))) by (apply Forall_forall; intros w Iw; apply S'; now apply (in_firstn' j)).
           clear -F. induction F as [|w l Sw _ IH]; cbn [map zsum fold_right]; [lia|]. pose proof (along_nonneg name w Sw). unfold zsum in IH. lia.
         + change (along_ name (v_dims v)) with (along name v). unfold offset, total.
           assert (Sp : arch :: t = firstn j (arch :: t) ++ v :: skipn (S j) (arch :: t)).
           { rewrite <- (firstn_skipn j (arch :: t)) at 1. f_equal. clear -Hj. revert Hj. generalize (arch :: t). induction j as [|j IH]; intros [|x l] H; try discriminate.
             - cbn in H. now injection H as ->.
             - cbn [skipn]. now apply IH. }
           rewrite Sp at 2. rewrite map_app. cbn [map].
           assert (G : forall a b, zsum (a ++ b) = zsum a + zsum b) by (induction a as [|x a IHa]; intros b; [reflexivity|]; cbn [app zsum fold_right] in *; unfold zsum in *; rewrite IHa; lia).
           rewrite G. cbn [zsum fold_right].
           assert (F : Forall sound (skipn (S j) (arch :: t))) by (apply Forall_forall; intros w Iw; apply S'; now apply (in_skipn' (S j))).
           assert (0 <= zsum (map (along name) (skipn (S j) (arch :: t)))).
           { clear -F. induction F as [|w l Sw _ IH]; cbn [map zsum fold_right]; [lia|]. pose proof (along_nonneg name w Sw). unfold zsum in IH. lia. }
           unfold zsum in *. lia.
       - intros idx H. rewrite Ed in H. apply new_dims_win in H.
         destruct (cover name arch N (arch :: t) 0 S' L (sd_names arch Sa) idx H) as (j & v & idx' & H1 & H2 & H3). exists j, v, idx'.
         split; [exact H1|]. split; [exact H2|]. rewrite H3. apply shifted_names. now apply (Nm j). }
  intros idx _. reflexivity.
Qed.

(** ** What [stack] never does *)

Lemma set_item_frame {A} (acc : var A) lo hi v r : set_item acc lo hi v = Ok r ->
  v_name r = v_name acc /\ v_dims r = v_dims acc /\ v_units r = v_units acc /\ v_bounds r = v_bounds acc.
Proof.
  unfold set_item. intros H. apply bind_Ok in H. destruct H as (x & _ & H). apply bind_Ok in H. destruct H as (m & _ & H).
  injection H as <-. now cbn.
Qed.

Lemma fill_stack_frame {A} (arch : var A) name targets : forall prev acc r, fill_stack arch name prev targets acc = Ok r ->
  v_name r = v_name acc /\ v_dims r = v_dims acc /\ v_units r = v_units acc /\ v_bounds r = v_bounds acc.
Proof.
  induction targets as [|v t IH]; intros prev acc r H; cbn [fill_stack] in H.
  - injection H as <-. now repeat split.
  - apply bind_Ok in H. destruct H as (n & _ & H). apply bind_Ok in H. destruct H as (a & H1 & H2).
    apply set_item_frame in H1. apply IH in H2. destruct H1 as (? & ? & ? & ?), H2 as (? & ? & ? & ?). repeat split; congruence.
Qed.

Lemma stack_frame {A} (fill : A) arch t name r : stack_variables fill (arch :: t) name = Ok r ->
  v_name r = v_name arch /\ dim_names r = dim_names arch /\ v_units r = v_units arch /\ v_bounds r = None.
Proof.
  unfold stack_variables. intros H. apply bind_Ok in H. destruct H as (s & _ & H). apply fill_stack_frame in H.
  cbn [v_name v_dims v_units v_bounds] in H. destruct H as (H1 & H2 & H3 & H4). repeat split; try assumption.
  unfold dim_names. rewrite H2. unfold new_dims. rewrite map_map. apply map_ext. intros d. destruct (String.eqb (d_name d) name); reflexivity.
Qed.

(** ** Collections *)

Lemma map_res_Forall2 {A B} (f : A -> res B) : forall l r, map_res f l = Ok r -> Forall2 (fun a b => f a = Ok b) l r.
Proof.
  induction l as [|a l IH]; intros r H; cbn [map_res] in H.
  - injection H as <-. constructor.
  - apply bind_Ok in H. destruct H as (b & H1 & H). apply bind_Ok in H. destruct H as (bs & H2 & H). injection H as <-. constructor; [exact H1|now apply IH].
Qed.

Lemma keyed_get {A} (c : coll A) n v : keyed c -> dget String.eqb c n = Some v -> v_name v = n.
Proof. intros [_ F] G. apply dget_in in G. rewrite Forall_forall in F. exact (F _ G). Qed.

Lemma dset_keys_in {A} (c : list (string * A)) n v : In n (map fst c) -> map fst (dset String.eqb c n v) = map fst c.
Proof.
  induction c as [|[k w] t IH]; intros I; [easy|]. cbn [dset map fst] in *. destruct (String.eqb_spec n k) as [E|N]; cbn [map fst]; [reflexivity|].
  f_equal. apply IH. destruct I as [E|I]; [congruence|exact I].
Qed.

(** What the stacked variables are, by name. *)
Lemma fold_set_keys {A} (l : list (var A)) : forall c : coll A, (forall s, In s l -> In (v_name s) (map fst c)) ->
  map fst (fold_left (fun c s => dset String.eqb c (v_name s) s) l c) = map fst c.
Proof.
  induction l as [|s l IH]; intros c H; [reflexivity|]. cbn [fold_left]. rewrite IH.
  - apply dset_keys_in. apply H. now left.
  - intros x I. rewrite dset_keys_in by (apply H; now left). apply H. now right.
Qed.

Lemma fold_set_get {A} (l : list (var A)) : forall (c : coll A) s, NoDup (map v_name l) -> In s l ->
  dget String.eqb (fold_left (fun c s => dset String.eqb c (v_name s) s) l c) (v_name s) = Some s.
Proof.
  assert (O : forall (l : list (var A)) (c : coll A) n, ~ In n (map v_name l) ->
    dget String.eqb (fold_left (fun c s => dset String.eqb c (v_name s) s) l c) n = dget String.eqb c n).
  { induction l0 as [|s l0 IH]; intros c n N; [reflexivity|]. cbn [fold_left]. rewrite IH by (intros I; apply N; now right).
    rewrite dget_dset. destruct (String.eqb_spec n (v_name s)) as [E|E]; [|reflexivity]. destruct N. now left. }
  induction l as [|x l IH]; intros c s D I; [easy|]. cbn [map] in D. apply NoDup_cons_iff in D. destruct D as [D1 D2]. cbn [fold_left].
  destruct I as [->|I]; [|now apply IH]. rewrite O by exact D1. rewrite dget_dset, String.eqb_refl. reflexivity.
Qed.

Lemma fold_set_other {A} (l : list (var A)) : forall (c : coll A) n, ~ In n (map v_name l) ->
  dget String.eqb (fold_left (fun c s => dset String.eqb c (v_name s) s) l c) n = dget String.eqb c n.
Proof.
  induction l as [|s l IH]; intros c n N; [reflexivity|]. cbn [fold_left]. rewrite IH by (intros I; apply N; now right).
  rewrite dget_dset. destruct (String.eqb_spec n (v_name s)) as [E|E]; [|reflexivity]. destruct N. now left.
Qed.

Lemma NoDup_filter_keys {A} (f : string * A -> bool) l : NoDup (map fst l) -> NoDup (map fst (filter f l)).
Proof.
  induction l as [|x l IH]; intros D; [constructor|]. cbn [map] in D. apply NoDup_cons_iff in D. destruct D as [D1 D2]. cbn [filter].
  destruct (f x); [|now apply IH]. cbn [map]. constructor; [|now apply IH]. intros I. apply D1.
  apply in_map_iff in I. destruct I as (y & E & I). apply filter_In in I. rewrite <- E. now apply in_map.
Qed.

Section Colls.
Context {A : Type}.
Variables (fill : A) (first : coll A) (rest : list (coll A)) (name : string) (r : coll A).
Hypothesis key : keyed first.
Hypothesis done : stack_collections fill (first :: rest) name = Ok r.

Let to_stack := map fst (filter (fun nv => has_dim name (snd nv)) first).

Lemma stack_collections_shape : exists stacked,
  Forall2 (fun n s => exists vs, map_res (fun c => lookup c n) (first :: rest) = Ok vs /\ stack_variables fill vs name = Ok s) to_stack stacked /\
  map v_name stacked = to_stack /\ r = fold_left (fun c s => dset String.eqb c (v_name s) s) stacked first.
Proof.
  pose proof done as H. unfold stack_collections in H. apply bind_Ok in H. destruct H as (stacked & H1 & H2). injection H2 as H2.
  exists stacked. fold to_stack in H1. apply map_res_Forall2 in H1. split; [|split; [|now symmetry]].
  - clear H2. induction H1 as [|n s l m H _ IH]; constructor; [|exact IH]. apply bind_Ok in H. destruct H as (vs & E1 & E2). now exists vs.
  - clear H2. induction H1 as [|n s l m H _ IH]; [reflexivity|]. cbn [map]. f_equal; [|exact IH].
    apply bind_Ok in H. destruct H as (vs & E1 & E2). cbn [map_res] in E1. apply bind_Ok in E1. destruct E1 as (v & L & E1).
    apply bind_Ok in E1. destruct E1 as (t & _ & E1). injection E1 as <-. apply stack_frame in E2. destruct E2 as (-> & _).
    unfold lookup in L. destruct (dget String.eqb first n) as [w|] eqn:G; [|discriminate]. injection L as <-. exact (keyed_get _ _ _ key G).
Qed.

Lemma to_stack_in n v : dget String.eqb first n = Some v -> In n to_stack <-> has_dim name v = true.
Proof.
  intros G. unfold to_stack. rewrite in_map_iff. split.
  - intros ((k & w) & E & I). cbn [fst] in E. subst k. apply filter_In in I. destruct I as [I H]. cbn [snd] in H.
    apply (dget_nodup first n w (proj1 key)) in I. congruence.
  - intros H. exists (n, v). split; [reflexivity|]. apply filter_In. split; [now apply dget_in|exact H].
Qed.

Lemma collections_names : map fst r = map fst first.
Proof.
  destruct stack_collections_shape as (stacked & _ & N & ->). apply fold_set_keys. intros s I.
  assert (I' : In (v_name s) to_stack) by (rewrite <- N; now apply in_map).
  unfold to_stack in I'. apply in_map_iff in I'. destruct I' as (x & E & I'). apply filter_In in I'. rewrite <- E. now apply in_map.
Qed.

Lemma collections_others n v : dget String.eqb first n = Some v -> has_dim name v = false -> dget String.eqb r n = Some v.
Proof.
  intros G H. destruct stack_collections_shape as (stacked & _ & N & ->). rewrite fold_set_other; [exact G|].
  rewrite N. intros I. apply (to_stack_in n v G) in I. congruence.
Qed.

Lemma collections_stacked n v : dget String.eqb first n = Some v -> has_dim name v = true ->
  exists vs s, map_res (fun c => lookup c n) (first :: rest) = Ok vs /\ stack_variables fill vs name = Ok s /\ dget String.eqb r n = Some s.
Proof.
  intros G H. destruct stack_collections_shape as (stacked & F & N & E).
  assert (I : In n to_stack) by now apply (to_stack_in n v G).
  apply In_nth_error in I. destruct I as [j Hj].
  assert (X : exists s, nth_error stacked j = Some s /\ exists vs, map_res (fun c => lookup c n) (first :: rest) = Ok vs /\ stack_variables fill vs name = Ok s).
  { clear -F Hj. revert j Hj. induction F as [|m s l m' H _ IH]; intros [|j] Hj; try discriminate.
    - cbn [nth_error] in *. injection Hj as <-. now exists s.
    - now apply IH. }
  destruct X as (s & Hs & vs & E1 & E2). exists vs, s. split; [exact E1|]. split; [exact E2|].
  assert (Vn : v_name s = n).
  { pose proof (map_nth_error v_name _ _ Hs) as M. rewrite N in M. congruence. }
  rewrite E, <- Vn. apply fold_set_get; [|now apply nth_error_In in Hs]. rewrite N. apply NoDup_filter_keys. exact (proj1 key).
Qed.
End Colls.

(** ** Groups *)

Lemma fold_err {A B} (f : res B -> A -> res B) (E : forall e a, exists e', f (Err e) a = Err e') l : forall e, exists e', fold_left f l (Err e) = Err e'.
Proof.
  induction l as [|a l IH]; intros e; [now exists e|]. cbn [fold_left]. destruct (E e a) as [e' ->]. apply IH.
Qed.

Definition adds (ds : list dim) (l : list (string * dim)) : res (list (string * dim)) :=
  fold_left (fun a d => do l <- a; add_dimension l d) ds (Ok l).

Lemma adds_cons d ds l : adds (d :: ds) l = do l' <- add_dimension l d; adds ds l'.
Proof.
  unfold adds. cbn [fold_left bind]. destruct (add_dimension l d) as [l'|e]; [reflexivity|]. cbn [bind].
  induction ds as [|x ds IH]; [reflexivity|]. cbn [fold_left bind]. exact IH.
Qed.

Lemma dim_eqb_eq d e : dim_eqb d e = true <-> d = e.
Proof.
  unfold dim_eqb. destruct d as [n l u], e as [n' l' u']. cbn [d_name d_len d_unlimited]. rewrite !andb_true_iff, String.eqb_eq, Z.eqb_eq, Bool.eqb_true_iff.
  split; [intros [[-> ->] ->]; reflexivity|]. intros [= -> -> ->]. now repeat split.
Qed.

Lemma adds_ok ds : forall l, NoDup (map d_name ds) -> (forall d, In d ds -> dget String.eqb l (d_name d) = None \/ dget String.eqb l (d_name d) = Some d) ->
  exists l', adds ds l = Ok l' /\ (forall d, In d ds -> dget String.eqb l' (d_name d) = Some d) /\
    (forall n, ~ In n (map d_name ds) -> dget String.eqb l' n = dget String.eqb l n).
Proof.
  induction ds as [|d ds IH]; intros l D H.
  - exists l. now repeat split.
  - rewrite adds_cons. cbn [map] in D. apply NoDup_cons_iff in D. destruct D as [D1 D2].
    assert (X : exists l1, add_dimension l d = Ok l1 /\ dget String.eqb l1 (d_name d) = Some d /\ forall n, n <> d_name d -> dget String.eqb l1 n = dget String.eqb l n).
    { unfold add_dimension. destruct (H d (or_introl eq_refl)) as [G|G]; rewrite G.
      - exists (dset String.eqb l (d_name d) d). split; [reflexivity|]. split; [now rewrite dget_dset, String.eqb_refl|].
        intros n N. rewrite dget_dset. apply String.eqb_neq in N. now rewrite N.
      - rewrite (proj2 (dim_eqb_eq d d) eq_refl). exists l. now repeat split. }
    destruct X as (l1 & E1 & G1 & O1). rewrite E1. cbn [bind]. destruct (IH l1 D2) as (l' & E & G & O).
    { intros x I. rewrite O1; [apply H; now right|]. intros Ex. apply D1. rewrite <- Ex. now apply in_map. }
    exists l'. split; [exact E|]. split.
    + intros x [<-|I]; [|now apply G]. rewrite O by exact D1. exact G1.
    + intros n N. rewrite O by (intros I; apply N; now right). apply O1. intros ->. apply N. now left.
Qed.

Lemma adds_clash ds : forall l d e, In d ds -> dget String.eqb l (d_name d) = Some e -> e <> d -> forall l', adds ds l <> Ok l'.
Proof.
  induction ds as [|x ds IH]; intros l d e I G N l' H; [easy|]. rewrite adds_cons in H. apply bind_Ok in H. destruct H as (l1 & H1 & H2).
  destruct I as [->|I].
  - unfold add_dimension in H1. rewrite G in H1. destruct (dim_eqb e d) eqn:Q; [|discriminate]. now apply dim_eqb_eq in Q.
  - apply (IH l1 d e I) in H2; [exact H2| |exact N]. unfold add_dimension in H1.
    destruct (dget String.eqb l (d_name x)) as [y|] eqn:Gx.
    + destruct (dim_eqb y x); [|discriminate]. injection H1 as <-. exact G.
    + injection H1 as <-. rewrite dget_dset. destruct (String.eqb_spec (d_name d) (d_name x)) as [E|_]; [|exact G]. congruence.
Qed.

Lemma dget_filter_keys {V} (f : string * V -> bool) (l : list (string * V)) n : NoDup (map fst l) ->
  dget String.eqb (filter f l) n = match dget String.eqb l n with Some v => if f (n, v) then Some v else None | None => None end.
Proof.
  induction l as [|[k v] t IH]; intros D; [reflexivity|]. cbn [map fst] in D. apply NoDup_cons_iff in D. destruct D as [D1 D2].
  assert (Nn : n = k -> dget String.eqb t n = None) by (intros ->; now apply dget_none).
  cbn [filter]. destruct (f (k, v)) eqn:F; cbn [dget]; destruct (String.eqb_spec n k) as [E|N]; subst.
  - now rewrite F.
  - now apply IH.
  - rewrite F, IH by exact D2. now rewrite Nn.
  - now apply IH.
Qed.

Section Groups.
Context {A : Type}.
Variables (fill : A) (dname : string).

Lemma fill_groups_stack (v : var A) n dims : like dname (v_dims v) dims -> forall groups ws k acc,
  map_res (fun g => lookup (snd g) n) groups = Ok ws -> Forall (fun w => NoDup (dim_names w) /\ In dname (dim_names w) /\ along dname w = 1 /\ v_mask w = None) ws ->
  v_mask acc = None ->
  fill_groups dims dname n k groups (v_value acc) = do r <- fill_stack v dname k ws acc; Ok (v_value r).
Proof.
  intros L. 
  assert (E1 : forall k, map (fun d => if String.eqb (d_name d) dname then k else 0) dims = starts v dname k).
  { intros k. unfold starts. clear -L. induction L as [|d e l m [H1 H2] _ IH]; [reflexivity|]. cbn [map]. now rewrite IH, H1. }
  assert (E2 : forall k, map (fun d => if String.eqb (d_name d) dname then k else d_len d) dims = stops v dname k).
  { intros k. unfold stops. clear -L. induction L as [|d e l m [H1 H2] _ IH]; [reflexivity|]. cbn [map]. rewrite IH.
    f_equal. rewrite <- H1. destruct (String.eqb_spec (d_name d) dname) as [E|N]; [reflexivity|]. symmetry. now apply H2. }
  induction groups as [|[g c] t IH]; intros ws k acc M F U; cbn [map_res snd] in M.
  - injection M as <-. reflexivity.
  - apply bind_Ok in M. destruct M as (w & Lw & M). apply bind_Ok in M. destruct M as (ws' & M & E). injection E as <-.
    inversion F as [|? ? (Fn & Fi & Fa & Fm) F']; subst. cbn [fill_groups fill_stack]. rewrite Lw. cbn [bind].
    rewrite len_of_along by assumption. cbn [bind]. rewrite Fa, E1, E2. unfold set_item. rewrite Fm.
    destruct (np_assign (v_value acc) (starts v dname k) (stops v dname (k + 1)) (v_value w)) as [x|e]; [|reflexivity]. cbn [bind].
    rewrite <- (IH ws' (k + 1) (mkvar (v_name acc) (v_dims acc) x (v_mask acc) (v_units acc) (v_bounds acc)) M F' U). reflexivity.
Qed.

Lemma fill_stack_unmasked (v : var A) ws : forall k acc r, Forall (fun w => v_mask w = None) ws -> v_mask acc = None ->
  fill_stack v dname k ws acc = Ok r -> v_mask r = None.
Proof.
  induction ws as [|w ws IH]; intros k acc r F U H; cbn [fill_stack] in H.
  - now injection H as <-.
  - inversion F as [|? ? Fw F']; subst. apply bind_Ok in H. destruct H as (n & _ & H). apply bind_Ok in H. destruct H as (a & H1 & H2).
    apply (IH _ _ _ F' ) in H2; [exact H2|]. unfold set_item in H1. rewrite Fw in H1. apply bind_Ok in H1. destruct H1 as (x & _ & H1).
    cbn [bind] in H1. injection H1 as <-. exact U.
Qed.

Definition groups_dims (v : var A) (size : Z) : list dim := stacked_group_dims v dname size.

Lemma groups_dims_lens v size : map d_len (stacked_group_dims (v : var A) dname size) = map d_len (new_dims v dname size).
Proof.
  unfold stacked_group_dims, new_dims. rewrite !map_map. apply map_ext. intros d. cbn [d_name]. destruct (String.eqb (d_name d) dname); reflexivity.
Qed.

Lemma groups_dims_names v size : map d_name (stacked_group_dims (v : var A) dname size) = dim_names v.
Proof.
  unfold stacked_group_dims, dim_names. rewrite !map_map. apply map_ext. intros d. cbn [d_name].
  destruct (String.eqb_spec (d_name d) dname) as [E|N]; [now symmetry|reflexivity].
Qed.

Lemma groups_dims_like v size : like dname (v_dims v) (stacked_group_dims (v : var A) dname size).
Proof.
  unfold stacked_group_dims, like. rewrite map_map. induction (v_dims v) as [|d t IH]; [constructor|]. cbn [map]. constructor; [|exact IH].
  cbn [d_name]. destruct (String.eqb_spec (d_name d) dname) as [E|N]; cbn [d_name d_len]; [split; [exact E|contradiction]|now split].
Qed.

Lemma group_variable_ok (g0 : string) (first : coll A) (rest : list (string * coll A)) (n : string) (v : var A) ws :
  dget String.eqb first n = Some v -> v_name v = n ->
  map_res (fun g => lookup (snd g) n) ((g0, first) :: rest) = Ok ws ->
  In dname (dim_names v) -> Forall sound ws -> Forall (alike dname v) ws -> Forall (fun w => along dname w = 1 /\ v_mask w = None) ws ->
  exists r, group_variable fill ((g0, first) :: rest) dname v = Ok r /\ v_name r = n /\ v_mask r = None /\
    v_dims r = stacked_group_dims v dname (Z.of_nat (length ws)) /\ nd_shape (v_value r) = map d_len (v_dims r) /\ one_after_other dname ws r.
Proof.
  intros G Vn M I S' L F.
  assert (Len : length ws = length ((g0, first) :: rest)) by (apply map_res_Forall2 in M; symmetry; exact (Forall2_len _ _ _ M)).
  assert (T : total dname ws = Z.of_nat (length ws)).
  { clear -F. induction F as [|w ws [H _] _ IH]; [reflexivity|]. change (total dname (w :: ws)) with (along dname w + total dname ws). cbn [length]. lia. }
  assert (W : exists ws', ws = v :: ws').
  { cbn [map_res snd] in M. apply bind_Ok in M. destruct M as (w & Lw & M). apply bind_Ok in M. destruct M as (ws' & M & E). injection E as <-.
    unfold lookup in Lw. rewrite G in Lw. injection Lw as <-. now exists ws'. }
  destruct W as [ws' W].
  assert (St : exists r0, stack_variables fill ws dname = Ok r0 /\ v_dims r0 = new_dims v dname (total dname ws) /\ nd_shape (v_value r0) = map d_len (v_dims r0) /\ one_after_other dname ws r0).
  { rewrite W in *. destruct (stack_ok fill v ws' dname I S' L) as (r & E & _ & _ & _ & Ed & Es & O). now exists r. }
  destruct St as (r0 & E0 & D0 & S0 & O0).
  unfold group_variable. cbv zeta.
  assert (Len2 : @Datatypes.length (string * coll A) (@cons (string * coll A) (@pair string (coll A) g0 first) rest) = length ws) by (symmetry; exact Len).
  rewrite Len2, Vn.
  assert (Fe : Forall (fun w => NoDup (dim_names w) /\ In dname (dim_names w) /\ along dname w = 1 /\ v_mask w = None) ws).
  { apply Forall_forall. intros w Iw. rewrite Forall_forall in S', L, F. destruct (F w Iw). split; [exact (sd_names w (S' w Iw))|].
    split; [|now split]. apply (alike_in dname v I). now apply L. }
  assert (St : exists acc, v_mask acc = None /\ v_value acc = mknd (map d_len (stacked_group_dims v dname (Z.of_nat (length ws)))) (fun _ => fill) /\ fill_stack v dname 0 ws acc = Ok r0).
  { unfold stack_variables in E0. rewrite W in E0. apply bind_Ok in E0. destruct E0 as (s & Es & E0). rewrite <- W in E0.
    assert (Sz : fold_right Z.add 0 s = Z.of_nat (length ws)).
    { rewrite <- T. rewrite <- W in Es. apply map_res_Forall2 in Es. clear -Es Fe. induction Es as [|w n l m H _ IH]; [reflexivity|].
      inversion Fe as [|? ? (F1 & F2 & F3 & _) Fe']; subst. rewrite len_of_along in H by assumption. injection H as <-.
      change (total dname (w :: l)) with (along dname w + total dname l). cbn [fold_right]. now rewrite IH. }
    rewrite Sz in E0. eexists. split; [|split; [|exact E0]]; [reflexivity|]. cbn [v_value]. now rewrite groups_dims_lens. }
  destruct St as (acc & Ua & Va & Fa). rewrite <- Va.
  rewrite (fill_groups_stack v n _ (groups_dims_like v _) _ ws 0 acc M Fe Ua), Fa. cbn [bind].
  eexists. split; [reflexivity|]. cbn [v_name v_mask v_dims v_value]. split; [reflexivity|]. split; [reflexivity|]. split; [reflexivity|].
  assert (Lr : map d_len (stacked_group_dims v dname (Z.of_nat (length ws))) = map d_len (v_dims r0)) by now rewrite groups_dims_lens, D0, T.
  split; [rewrite Lr; exact S0|].
  assert (Mr : v_mask r0 = None).
  { apply (fill_stack_unmasked v ws 0 acc r0); [|exact Ua|exact Fa]. apply Forall_forall. intros w Iw. rewrite Forall_forall in F. now apply F. }
  destruct O0 as [V0 M0 I0 U0]. constructor; cbn [v_dims v_value].
  - exact V0.
  - intros j w idx Hj Hi. rewrite <- (M0 j w idx Hj Hi). unfold is_masked. cbn [v_mask]. now rewrite Mr.
  - rewrite Lr. exact I0.
  - rewrite Lr. exact U0.
Qed.
End Groups.

Section ToVariable.
Context {A : Type}.
Variables (fill : A) (encode : string -> A) (dims : list (string * dim)) (g0 : string) (first : coll A) (rest : list (string * coll A)) (name dname : string).
Hypothesis key : keyed first.
Hypothesis nodims : NoDup (map fst dims).

Let groups : list (string * coll A) := (g0, first) :: rest.

Lemma filter_one n v : dget String.eqb first n = Some v -> has_dim dname v = true ->
  (forall n' v', dget String.eqb first n' = Some v' -> has_dim dname v' = true -> n' = n) ->
  filter (fun nv => has_dim dname (snd nv)) first = [(n, v)].
Proof.
  intros G H U. pose proof (NoDup_filter_keys (fun nv => has_dim dname (snd nv)) first (proj1 key)) as D.
  assert (I : In (n, v) (filter (fun nv => has_dim dname (snd nv)) first)) by (apply filter_In; split; [now apply dget_in|exact H]).
  assert (O : forall x, In x (filter (fun nv => has_dim dname (snd nv)) first) -> x = (n, v)).
  { intros [m w] Ix. apply filter_In in Ix. destruct Ix as [Ix Hx]. cbn [snd] in Hx.
    apply (dget_nodup first m w (proj1 key)) in Ix. pose proof (U m w Ix Hx). subst m. congruence. }
  destruct (filter (fun nv => has_dim dname (snd nv)) first) as [|x [|y l]]; [easy| |].
  - f_equal. apply O. now left.
  - pose proof (O x (or_introl eq_refl)) as Ex. pose proof (O y (or_intror (or_introl eq_refl))) as Ey. subst x y.
    cbn [map fst] in D. apply NoDup_cons_iff in D. destruct D as [D _]. destruct D. now left.
Qed.

Lemma has_dim_in (v : var A) d : has_dim d v = true <-> In d (dim_names v).
Proof. unfold has_dim. rewrite existsb_exists. split; [intros (x & I & E); apply String.eqb_eq in E; now subst|]. intros I. exists d. split; [exact I|apply String.eqb_refl]. Qed.

Lemma groups_ok n v ws : dget String.eqb first n = Some v -> has_dim dname v = true ->
  (forall n' v', dget String.eqb first n' = Some v' -> has_dim dname v' = true -> n' = n) ->
  v_bounds v = None ->
  (forall n' v' d, dget String.eqb first n' = Some v' -> In d (v_dims v') -> dget String.eqb dims (d_name d) = Some d) ->
  (forall d, In d (v_dims v) -> d_name d <> dname -> d_unlimited d = false) ->
  dget String.eqb first name = None ->
  map_res (fun g => lookup (snd g) n) groups = Ok ws ->
  Forall sound ws -> Forall (alike dname v) ws -> Forall (fun w => along dname w = 1 /\ v_mask w = None) ws ->
  exists r new label, groups_to_variable fill encode dims groups name dname = Ok r /\
    dget String.eqb (gc_vars r) n = Some new /\ v_mask new = None /\ dim_names new = dim_names v /\ one_after_other dname ws new /\
    dget String.eqb (gc_vars r) name = Some label /\ v_dims label = [mkdim dname (Z.of_nat (length groups)) false] /\
    (forall k g c, nth_error groups k = Some (g, c) -> nd_at (v_value label) [Z.of_nat k] = encode g) /\
    (forall n', n' <> n -> n' <> name -> dget String.eqb (gc_vars r) n' = dget String.eqb first n') /\
    dget String.eqb (gc_dims r) dname = Some (mkdim dname (Z.of_nat (length groups)) false).
Proof.
  intros G H U B Dd Fx Nn M S' L F.
  pose proof (keyed_get _ _ _ key G) as Vn.
  assert (I : In dname (dim_names v)) by now apply has_dim_in.
  destruct (group_variable_ok fill dname g0 first rest n v ws G Vn M I S' L F) as (new & En & Nm & Mk & Dn & Sn & On). fold groups in En.
  assert (Len : length ws = length groups) by (apply map_res_Forall2 in M; symmetry; exact (Forall2_len _ _ _ M)).
  unfold groups_to_variable. fold groups. unfold groups at 1. rewrite (filter_one n v G H U). cbn [fold_left bind snd].
  unfold replace_by_groups. rewrite En, Vn. cbn [bind]. unfold remove_variable, lookup. cbn [gc_vars gc_dims]. rewrite G. cbn [bind]. rewrite B. cbn [bind map fst List.concat].
  rewrite app_nil_r.
  set (vars := filter (fun nv => negb (existsb (String.eqb (fst nv)) [n])) first).
  set (ds := filter (fun nd => negb (existsb (String.eqb (fst nd)) (dim_names v)) || existsb (fun nv => has_dim (fst nd) (snd nv)) vars) dims).
  assert (Gv : forall m, dget String.eqb vars m = if String.eqb m n then None else dget String.eqb first m).
  { intros m. unfold vars. rewrite dget_filter_keys by exact (proj1 key). cbn [fst existsb]. rewrite orb_false_r.
    destruct (String.eqb_spec m n) as [E|N]; cbn [negb]; [now destruct (dget String.eqb first m)|now destruct (dget String.eqb first m)]. }
  assert (Nod : forall nv, In nv vars -> has_dim dname (snd nv) = false).
  { intros [m w] Iv. cbn [snd]. unfold vars in Iv. apply filter_In in Iv. destruct Iv as [Iv Nv]. cbn [fst existsb] in Nv. rewrite orb_false_r in Nv.
    apply (dget_nodup first m w (proj1 key)) in Iv. destruct (has_dim dname w) eqn:Hw; [|reflexivity].
    rewrite (U m w Iv Hw), String.eqb_refl in Nv. discriminate. }
  assert (Gd : dget String.eqb ds dname = None).
  { unfold ds. rewrite dget_filter_keys by exact nodims. destruct (dget String.eqb dims dname) as [d|]; [|reflexivity]. cbn [fst].
    rewrite (proj2 (has_dim_in v dname) I : existsb (String.eqb dname) (dim_names v) = true). cbn [negb orb].
    replace (existsb (fun nv => has_dim dname (snd nv)) vars) with false; [reflexivity|]. symmetry.
    apply not_true_is_false. intros X. apply existsb_exists in X. destruct X as (x & Ix & Hx). rewrite (Nod x Ix) in Hx. discriminate. }
  pose proof (groups_dims_names dname v (Z.of_nat (length ws))) as Nms.
  assert (Sv : NoDup (dim_names v)).
  { assert (Iw : In v ws). { unfold groups in M. cbn [map_res snd] in M. apply bind_Ok in M. destruct M as (w & Lw & M). apply bind_Ok in M. destruct M as (ws' & _ & E). injection E as <-.
      unfold lookup in Lw. rewrite G in Lw. injection Lw as <-. now left. }
    rewrite Forall_forall in S'. exact (sd_names v (S' v Iw)). }
  destruct (adds_ok (v_dims new) ds) as (l' & El & Gl & Ol).
  { rewrite Dn, Nms. exact Sv. }
  { intros d Id. rewrite Dn in Id. unfold stacked_group_dims in Id. rewrite map_map in Id. apply in_map_iff in Id. destruct Id as (e & Ee & Ie). cbn [d_name] in Ee.
    destruct (String.eqb_spec (d_name e) dname) as [Eq|Nq]; subst d.
    - left. cbn [d_name]. exact Gd.
    - cbn [d_name]. pose proof (Dd n v e G Ie) as Ge. assert (Ef : mkdim (d_name e) (d_len e) false = e) by (rewrite <- (Fx e Ie Nq); now destruct e).
      rewrite Ef. unfold ds. rewrite dget_filter_keys by exact nodims. rewrite Ge.
      match goal with |- context [if ?b then _ else _] => destruct b; [now right|now left] end. }
  unfold add_variable at 1. cbn [gc_dims gc_vars]. fold (adds (v_dims new) ds). rewrite El. cbn [bind]. rewrite Nm.
  unfold dmem at 1. rewrite Gv, String.eqb_refl. cbn [bind].
  assert (Gdn : dget String.eqb l' dname = Some (mkdim dname (Z.of_nat (length ws)) false)).
  { apply (Gl (mkdim dname (Z.of_nat (length ws)) false)). rewrite Dn. unfold stacked_group_dims. rewrite map_map. unfold dim_names in I. apply in_map_iff in I.
    destruct I as (e & Ee & Ie). apply in_map_iff. exists e. split; [|exact Ie]. cbn [d_name]. now rewrite Ee, String.eqb_refl. }
  unfold add_variable. cbn [gc_dims gc_vars v_dims fold_left bind v_name]. unfold add_dimension. cbn [d_name]. rewrite Gdn, Len.
  rewrite (proj2 (dim_eqb_eq _ _) eq_refl). cbn [bind].
  assert (Nnn : name <> n) by congruence.
  assert (Gn : dget String.eqb (dset String.eqb vars n new) name = None).
  { rewrite dget_dset, Gv. apply String.eqb_neq in Nnn. now rewrite Nnn. }
  unfold dmem. rewrite Gn. eexists. exists new. eexists. split; [reflexivity|]. cbn [gc_vars gc_dims].
  split; [rewrite dget_dset, dget_dset, String.eqb_refl; destruct (String.eqb_spec n name) as [E|_]; [congruence|reflexivity]|].
  split; [exact Mk|]. split; [unfold dim_names at 1; now rewrite Dn, Nms|]. split; [exact On|].
  split; [now rewrite dget_dset, String.eqb_refl|]. split; [reflexivity|]. split.
  - intros k g c Hk. cbn [v_value nd_at nth]. rewrite Nat2Z.id. apply nth_error_nth. rewrite nth_error_map, Hk. reflexivity.
  - split; [|now rewrite Gdn, Len]. intros n' N1 N2. rewrite !dget_dset, Gv. apply String.eqb_neq in N1, N2. now rewrite N1, N2.
Qed.

(** Two variables with the dimension. *)
Lemma filter_two n1 v1 n2 v2 : n1 <> n2 -> dget String.eqb first n1 = Some v1 -> has_dim dname v1 = true -> dget String.eqb first n2 = Some v2 -> has_dim dname v2 = true ->
  exists m1 w1 m2 w2 l, filter (fun nv => has_dim dname (snd nv)) first = (m1, w1) :: (m2, w2) :: l /\ m1 <> m2 /\
    dget String.eqb first m1 = Some w1 /\ has_dim dname w1 = true /\ dget String.eqb first m2 = Some w2 /\ has_dim dname w2 = true.
Proof.
  intros N G1 H1 G2 H2. pose proof (NoDup_filter_keys (fun nv => has_dim dname (snd nv)) first (proj1 key)) as D.
  assert (I1 : In (n1, v1) (filter (fun nv => has_dim dname (snd nv)) first)) by (apply filter_In; split; [now apply dget_in|exact H1]).
  assert (I2 : In (n2, v2) (filter (fun nv => has_dim dname (snd nv)) first)) by (apply filter_In; split; [now apply dget_in|exact H2]).
  assert (O : forall m w, In (m, w) (filter (fun nv => has_dim dname (snd nv)) first) -> dget String.eqb first m = Some w /\ has_dim dname w = true).
  { intros m w Ix. apply filter_In in Ix. destruct Ix as [Ix Hx]. split; [now apply (dget_nodup first m w (proj1 key))|exact Hx]. }
  destruct (filter (fun nv => has_dim dname (snd nv)) first) as [|[m1 w1] [|[m2 w2] l]].
  - easy.
  - destruct I1 as [I1|[]], I2 as [I2|[]]. congruence.
  - exists m1, w1, m2, w2, l. split; [reflexivity|]. cbn [map fst] in D. apply NoDup_cons_iff in D. destruct D as [D _].
    split; [intros E; apply D; now left|]. destruct (O m1 w1 (or_introl eq_refl)). destruct (O m2 w2 (or_intror (or_introl eq_refl))). now repeat split.
Qed.

Lemma two_never n1 v1 n2 v2 e : n1 <> n2 -> dget String.eqb first n1 = Some v1 -> has_dim dname v1 = true -> dget String.eqb first n2 = Some v2 -> has_dim dname v2 = true ->
  dget String.eqb dims dname = Some e -> d_len e <> Z.of_nat (length groups) ->
  forall r, groups_to_variable fill encode dims groups name dname <> Ok r.
Proof.
  intros N G1 H1 G2 H2 Gd Ne r X.
  destruct (filter_two n1 v1 n2 v2 N G1 H1 G2 H2) as (m1 & w1 & m2 & w2 & l & E & N12 & K1 & D1 & K2 & D2).
  unfold groups_to_variable in X. fold groups in X. unfold groups at 1 in X. rewrite E in X. cbn [fold_left] in X. apply bind_Ok in X. destruct X as (z & X & _).
  assert (St : exists err, (do r0 <- (do r0 <- Ok (mkgcoll dims first); replace_by_groups fill groups dname r0 w1); replace_by_groups fill groups dname r0 w2) = Err err).
  { cbn [bind]. set (second := fun r0 => replace_by_groups fill groups dname r0 w2). unfold replace_by_groups. rewrite (keyed_get _ _ _ key K1). unfold remove_variable at 1, lookup at 1. cbn [gc_vars gc_dims]. rewrite K1. cbn [bind].
    assert (Dec : v_bounds w1 = Some m2 \/ v_bounds w1 <> Some m2).
    { destruct (v_bounds w1) as [b|]; [|now right]. destruct (String.eqb_spec b m2) as [->|Nb]; [now left|right; congruence]. }
    destruct Dec as [Eb|Nb].
    - rewrite Eb. unfold lookup. rewrite K2. cbn [bind map fst].
      destruct (group_variable fill groups dname w1) as [new|err] eqn:Gv; cbn [bind]; [|now exists err].
      assert (Vn : v_name new = m1).
      { unfold group_variable in Gv. apply bind_Ok in Gv. destruct Gv as (x & _ & Gv). injection Gv as <-. exact (keyed_get _ _ _ key K1). }
      unfold add_variable at 1. cbn [gc_vars gc_dims].
      match goal with |- context [fold_left ?f ?a ?b] => destruct (fold_left f a b) as [l'|err] end; cbn [bind]; [|now exists err].
      match goal with |- context [if ?b then _ else _] => destruct b end; cbn [bind]; [now eexists|].
      unfold second, replace_by_groups, remove_variable, lookup. cbn [gc_vars]. rewrite (keyed_get _ _ _ key K2), Vn, dget_dset.
      destruct (String.eqb_spec m2 m1) as [Q|_]; [congruence|]. rewrite dget_filter_keys by exact (proj1 key). rewrite K2. cbn [fst existsb].
      rewrite String.eqb_refl, orb_true_r. cbn [negb bind]. now eexists.
    - destruct (match v_bounds w1 with None => Ok [] | Some b => do w <- lookup first b; Ok [(b, w)] end) as [b|err] eqn:Bb; cbn [bind]; [|now exists err].
      assert (Bn : ~ In m2 (map fst b)).
      { destruct (v_bounds w1) as [b0|]; [|injection Bb as <-; easy]. apply bind_Ok in Bb. destruct Bb as (w & _ & Bb). injection Bb as <-. cbn [map fst].
        intros [Q|[]]. congruence. }
      destruct (group_variable fill groups dname w1) as [new|err] eqn:Gv; cbn [bind]; [|now exists err].
      unfold add_variable at 1. cbn [gc_vars gc_dims].
      match goal with |- context [fold_left ?f ?a (Ok ?b)] => destruct (fold_left f a (Ok b)) as [l'|err] eqn:Ad end; cbn [bind]; [|now exists err].
      exfalso. revert Ad. apply (adds_clash (v_dims new) _ (mkdim dname (Z.of_nat (length groups)) false) e).
      + unfold group_variable in Gv. apply bind_Ok in Gv. destruct Gv as (x & _ & Gv). injection Gv as <-. cbn [v_dims]. unfold stacked_group_dims. rewrite map_map.
        apply has_dim_in in D1. unfold dim_names in D1. apply in_map_iff in D1. destruct D1 as (d & Ed & Id). apply in_map_iff. exists d. split; [|exact Id].
        cbn [d_name]. now rewrite Ed, String.eqb_refl.
      + cbn [d_name]. rewrite dget_filter_keys by exact nodims. rewrite Gd. cbn [fst].
        match goal with |- (if ?b then _ else _) = _ => replace b with true; [reflexivity|] end. symmetry. apply orb_true_iff. right.
        apply existsb_exists. exists (m2, w2). split; [|exact D2]. apply filter_In. split; [now apply dget_in|]. cbn [fst existsb].
        apply String.eqb_neq in N12. rewrite String.eqb_sym in N12. rewrite N12. cbn [orb]. apply negb_true_iff. apply not_true_is_false. intros Q.
        apply existsb_exists in Q. destruct Q as (q & Iq & Eq). apply String.eqb_eq in Eq. now subst q.
      + intros Q. rewrite Q in Ne. now cbn in Ne. }
  destruct St as [err St]. cbn [snd] in X. rewrite St in X.
  destruct (fold_err (fun a nv => do r0 <- a; replace_by_groups fill groups dname r0 (snd nv)) (fun e0 a => ex_intro _ e0 eq_refl) l err) as [e' Q].
  congruence.
Qed.
End ToVariable.
