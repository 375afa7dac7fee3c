(** Proofs about subsets, reduced nodes and the ESMF format. *)
From Verif Require Import Py Lib PartitionModel DistModel ScatterProofs CoordSpec CoordModel CoordProofs SelectProofs MeshModel MeshSpec MeshProofs MeshMore.
Local Close Scope Q_scope.
Local Open Scope Z_scope.

(** ** Selections *)

Lemma select_F2 {A B} (R : A -> B -> Prop) : forall sel l l', Forall2 R l l' -> Forall2 R (select sel l) (select sel l').
Proof. induction sel as [|b sel IH]; intros l l' F; [constructor|]. destruct F as [|x y l l' H F]; [constructor|]. cbn [select]. destruct b; [constructor; [exact H|]|]; now apply IH. Qed.

Lemma select_length {A B} : forall sel (l : list A) (l' : list B), List.length l = List.length l' -> List.length (select sel l) = List.length (select sel l').
Proof. induction sel as [|b sel IH]; intros [|x l] [|y l'] E; cbn [select List.length] in *; try discriminate; try reflexivity. injection E as E. destruct b; cbn [List.length]; rewrite (IH l l' E); reflexivity. Qed.

Lemma select_map {A B} (f : A -> B) : forall sel l, select sel (map f l) = map f (select sel l).
Proof. induction sel as [|b sel IH]; intros [|x l]; try reflexivity. cbn [map select]. rewrite IH. destruct b; reflexivity. Qed.

Lemma select_chosen {A} (P : nat -> A -> Prop) : forall sel l k, List.length sel = List.length l ->
  (forall j x b, nth_error l j = Some x -> nth_error sel j = Some b -> (b = true <-> P (k + j)%nat x)) -> Chosen P k l (select sel l).
Proof.
  induction sel as [|b sel IH]; intros [|x l] k L H; cbn in L; try discriminate; [constructor|]. cbn [select].
  assert (Hk : b = true <-> P k x) by (specialize (H 0%nat x b eq_refl eq_refl); now rewrite Nat.add_0_r in H).
  assert (Ht : Chosen P (S k) l (select sel l)).
  { apply IH; [congruence|]. intros j y c Hy Hc. specialize (H (S j) y c Hy Hc). now replace (S k + j)%nat with (k + S j)%nat by lia. }
  destruct b; constructor; try exact Ht; [now apply Hk|]. intro Q. apply Hk in Q. discriminate.
Qed.

Lemma select_none {A} : forall sel (l : list A), existsb (fun b => b) sel = false -> select sel l = [].
Proof. induction sel as [|b sel IH]; intros [|x l] H; try reflexivity. cbn in H |- *. destruct b; [discriminate|]. now apply IH. Qed.

Lemma select_some {A} : forall sel (l : list A), List.length sel = List.length l -> existsb (fun b => b) sel = true -> select sel l <> [].
Proof. induction sel as [|b sel IH]; intros [|x l] L H; cbn in L, H |- *; try discriminate. destruct b; [discriminate|]. apply IH; [congruence|exact H]. Qed.

Lemma select_mask m sel k : (forall j, nth_error sel j = Some true -> nth_error m j = Some false) -> nth_error (select sel m) k <> Some true.
Proof.
  revert m k. induction sel as [|b sel IH]; intros [|x m] k H; cbn [select]; try (destruct k; discriminate).
  assert (Ht : forall j, nth_error sel j = Some true -> nth_error m j = Some false) by (intros j Hj; exact (H (S j) Hj)).
  destruct b; [|now apply IH]. pose proof (H 0%nat eq_refl) as H0. injection H0 as ->. destruct k; [discriminate|]. now apply IH.
Qed.

Definition wanted (pred : geom -> bool) (og : option geom) : bool := match og with Some geo => pred geo | None => false end.

Lemma wanted_twice pred l : map negb (map (fun og => negb (wanted pred og)) l) = map (wanted pred) l.
Proof. rewrite map_map. apply map_ext. intro. apply negb_involutive. Qed.

Lemma wanted_spec pred masked gs k geo b : nth_error gs k = Some geo -> nth_error (map (wanted pred) (expected masked 0 gs)) k = Some b ->
  b = negb (masked k) && pred geo.
Proof.
  intros H1 H2. rewrite nth_error_map, expected_nth, H1, Nat.add_0_l in H2. cbn [option_map] in H2. injection H2 as <-. now destruct (masked k).
Qed.

Lemma nth_repeat_false k n : nth k (repeat false n) false = false.
Proof. revert k. induction n as [|n IH]; intros [|k]; try reflexivity. apply IH. Qed.

Lemma hint_zeros g n k : masked_at g true (Some (repeat false n)) k = masked_at g true None k.
Proof. unfold masked_at. destruct (g_mask g); [|reflexivity]. now rewrite nth_repeat_false. Qed.

Lemma slice_shape g sel rows (gs : list geom) : g_index g = Some (Ragged rows) \/ g_index g = Some (Table rows) -> existsb (fun b => b) sel = true ->
  exists g', slice_elements g sel = Ok (Some g') /\ g_point g' = g_point g /\ g_nodes g' = g_nodes g /\ start_index g' = start_index g /\ g_multi g' = g_multi g /\
    g_mask g' = option_map (select sel) (g_mask g) /\ Ugrid g' /\ exists s', g_index g' = Some s' /\ rows_of s' = select sel rows.
Proof.
  intros I E. unfold slice_elements. rewrite E. destruct I as [I|I]; rewrite I; eexists; (split; [reflexivity|]); cbn [g_point g_nodes g_multi g_mask g_index];
    (split; [reflexivity|]); (split; [reflexivity|]); (split; [unfold start_index; cbn [g_given g_index g_attr]; now rewrite I|]); (split; [reflexivity|]); (split; [reflexivity|]);
    (split; [exists (select sel rows); auto|]); eexists; split; reflexivity.
Qed.

Theorem subset_rows g gs pred in_box om : Mesh g gs -> Ugrid g -> g_multi g = None \/ start_index g = 0 ->
  exists r sel gs', spatial_subset g pred in_box om true = (g, Ok (r, sel)) /\ List.length sel = List.length gs /\
    (forall k geo b, nth_error gs k = Some geo -> nth_error sel k = Some b -> (b = true <-> ~ Masked (g_mask g) k /\ pred geo = true)) /\
    Chosen (fun k geo => ~ Masked (g_mask g) k /\ pred geo = true) 0 gs gs' /\
    match r with Some g' => gs' <> [] /\ Mesh g' gs' /\ Ugrid g' /\ (forall k, ~ Masked (g_mask g') k) | None => gs' = [] end.
Proof.
  intros H U M. pose proof H as [P [s [I [F [V [St L]]]]]].
  assert (N : n_elements g = List.length gs).
  { destruct (F2_nth _ _ _ F) as [FL _]. unfold n_elements. rewrite I. destruct U as [rows U]. rewrite I in U. destruct U as [U|U]; injection U as ->; exact FL. }
  set (ex := expected (masked_at g true (Some (repeat false (List.length gs)))) 0 gs).
  set (sel := map (wanted pred) ex).
  assert (Ls : List.length sel = List.length gs) by (unfold sel, ex; now rewrite map_length, expected_length).
  assert (Sp : forall k geo b, nth_error gs k = Some geo -> nth_error sel k = Some b -> (b = true <-> ~ Masked (g_mask g) k /\ pred geo = true)).
  { intros k geo b H1 H2. apply wanted_spec with (1 := H1) in H2. rewrite hint_zeros in H2. pose proof (masked_spec g true k) as MS. subst b. split.
    - intro Q. apply andb_true_iff in Q. destruct Q as [Q1 Q2]. split; [|exact Q2]. intro Q. rewrite (proj2 MS (conj eq_refl Q)) in Q1. discriminate.
    - intros [Q1 Q2]. rewrite Q2, andb_true_r. destruct (masked_at g true None k); [|reflexivity]. exfalso. apply Q1. exact (proj2 (proj1 MS eq_refl)). }
  assert (E : spatial_subset g pred in_box om true = (g, do sliced <- slice_elements g sel; Ok (sliced, sel))).
  { assert (G0 : gs = [] \/ forallb (fun b => b) (repeat false (List.length gs)) = false) by (clear; destruct gs; [now left|now right]).
    unfold spatial_subset. rewrite P, N. destruct G0 as [G0|G0].
    - unfold sel, ex. rewrite G0. reflexivity.
    - rewrite G0.
      rewrite (iter_rows_hint g gs true _ H U M). cbn [bind]. fold ex. change (fun og => negb match og with Some geo => pred geo | None => false end) with (fun og => negb (wanted pred og)).
      rewrite wanted_twice. reflexivity. }
  assert (C : Chosen (fun k geo => ~ Masked (g_mask g) k /\ pred geo = true) 0 gs (select sel gs)) by (apply select_chosen; [exact Ls|exact Sp]).
  destruct (existsb (fun b => b) sel) eqn:X.
  - destruct U as [rows U]. destruct (slice_shape g sel rows gs U X) as [g' [E1 [P1 [N1 [S1 [M1 [K1 [U1 [s' [I1 R1]]]]]]]]]].
    exists (Some g'), sel, (select sel gs). rewrite E, E1. split; [reflexivity|]. split; [exact Ls|]. split; [exact Sp|]. split; [exact C|]. split; [now apply select_some|]. split; [|split; [exact U1|]].
    + split; [congruence|]. exists s'. split; [exact I1|]. rewrite N1, S1, M1, R1. assert (rows_of s = rows) as Rs by (rewrite I in U; destruct U as [U|U]; injection U as ->; reflexivity).
      rewrite Rs in F. split; [now apply select_F2|]. split; [exact V|]. split; [exact St|]. rewrite K1. intros m Hm. destruct (g_mask g) as [m0|]; [|discriminate]. injection Hm as <-. apply select_length. now apply L.
    + intros k [m [Hm Hk]]. rewrite K1 in Hm. destruct (g_mask g) as [m0|] eqn:G; [|discriminate]. injection Hm as <-. revert Hk. apply select_mask. intros j Hj.
      assert (Q : (j < List.length gs)%nat) by (rewrite <- Ls; apply nth_error_Some; congruence).
      destruct (nth_error gs j) as [geo|] eqn:Gj; [|apply nth_error_None in Gj; lia]. destruct (proj1 (Sp j geo true Gj Hj) eq_refl) as [NM _].
      destruct (nth_error m0 j) as [[|]|] eqn:Mj; [exfalso; apply NM; exists m0; now split|reflexivity|]. apply nth_error_None in Mj. rewrite (L m0 eq_refl) in Mj. lia.
  - exists None, sel, (select sel gs). rewrite E. unfold slice_elements. rewrite X. split; [reflexivity|]. split; [exact Ls|]. split; [exact Sp|]. split; [exact C|]. now apply select_none.
Qed.

Theorem subset_ignores g pred in_box om : g_point g = false -> spatial_subset g pred in_box om true = spatial_subset g pred in_box None true.
Proof. intro P. unfold spatial_subset. now rewrite P. Qed.

(** Points. *)
Lemma combine_map_r {A B C} (f : B -> C) : forall (l : list A) l', combine l (map f l') = map (fun p => (fst p, f (snd p))) (combine l l').
Proof. induction l as [|x l IH]; intros [|y l']; try reflexivity. cbn [map combine fst snd]. now rewrite IH. Qed.

Lemma nth_map_default {A} (f : A -> bool) : forall l k x, nth_error l k = Some x -> nth k (map f l) false = f x.
Proof. induction l as [|y l IH]; intros [|k] x H; try discriminate; [now injection H as ->|now apply IH]. Qed.

Theorem subset_points g pred in_box : g_point g = true -> g_index g = None -> (forall m, g_mask g = Some m -> List.length m = List.length (g_nodes g)) ->
  (forall v, pred (GPoint v) = true -> in_box v = true) ->
  exists r sel vs', spatial_subset g pred in_box None true = (g, Ok (r, sel)) /\ List.length sel = List.length (g_nodes g) /\
    (forall k v b, nth_error (g_nodes g) k = Some v -> nth_error sel k = Some b -> (b = true <-> ~ Masked (g_mask g) k /\ pred (GPoint v) = true)) /\
    Chosen (fun k v => ~ Masked (g_mask g) k /\ pred (GPoint v) = true) 0 (g_nodes g) vs' /\
    match r with Some g' => vs' <> [] /\ g_point g' = true /\ g_index g' = None /\ g_nodes g' = vs' /\ (forall k, ~ Masked (g_mask g') k) | None => vs' = [] end.
Proof.
  intros P I L Bx.
  set (hint := map (fun v => negb (in_box v)) (g_nodes g)).
  set (original := match g_mask g with Some m => map (fun p => fst p || snd p) (combine m hint) | None => hint end).
  set (sel := if forallb (fun b => b) original then map negb original else map (wanted pred) (expected (masked_at g true (Some original)) 0 (map GPoint (g_nodes g)))).
  assert (Lo : List.length original = List.length (g_nodes g)).
  { unfold original, hint. destruct (g_mask g) as [m|]; [rewrite map_length, combine_length, map_length, (L m eq_refl); lia|now rewrite map_length]. }
  assert (Ls : List.length sel = List.length (g_nodes g)) by (unfold sel; destruct (forallb _ _); rewrite map_length; [exact Lo|now rewrite expected_length, map_length]).
  assert (On : forall k v, nth_error (g_nodes g) k = Some v -> exists b, nth_error original k = Some b /\ nth k original false = b /\
    (b = true -> Masked (g_mask g) k \/ in_box v = false) /\ (b = false -> ~ Masked (g_mask g) k)).
  { intros k v Hk. unfold original, hint, Masked. destruct (g_mask g) as [m|].
    - destruct (nth_error m k) as [b0|] eqn:Mk; [|exfalso; apply nth_error_None in Mk; rewrite (L m eq_refl) in Mk; assert (k < List.length (g_nodes g))%nat by (apply nth_error_Some; congruence); lia].
      exists (b0 || negb (in_box v)). assert (Q : nth_error (map (fun p => fst p || snd p) (combine m (map (fun v0 => negb (in_box v0)) (g_nodes g)))) k = Some (b0 || negb (in_box v))).
      { clear - Mk Hk. revert m k Mk Hk. induction (g_nodes g) as [|w l IH]; intros [|c m] [|k] Mk Hk; try discriminate; [injection Mk as ->; injection Hk as ->; reflexivity|]. cbn [map combine nth_error]. now apply IH. }
      split; [exact Q|]. split; [now apply nth_error_nth|]. split.
      + destruct b0; [left; exists m; now split|]. cbn. destruct (in_box v); [discriminate|now right].
      + intros Qb [m' [Em Hm]]. injection Em as <-. rewrite Mk in Hm. injection Hm as ->. discriminate.
    - exists (negb (in_box v)). rewrite nth_error_map, Hk. split; [reflexivity|]. split; [exact (nth_map_default (fun v => negb (in_box v)) _ _ _ Hk)|]. split; [destruct (in_box v); [discriminate|now right]|]. intros _ [m [Em _]]. discriminate. }
  assert (Sp : forall k v b, nth_error (g_nodes g) k = Some v -> nth_error sel k = Some b -> (b = true <-> ~ Masked (g_mask g) k /\ pred (GPoint v) = true)).
  { intros k v b H1 H2. destruct (On k v H1) as [c [O1 [O2 [O3 O4]]]]. unfold sel in H2. destruct (forallb (fun b => b) original) eqn:X.
    - rewrite nth_error_map, O1 in H2. cbn in H2. injection H2 as <-. assert (c = true) as -> by (rewrite forallb_forall in X; apply X; exact (nth_error_In _ _ O1)).
      split; [discriminate|]. intros [Q1 Q2]. destruct (O3 eq_refl) as [Q|Q]; [contradiction|]. rewrite (Bx v Q2) in Q. discriminate.
    - assert (H1' : nth_error (map GPoint (g_nodes g)) k = Some (GPoint v)) by (rewrite nth_error_map, H1; reflexivity).
      apply wanted_spec with (1 := H1') in H2. subst b. pose proof (masked_spec g true k) as MS. unfold masked_at in *. cbn [andb] in *.
      destruct (has_masked_values g) eqn:HM; cbn [andb] in *.
      + destruct (g_mask g) as [m|] eqn:G; [|unfold has_masked_values in HM; rewrite G in HM; discriminate]. rewrite orb_false_r in MS. rewrite O2. destruct (nth k m false) eqn:Nk.
        * cbn [orb negb andb]. split; [discriminate|]. intros [Q _]. exfalso. apply Q. exact (proj2 (proj1 MS eq_refl)).
        * cbn [orb]. destruct c; cbn [negb andb].
          -- split; [discriminate|]. intros [Q1 Q2]. destruct (O3 eq_refl) as [Q|Q]; [contradiction|]. rewrite (Bx v Q2) in Q. discriminate.
          -- split; [intro Q; split; [now apply O4|exact Q]|easy].
      + cbn [negb]. split; [|easy]. intro Q. split; [|exact Q]. intro MM. assert (false = true); [apply MS; now split|discriminate]. }
  assert (E : spatial_subset g pred in_box None true = (g, do sliced <- slice_elements g sel; Ok (sliced, sel))).
  { unfold spatial_subset. rewrite P. fold hint original. unfold sel. destruct (forallb (fun b => b) original); [reflexivity|].
    rewrite (iter_points g true (Some original) P I). cbn [bind]. change (fun og => negb match og with Some geo => pred geo | None => false end) with (fun og => negb (wanted pred og)).
    rewrite wanted_twice. reflexivity. }
  assert (C : Chosen (fun k v => ~ Masked (g_mask g) k /\ pred (GPoint v) = true) 0 (g_nodes g) (select sel (g_nodes g))) by (apply select_chosen; [exact Ls|exact Sp]).
  destruct (existsb (fun b => b) sel) eqn:X.
  - eexists (Some _), sel, (select sel (g_nodes g)). rewrite E. unfold slice_elements. rewrite X, I. split; [reflexivity|]. split; [exact Ls|]. split; [exact Sp|]. split; [exact C|]. split; [now apply select_some|].
    cbn [g_point g_index g_nodes g_mask]. split; [exact P|]. split; [reflexivity|]. split; [reflexivity|].
    intros k [m [Hm Hk]]. destruct (g_mask g) as [m0|] eqn:G; [|discriminate]. injection Hm as <-. revert Hk. apply select_mask. intros j Hj.
    assert (Q : (j < List.length (g_nodes g))%nat) by (rewrite <- Ls; apply nth_error_Some; congruence).
    destruct (nth_error (g_nodes g) j) as [v|] eqn:Gj; [|apply nth_error_None in Gj; lia]. destruct (proj1 (Sp j v true Gj Hj) eq_refl) as [NM _].
    destruct (nth_error m0 j) as [[|]|] eqn:Mj; [exfalso; apply NM; exists m0; now split|reflexivity|]. apply nth_error_None in Mj. rewrite (L m0 eq_refl) in Mj. lia.
  - exists None, sel, (select sel (g_nodes g)). rewrite E. unfold slice_elements. rewrite X. split; [reflexivity|]. split; [exact Ls|]. split; [exact Sp|]. split; [exact C|]. now apply select_none.
Qed.
