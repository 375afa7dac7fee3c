(** Proofs about the spatial operations of a geometry variable. *)
From Coq Require Import QArith Lia.
From Verif Require Import Py Lib NdModel NdSpec NdProofs GeomModel GeomSpec.
Local Close Scope Q_scope.
Local Open Scope nat_scope.

(** ** Lists *)
Lemma replace_length A (l : list A) i x : length (replace_nth l i x) = length l.
Proof. revert i. induction l as [|y t IH]; intros [|i]; cbn; auto. Qed.

Lemma replace_same A (l : list A) i x : i < length l -> nth_error (replace_nth l i x) i = Some x.
Proof. revert i. induction l as [|y t IH]; intros [|i] H; cbn in *; auto; try lia. apply IH. lia. Qed.

Lemma replace_other A (l : list A) i k x : i <> k -> nth_error (replace_nth l i x) k = nth_error l k.
Proof. revert i k. induction l as [|y t IH]; intros [|i] [|k] H; cbn; auto; try congruence. Qed.

Definition writes {A} (l : list (nat * A)) (fill : list A) : list A :=
  fold_left (fun f p => replace_nth f (fst p) (snd p)) l fill.

Lemma writes_length A (l : list (nat * A)) fill : length (writes l fill) = length fill.
Proof. revert fill. induction l as [|p t IH]; intro fill; cbn; auto. unfold writes in IH. rewrite IH. apply replace_length. Qed.

Lemma writes_out A (l : list (nat * A)) fill k : ~ In k (map fst l) -> nth_error (writes l fill) k = nth_error fill k.
Proof.
  revert fill. induction l as [|p t IH]; intros fill N; auto. cbn [writes fold_left]. fold (writes t (replace_nth fill (fst p) (snd p))).
  rewrite IH by (intro I; apply N; now right). apply replace_other. intros <-. apply N. now left.
Qed.

Lemma writes_in A (l : list (nat * A)) fill k x : In (k, x) l -> k < length fill ->
  (forall y, In (k, y) l -> y = x) -> nth_error (writes l fill) k = Some x.
Proof.
  revert fill. induction l as [|p t IH]; intros fill I L U; [destruct I|].
  cbn [writes fold_left]. fold (writes t (replace_nth fill (fst p) (snd p))).
  destruct (in_dec Nat.eq_dec k (map fst t)) as [J|J].
  - apply in_map_iff in J as [[k' y] [E J]]. cbn in E. subst k'.
    apply IH.
    + rewrite (U y (or_intror J)) in J. exact J.
    + now rewrite replace_length.
    + intros z K. apply U. now right.
  - rewrite writes_out by exact J. destruct I as [->|I].
    + cbn. now apply replace_same.
    + exfalso. apply J. apply in_map_iff. exists (k, x). auto.
Qed.

Lemma compressed_length A B (l : list A) (l' : list B) m : length l = length l' -> length (compressed l m) = length (compressed l' m).
Proof.
  revert l' m. induction l as [|x t IH]; intros [|y s] [|b m] H; cbn in *; try lia.
  destruct b; cbn; auto.
Qed.

Lemma compressed_map A B (f : A -> B) l m : compressed (map f l) m = map f (compressed l m).
Proof. revert m. induction l as [|x t IH]; intros [|b m]; cbn; auto. destruct b; cbn; now rewrite IH. Qed.

Lemma compressed_combine A B (l : list A) (l' : list B) m : length l = length l' ->
  combine (compressed l m) (compressed l' m) = compressed (combine l l') m.
Proof.
  revert l' m. induction l as [|x t IH]; intros [|y s] [|b m] H; cbn in *; try lia; auto.
  destruct b; cbn; rewrite IH; auto.
Qed.

Lemma compressed_In A (l : list A) m (a : nat) k x :
  In (k, x) (compressed (combine (seq a (length l)) l) m) <->
  a <= k /\ nth_error l (k - a) = Some x /\ nth_error m (k - a) = Some false.
Proof.
  revert m a. induction l as [|y t IH]; intros m a.
  - cbn. destruct m; cbn; split; intros H; try easy; destruct H as [_ [H _]]; destruct (k - a); discriminate.
  - cbn [length seq combine]. destruct m as [|b m].
    + cbn. split; [easy|]. intros [_ [_ H]]. destruct (k - a); discriminate.
    + cbn [compressed].
      assert (R : In (k, x) (compressed (combine (seq (S a) (length t)) t) m) <->
                  a < k /\ nth_error (y :: t) (k - a) = Some x /\ nth_error (b :: m) (k - a) = Some false).
      { rewrite IH. split.
        - intros [L [E F]]. replace (k - a) with (S (k - S a)) by lia. cbn. auto.
        - intros [L [E F]]. replace (k - a) with (S (k - S a)) in E, F by lia. cbn in E, F. split; [lia | auto]. }
      destruct b.
      * rewrite R. split.
        { intros [L H]. split; [lia | exact H]. }
        { intros [L [E F]]. destruct (k - a) eqn:D; [discriminate|]. split; [lia | auto]. }
      * split.
        { intros [E|I].
          - injection E as <- <-. rewrite Nat.sub_diag. cbn. auto.
          - apply R in I as [L H]. split; [lia | exact H]. }
        { intros [L [E F]]. destruct (k - a) eqn:D.
          - left. cbn in E. assert (k = a) by lia. congruence.
          - right. apply R. split; [lia | auto]. }
Qed.

Lemma nth_combine A B (l : list A) (l' : list B) i d x : length l = length l' ->
  nth_error l' i = Some x -> In (nth i l d, x) (combine l l').
Proof.
  revert l' i. induction l as [|y t IH]; intros [|z s] [|i] H E; cbn in *; try lia; try discriminate.
  - injection E as ->. now left.
  - right. apply IH; [lia | exact E].
Qed.

Lemma combine_nth_map A B C (gi : list A) (target : list B) (f : B -> C) d : length gi = length target ->
  map (fun ig : nat * B => (nth (fst ig) gi d, f (snd ig))) (combine (seq 0 (length target)) target) = combine gi (map f target).
Proof.
  intro H.
  assert (R : forall pre gi target, length gi = length target ->
    map (fun ig : nat * B => (nth (fst ig) (pre ++ gi) d, f (snd ig))) (combine (seq (length pre) (length target)) target) = combine gi (map f target)).
  { clear. intros pre gi target. revert pre gi. induction target as [|x t IH]; intros pre [|g gi] H; cbn in *; try lia; auto.
    f_equal.
    - f_equal. rewrite app_nth2 by lia. now rewrite Nat.sub_diag.
    - replace (pre ++ g :: gi) with ((pre ++ [g]) ++ gi) by now rewrite <- app_assoc.
      rewrite <- (IH (pre ++ [g]) gi) by lia. rewrite app_length. cbn. now replace (length pre + 1) with (S (length pre)) by lia. }
  apply (R [] gi target H).
Qed.

Lemma combine_map_r A B C (l : list A) (l' : list B) (f : B -> C) : combine l (map f l') = map (fun p => (fst p, f (snd p))) (combine l l').
Proof. revert l'. induction l as [|x t IH]; intros [|y s]; cbn; auto. now rewrite IH. Qed.

Lemma fold_left_map A B S (f : S -> B -> S) (h : A -> B) l s : fold_left f (map h l) s = fold_left (fun s a => f s (h a)) l s.
Proof. revert s. induction l as [|x t IH]; intro s; cbn; auto. Qed.

Lemma fold_left_ext A S (f g : S -> A -> S) l s : (forall s a, f s a = g s a) -> fold_left f l s = fold_left g l s.
Proof. intro E. revert s. induction l as [|x t IH]; intro s; cbn; auto. now rewrite E. Qed.

(** ** Arrays *)
Lemma chop_length A n k (l : list A) : length (chop n k l) = k.
Proof. revert l. induction k as [|k IH]; intro l; cbn; auto. Qed.

Lemma chop_regular A n k (l : list A) : length l = k * n -> Forall (fun r => length r = n) (chop n k l).
Proof.
  revert l. induction k as [|k IH]; intros l H; constructor.
  - rewrite firstn_length. cbn in H. lia.
  - apply IH. rewrite skipn_length. cbn in H. lia.
Qed.

Lemma chop_concat A n k (l : list A) : length l = k * n -> concat (chop n k l) = l.
Proof.
  revert l. induction k as [|k IH]; intros l H; cbn in *.
  - now destruct l.
  - rewrite IH by (rewrite skipn_length; lia). apply firstn_skipn.
Qed.

Lemma concat_regular_length A n (rows : list (list A)) : Forall (fun r => length r = n) rows -> length (concat rows) = length rows * n.
Proof. induction 1 as [|r t E F IH]; cbn; auto. rewrite app_length, IH, E. lia. Qed.

Lemma nth_error_firstn A (l : list A) n i : i < n -> nth_error (firstn n l) i = nth_error l i.
Proof. revert n i. induction l as [|x t IH]; intros [|n] [|i] H; cbn; auto; try lia. apply IH. lia. Qed.

Lemma nth_error_skipn A (l : list A) n i : nth_error (skipn n l) i = nth_error l (n + i).
Proof. revert n. induction l as [|x t IH]; intros [|n]; cbn; auto. now destruct i. Qed.

Lemma nth_error_concat A n (rows : list (list A)) j i : Forall (fun r => length r = n) rows -> i < n ->
  nth_error (concat rows) (j * n + i) = match nth_error rows j with Some row => nth_error row i | None => None end.
Proof.
  intros F L. revert j. induction F as [|r t E F IH]; intro j.
  - cbn [concat]. destruct j; cbn [nth_error]; now destruct (_ + i).
  - cbn [concat]. destruct j as [|j]; cbn [nth_error].
    + rewrite nth_error_app1 by (cbn; lia). reflexivity.
    + rewrite nth_error_app2 by (cbn; lia). rewrite <- IH. f_equal. cbn. lia.
Qed.

Lemma chop_nth A n k (l : list A) j i : length l = k * n -> j < k -> i < n ->
  match nth_error (chop n k l) j with Some row => nth_error row i | None => None end = nth_error l (j * n + i).
Proof.
  intros H J I. rewrite <- (nth_error_concat _ n) by (auto using chop_regular). now rewrite chop_concat.
Qed.

(** The position in the flattened array. *)
Definition flat_pos {A} (a : arr A) (idx : list nat) : option nat :=
  match a, idx with
  | A1 l, [i] => if i <? length l then Some i else None
  | A2 n rows, [j; i] => if (j <? length rows) && (i <? n) then Some (j * n + i) else None
  | _, _ => None
  end.

Lemma flat_pos_shape A B (a : arr A) (b : arr B) idx : shape a = shape b -> flat_pos a idx = flat_pos b idx.
Proof.
  destruct a as [l|n rows], b as [l'|n' rows']; cbn [shape]; intro E; try discriminate.
  - injection E as E. unfold flat_pos. now rewrite E.
  - injection E as E1 E2. unfold flat_pos. now rewrite E1, E2.
Qed.

Lemma at_flat A (a : arr A) idx : Regular a -> at_ a idx = match flat_pos a idx with Some p => nth_error (flat a) p | None => None end.
Proof.
  destruct a as [l|n rows]; intro R.
  - destruct idx as [|i [|? ?]]; auto. cbn [at_ flat_pos flat]. destruct (Nat.ltb_spec i (length l)) as [L|L]; auto. now apply nth_error_None.
  - destruct idx as [|j [|i [|? ?]]]; auto. cbn [at_ flat_pos flat].
    destruct (Nat.ltb_spec j (length rows)) as [L|L]; cbn [andb].
    + destruct (Nat.ltb_spec i n) as [K|K].
      * now rewrite nth_error_concat.
      * destruct (nth_error rows j) as [row|] eqn:E; auto. apply nth_error_None.
        apply nth_error_In in E. cbn in R. rewrite Forall_forall in R. rewrite (R _ E). lia.
    + apply nth_error_None in L. now rewrite L.
Qed.

Lemma flat_length A (a : arr A) : Regular a -> length (flat a) = fold_right Nat.mul 1 (shape a).
Proof.
  destruct a as [l|n rows]; intro R; cbn; [lia|]. rewrite (concat_regular_length _ n); auto. lia.
Qed.

Lemma reshape_shape A B (a : arr A) (l : list B) : length l = length (flat a) -> shape (reshape a l) = shape a.
Proof. destruct a as [l0|n rows]; cbn; intro E; [now rewrite E | now rewrite chop_length]. Qed.

Lemma reshape_regular A B (a : arr A) (l : list B) : Regular a -> length l = length (flat a) -> Regular (reshape a l).
Proof.
  destruct a as [l0|n rows]; cbn; intros R E; auto. apply chop_regular. rewrite E. now apply concat_regular_length.
Qed.

Lemma reshape_flat A B (a : arr A) (l : list B) : Regular a -> length l = length (flat a) -> flat (reshape a l) = l.
Proof.
  destruct a as [l0|n rows]; cbn; intros R E; auto. apply chop_concat. rewrite E. now apply concat_regular_length.
Qed.

Lemma reshape_at A B (a : arr A) (l : list B) idx : Regular a -> length l = length (flat a) ->
  at_ (reshape a l) idx = match flat_pos a idx with Some p => nth_error l p | None => None end.
Proof.
  intros R E. rewrite at_flat by now apply reshape_regular.
  rewrite (flat_pos_shape _ _ _ a) by now apply reshape_shape. now rewrite reshape_flat.
Qed.

Lemma flat_pos_bound A (a : arr A) idx p : Regular a -> flat_pos a idx = Some p -> p < length (flat a).
Proof.
  destruct a as [l|n rows]; intros R E.
  - destruct idx as [|i [|? ?]]; try discriminate. cbn [flat_pos flat] in *. destruct (Nat.ltb_spec i (length l)); congruence.
  - destruct idx as [|j [|i [|? ?]]]; try discriminate. cbn [flat_pos] in E. cbn [flat].
    destruct (Nat.ltb_spec j (length rows)) as [J|]; cbn [andb] in E; [|discriminate].
    destruct (Nat.ltb_spec i n) as [I|]; [|discriminate]. injection E as <-.
    rewrite (concat_regular_length _ n) by exact R. nia.
Qed.

Lemma at_in_shape A B (a : arr A) (b : arr B) idx x : Regular a -> Regular b -> shape a = shape b -> at_ a idx = Some x -> exists y, at_ b idx = Some y.
Proof.
  intros Ra Rb E H. rewrite at_flat in H by exact Ra. rewrite at_flat by exact Rb.
  rewrite <- (flat_pos_shape _ _ a b _ E). destruct (flat_pos a idx) as [p|] eqn:P; [|discriminate].
  assert (L : p < length (flat b)).
  { rewrite (flat_length _ b Rb), <- E, <- (flat_length _ a Ra). now apply (flat_pos_bound _ a idx). }
  destruct (nth_error (flat b) p) as [y|] eqn:Y; [now exists y|]. apply nth_error_None in Y. lia.
Qed.

Section Geometry.
Variable G : Type.
Variable intersects touches : G -> G -> bool.
Variable parts : G -> list G.
Variable rtree : list G -> G -> list nat.
Notation mask_from_intersects := (mask_from_intersects G intersects touches parts rtree).
Notation get_intersects := (get_intersects G intersects touches parts rtree).

Lemma mask_of_regular (v : gvar G) : GoodVar v -> Regular (mask_of v) /\ shape (mask_of v) = shape (gv_value v).
Proof.
  intros [R M]. unfold mask_of. destruct (gv_mask v) as [m|]; [exact M|].
  split; [apply reshape_regular | apply reshape_shape]; rewrite ?map_length; auto.
Qed.

Lemma mask_of_at (v : gvar G) idx : GoodVar v -> (at_ (mask_of v) idx = Some false <-> Unmasked v idx /\ exists g, at_ (gv_value v) idx = Some g).
Proof.
  intros [R M]. unfold mask_of, Unmasked. destruct (gv_mask v) as [m|].
  - destruct M as [Rm Sm]. split; [|tauto]. intro E. split; [exact E|]. now apply (at_in_shape _ _ m (gv_value v) idx false).
  - rewrite reshape_at by (rewrite ?map_length; auto). rewrite at_flat by exact R.
    destruct (flat_pos (gv_value v) idx) as [p|]; [|split; [discriminate | now intros [_ [g E]]]].
    rewrite nth_error_map. destruct (nth_error (flat (gv_value v)) p) as [g|]; cbn.
    + split; [intros _; split; [exact I | now exists g] | reflexivity].
    + split; [discriminate | now intros [_ [g E]]].
Qed.

(** The condition on a geometry. *)
Definition hit (keep : bool) (geom g : G) : bool := intersects geom g && (keep || negb (touches geom g)).

Lemma fill_true (m : list bool) k : k < length m -> nth_error (map (fun _ => true) m) k = Some true.
Proof. intro L. rewrite nth_error_map. destruct (nth_error m k) eqn:E; auto. apply nth_error_None in E. lia. Qed.

Lemma plain_mask geom keep vals m k : length vals = length m -> k < length m ->
  nth_error (fold_left (fun f (ig : nat * G) =>
           replace_nth f (nth (fst ig) (compressed (seq 0 (length m)) m) 0)
             (if intersects geom (snd ig) then negb keep && touches geom (snd ig) else true))
         (combine (seq 0 (length (compressed vals m))) (compressed vals m)) (map (fun _ => true) m)) k
  = Some (negb (match nth_error m k, nth_error vals k with Some false, Some g => hit keep geom g | _, _ => false end)).
Proof.
  intros H L. set (f0 := fun g => if intersects geom g then negb keep && touches geom g else true).
  rewrite (fold_left_ext _ _ _ (fun f (ig : nat * G) => replace_nth f (fst (nth (fst ig) (compressed (seq 0 (length m)) m) 0, f0 (snd ig))) (snd (nth (fst ig) (compressed (seq 0 (length m)) m) 0, f0 (snd ig))))) by reflexivity.
  rewrite <- (fold_left_map _ _ _ (fun f p => replace_nth f (fst p) (snd p)) (fun ig : nat * G => (nth (fst ig) (compressed (seq 0 (length m)) m) 0, f0 (snd ig)))).
  rewrite combine_nth_map by (apply compressed_length; now rewrite seq_length).
  change (nth_error (writes (combine (compressed (seq 0 (length m)) m) (map f0 (compressed vals m))) (map (fun _ => true) m)) k =
          Some (negb (match nth_error m k, nth_error vals k with Some false, Some g => hit keep geom g | _, _ => false end))).
  rewrite combine_map_r, compressed_combine by now rewrite seq_length. rewrite <- H.
  set (l := compressed (combine (seq 0 (length vals)) vals) m).
  assert (J : forall k g, In (k, g) l <-> nth_error vals k = Some g /\ nth_error m k = Some false).
  { intros k' g. unfold l. rewrite compressed_In, Nat.sub_0_r. split; [tauto|]. intros Z. split; [lia | exact Z]. }
  destruct (nth_error vals k) as [g|] eqn:V; [|apply nth_error_None in V; lia].
  destruct (nth_error m k) as [b|] eqn:B; [|apply nth_error_None in B; lia].
  destruct b.
  - rewrite writes_out; [now apply fill_true|]. intro I. rewrite map_map in I. apply in_map_iff in I as [[k' g'] [E I]]. cbn in E. subst k'.
    apply J in I as [_ I]. congruence.
  - rewrite (writes_in _ _ _ k (f0 g)).
    + unfold hit, f0. destruct (intersects geom g), keep, (touches geom g); reflexivity.
    + apply in_map_iff. exists (k, g). split; auto. apply J. auto.
    + now rewrite map_length.
    + intros y I. apply in_map_iff in I as [[k' g'] [E I]]. cbn in E. injection E as -> <-. apply J in I as [I _]. congruence.
Qed.

Lemma index_mask geom keep vals m k : IndexLibrary intersects touches parts rtree -> length vals = length m -> k < length m ->
  nth_error (fold_left (fun f idx => replace_nth f (nth idx (compressed (seq 0 (length m)) m) 0) false)
         (iter_intersects G intersects touches parts rtree geom (compressed vals m) keep) (map (fun _ => true) m)) k
  = Some (negb (match nth_error m k, nth_error vals k with Some false, Some g => hit keep geom g | _, _ => false end)).
Proof.
  intros Lib H L. set (gi := compressed (seq 0 (length m)) m).
  rewrite (fold_left_ext _ _ _ (fun f idx => replace_nth f (fst (nth idx gi 0, false)) (snd (nth idx gi 0, false)))) by reflexivity.
  rewrite <- (fold_left_map _ _ _ (fun f p => replace_nth f (fst p) (snd p)) (fun idx => (nth idx gi 0, false))).
  set (found := iter_intersects G intersects touches parts rtree geom (compressed vals m) keep).
  change (nth_error (writes (map (fun idx => (nth idx gi 0, false)) found) (map (fun _ => true) m)) k =
          Some (negb (match nth_error m k, nth_error vals k with Some false, Some g => hit keep geom g | _, _ => false end))).
  assert (C : combine gi (compressed vals m) = compressed (combine (seq 0 (length vals)) vals) m).
  { unfold gi. rewrite <- H. apply compressed_combine. now rewrite seq_length. }
  assert (Lg : length gi = length (compressed vals m)) by (apply compressed_length; now rewrite seq_length).
  assert (J : forall k g, In (k, g) (combine gi (compressed vals m)) <-> nth_error vals k = Some g /\ nth_error m k = Some false).
  { intros k' g. rewrite C, compressed_In, Nat.sub_0_r. split; [tauto|]. intros Z. split; [lia | exact Z]. }
  assert (F : forall idx, In idx found <-> exists g, nth_error (compressed vals m) idx = Some g /\ hit keep geom g = true).
  { intro idx. unfold found, iter_intersects. rewrite in_flat_map. split.
    - intros [p [P I]]. apply filter_In in I as [I T]. destruct (nth_error (compressed vals m) idx) as [g|] eqn:E; [|discriminate].
      exists g. split; auto. apply andb_true_iff in T as [T1 T2]. unfold hit.
      assert (X : intersects geom g = true) by (apply (parts_intersect _ _ _ _ Lib); exists p; auto). rewrite X. cbn.
      destruct keep; auto. cbn in *. destruct (touches geom g) eqn:Y; auto.
      rewrite (parts_touch _ _ _ _ Lib geom g X) in Y. rewrite (Y p P T1) in T2. discriminate.
    - intros [g [E T]]. unfold hit in T. apply andb_true_iff in T as [T1 T2].
      destruct keep.
      + apply (parts_intersect _ _ _ _ Lib) in T1 as [p [P X]]. exists p. split; auto. apply filter_In. rewrite E, X. split; auto.
        now apply (rtree_finds _ _ _ _ Lib _ _ _ g).
      + cbn in T2. apply negb_true_iff in T2.
        assert (N : ~ forall p, In p (parts geom) -> intersects p g = true -> touches p g = true).
        { intro Z. apply (parts_touch _ _ _ _ Lib geom g T1) in Z. congruence. }
        assert (Q : exists p, In p (parts geom) /\ (intersects p g && negb (touches p g) = true)).
        { destruct (existsb (fun p => intersects p g && negb (touches p g)) (parts geom)) eqn:X.
          - apply existsb_exists in X as [p [P X]]. now exists p.
          - exfalso. apply N. intros p P Y. destruct (touches p g) eqn:T; auto.
            assert (Z : existsb (fun p => intersects p g && negb (touches p g)) (parts geom) = true).
            { apply existsb_exists. exists p. rewrite Y, T. auto. } congruence. }
        destruct Q as [p [P X]]. apply andb_true_iff in X as [X Y]. exists p. split; auto. apply filter_In. rewrite E, X, Y. split; auto.
        now apply (rtree_finds _ _ _ _ Lib _ _ _ g). }
  destruct (nth_error vals k) as [g|] eqn:V; [|apply nth_error_None in V; lia].
  destruct (nth_error m k) as [b|] eqn:B; [|apply nth_error_None in B; lia].
  assert (In_k : In k (map fst (map (fun idx => (nth idx gi 0, false)) found)) -> b = false /\ hit keep geom g = true).
  { intro I. rewrite map_map in I. apply in_map_iff in I as [idx [E I]]. cbn in E. apply F in I as [g' [E' T]].
    pose proof (nth_combine _ _ gi _ idx 0 g' Lg E') as I. rewrite E in I. apply J in I as [I1 I2]. split; congruence. }
  destruct b; [|destruct (hit keep geom g) eqn:T].
  - rewrite writes_out; [now apply fill_true|]. intro I. apply In_k in I as [I _]. discriminate.
  - rewrite (writes_in _ _ _ k false); auto.
    + assert (I : In (k, g) (combine gi (compressed vals m))) by (apply J; auto).
      apply (In_nth_error) in I as [idx E].
      assert (X : nth_error gi idx = Some k /\ nth_error (compressed vals m) idx = Some g).
      { revert E. clear -Lg. revert idx. generalize dependent (compressed vals m). induction gi as [|x t IH]; intros [|y s] H [|idx] E; cbn in *; try discriminate; try lia.
        - injection E as -> ->. auto.
        - apply (IH s); [lia | exact E]. }
      destruct X as [X Y]. apply in_map_iff. exists idx. split; [f_equal; now apply nth_error_nth | apply F; now exists g].
    + now rewrite map_length.
    + intros y I. apply in_map_iff in I as [? [E _]]. congruence.
  - rewrite writes_out; [now apply fill_true|]. intro I. apply In_k in I as [_ I]. discriminate.
Qed.

Lemma mask_length v geom idx keep : GoodVar v ->
  Regular (mask_from_intersects v geom idx keep None) /\ shape (mask_from_intersects v geom idx keep None) = shape (gv_value v).
Proof.
  intro Gv. destruct (mask_of_regular v Gv) as [R S]. unfold GeomModel.mask_from_intersects.
  assert (W : forall (l : list (nat * bool)) f, length (fold_left (fun f p => replace_nth f (fst p) (snd p)) l f) = length f) by (intros; apply writes_length).
  match goal with |- Regular (reshape _ ?l) /\ _ => assert (E : length l = length (flat (mask_of v))) end.
  { destruct idx.
    - rewrite (fold_left_ext _ _ _ (fun f i => replace_nth f (fst (nth i (compressed (seq 0 (length (flat (mask_of v)))) (flat (mask_of v))) 0, false)) (snd (nth i (compressed (seq 0 (length (flat (mask_of v)))) (flat (mask_of v))) 0, false)))) by reflexivity.
      rewrite <- (fold_left_map _ _ _ (fun f p => replace_nth f (fst p) (snd p))). rewrite W. apply map_length.
    - rewrite (fold_left_ext _ _ _ (fun f (ig : nat * G) => replace_nth f (fst (nth (fst ig) (compressed (seq 0 (length (flat (mask_of v)))) (flat (mask_of v))) 0, if intersects geom (snd ig) then negb keep && touches geom (snd ig) else true)) (snd (nth (fst ig) (compressed (seq 0 (length (flat (mask_of v)))) (flat (mask_of v))) 0, if intersects geom (snd ig) then negb keep && touches geom (snd ig) else true)))) by reflexivity.
      rewrite <- (fold_left_map _ _ _ (fun f p => replace_nth f (fst p) (snd p))). rewrite W. apply map_length. }
  split; [now apply reshape_regular|]. now rewrite reshape_shape.
Qed.

(** What the mask says, with or without the index. *)
Lemma mask_value v geom (idx keep : bool) pos : IndexLibrary intersects touches parts rtree -> GoodVar v ->
  at_ (mask_from_intersects v geom idx keep None) pos =
  match at_ (mask_of v) pos, at_ (gv_value v) pos with
  | Some b, Some g => Some (negb (negb b && hit keep geom g))
  | _, _ => None
  end.
Proof.
  intros Lib Gv. destruct (mask_of_regular v Gv) as [R S]. destruct (mask_length v geom idx keep Gv) as [RM SM].
  rewrite at_flat by exact RM. rewrite (flat_pos_shape _ _ _ (gv_value v) _ SM).
  rewrite (at_flat _ (mask_of v)) by exact R. rewrite (flat_pos_shape _ _ _ (gv_value v) _ S).
  rewrite (at_flat _ (gv_value v)) by apply Gv.
  destruct (flat_pos (gv_value v) pos) as [p|] eqn:P; auto.
  pose proof (flat_pos_bound _ _ _ _ (proj1 Gv) P) as L.
  assert (E : length (flat (gv_value v)) = length (flat (mask_of v))).
  { rewrite (flat_length _ (mask_of v) R), S. apply flat_length, Gv. }
  assert (X : nth_error (flat (mask_from_intersects v geom idx keep None)) p =
              Some (negb (match nth_error (flat (mask_of v)) p, nth_error (flat (gv_value v)) p with Some false, Some g => hit keep geom g | _, _ => false end))).
  { unfold GeomModel.mask_from_intersects in *. rewrite reshape_flat; [|exact R|].
    - destruct idx; [apply index_mask; auto; lia | apply plain_mask; auto; lia].
    - destruct (mask_length v geom idx keep Gv) as [RM' SM']. unfold GeomModel.mask_from_intersects in RM', SM'.
      destruct idx.
      + rewrite (fold_left_ext _ _ _ (fun f i => replace_nth f (fst (nth i (compressed (seq 0 (length (flat (mask_of v)))) (flat (mask_of v))) 0, false)) (snd (nth i (compressed (seq 0 (length (flat (mask_of v)))) (flat (mask_of v))) 0, false)))) by reflexivity.
        rewrite <- (fold_left_map _ _ _ (fun f p => replace_nth f (fst p) (snd p))).
        etransitivity; [apply (writes_length bool)|]. apply map_length.
      + rewrite (fold_left_ext _ _ _ (fun f (ig : nat * G) => replace_nth f (fst (nth (fst ig) (compressed (seq 0 (length (flat (mask_of v)))) (flat (mask_of v))) 0, if intersects geom (snd ig) then negb keep && touches geom (snd ig) else true)) (snd (nth (fst ig) (compressed (seq 0 (length (flat (mask_of v)))) (flat (mask_of v))) 0, if intersects geom (snd ig) then negb keep && touches geom (snd ig) else true)))) by reflexivity.
        rewrite <- (fold_left_map _ _ _ (fun f p => replace_nth f (fst p) (snd p))).
        etransitivity; [apply (writes_length bool)|]. apply map_length. }
  rewrite X. destruct (nth_error (flat (gv_value v)) p) as [g|] eqn:V; [|apply nth_error_None in V; lia].
  destruct (nth_error (flat (mask_of v)) p) as [b|] eqn:B; [|apply nth_error_None in B; lia].
  now destruct b.
Qed.

Lemma mask_chosen v geom (idx keep : bool) pos : IndexLibrary intersects touches parts rtree -> GoodVar v ->
  (at_ (mask_from_intersects v geom idx keep None) pos = Some false <-> Chosen intersects touches keep v geom pos).
Proof.
  intros Lib Gv. rewrite mask_value by auto. pose proof (mask_of_at v pos Gv) as M. unfold Chosen. split.
  - destruct (at_ (mask_of v) pos) as [b|] eqn:B; [|discriminate]. destruct (at_ (gv_value v) pos) as [g|] eqn:V; [|discriminate].
    intro E. injection E as E. apply negb_false_iff in E. apply andb_true_iff in E as [E1 E2]. apply negb_true_iff in E1. subst b.
    split; [now apply M|]. exists g. split; auto. unfold hit in E2. apply andb_true_iff in E2 as [E2 E3]. split; auto.
    destruct keep; [now left | right]. now apply negb_true_iff.
  - intros [U [g [V [I T]]]].
    assert (B : at_ (mask_of v) pos = Some false) by (apply M; split; [exact U | now exists g]).
    rewrite B, V. unfold hit. rewrite I. destruct T as [->|T]; [reflexivity|]. rewrite T. now destruct keep.
Qed.
End Geometry.
