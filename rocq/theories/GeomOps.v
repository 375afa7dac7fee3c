(** Selection, intersection, nearest geometry and buffers. *)
From Coq Require Import QArith Lia Lqa.
From Verif Require Import Py Lib NdModel NdSpec NdProofs MaskProofs GeomModel GeomSpec GeomProofs GeomSlice.
Local Close Scope Q_scope.
Local Open Scope nat_scope.

Lemma slice_list_nth A s (l : list A) i : nth_error (slice_list s l) i = if i <? snd s - fst s then nth_error l (fst s + i) else None.
Proof.
  unfold slice_list. destruct (Nat.ltb_spec i (snd s - fst s)) as [L|L].
  - rewrite nth_error_firstn by exact L. apply nth_error_skipn.
  - apply nth_error_None. rewrite firstn_length. lia.
Qed.

Lemma slice_at A s (a : arr A) idx x : length s = length (shape a) ->
  (at_ (slice_arr s a) idx = Some x <-> length idx = length s /\ InSlices s (moved_idx s idx) /\ at_ a (moved_idx s idx) = Some x).
Proof.
  intro L. destruct a as [l|n rows]; cbn [shape length] in L.
  - destruct s as [|s0 [|? ?]]; try discriminate. cbn [slice_arr at_].
    destruct idx as [|i [|? ?]]; cbn [length]; try (split; [discriminate | intros [E _]; discriminate]).
    rewrite slice_list_nth. unfold moved_idx. cbn [combine map fst snd].
    destruct (Nat.ltb_spec i (snd s0 - fst s0)) as [K|K].
    + split; [intro E|tauto]. split; auto. split; auto. constructor; [lia | constructor].
    + split; [discriminate|]. intros [_ [I _]]. inversion I; subst. lia.
  - destruct s as [|s0 [|s1 [|? ?]]]; try discriminate. cbn [slice_arr at_].
    destruct idx as [|j [|i [|? ?]]]; cbn [length]; try (split; [discriminate | intros [E _]; discriminate]).
    rewrite nth_error_map, slice_list_nth. unfold moved_idx. cbn [combine map fst snd].
    destruct (Nat.ltb_spec j (snd s0 - fst s0)) as [K|K].
    + destruct (nth_error rows (fst s0 + j)) as [row|]; cbn [option_map].
      * rewrite slice_list_nth. destruct (Nat.ltb_spec i (snd s1 - fst s1)) as [K'|K'].
        { split; [intro E|tauto]. split; auto. split; auto. constructor; [lia|]. constructor; [lia | constructor]. }
        { split; [discriminate|]. intros [_ [I _]]. inversion I as [|? ? ? ? _ I']; subst. inversion I'; subst. lia. }
      * split; [discriminate|]. intros [_ [_ E]]. discriminate.
    + split; [discriminate|]. intros [_ [I _]]. inversion I; subst. lia.
Qed.

(** The slice ends within the array. *)
Definition Within {A} (s : list (nat * nat)) (a : arr A) : Prop := Forall2 (fun p n => snd p <= n) s (shape a).

Lemma slice_shape A s (a : arr A) : Within s a -> Forall (fun p => fst p < snd p) s -> Regular a ->
  shape (slice_arr s a) = map (fun p => snd p - fst p) s /\ Regular (slice_arr s a).
Proof.
  intros W F R. assert (SL : forall B (p : nat * nat) (l : list B), fst p < snd p -> snd p <= length l -> length (slice_list p l) = snd p - fst p).
  { intros B p l H1 H2. unfold slice_list. rewrite firstn_length, skipn_length. lia. }
  unfold Within in W. destruct a as [l|n rows]; cbn [shape] in W.
  - inversion W as [|s0 m0 ss ms H W']; subst. inversion W'; subst. inversion F; subst. cbn [slice_arr shape map]. split; [|exact I]. now rewrite SL.
  - inversion W as [|s0 m0 ss ms H W']; subst. inversion W' as [|s1 m1 ss' ms' H' W'']; subst. inversion W''; subst.
    inversion F as [|? ? F0 F1]; subst. inversion F1; subst. cbn [slice_arr shape map]. rewrite map_length, SL by auto. split; auto.
    cbn [Regular]. apply Forall_forall. intros r J. apply in_map_iff in J as [r0 [<- J]]. apply SL; auto.
    unfold slice_list in J. assert (K : In r0 rows).
    { rewrite <- (firstn_skipn (fst s0) rows). apply in_or_app. right. rewrite <- (firstn_skipn (snd s0 - fst s0) (skipn (fst s0) rows)). apply in_or_app. now left. }
    cbn in R. rewrite Forall_forall in R. now rewrite (R _ K).
Qed.

Lemma at_bound A (a : arr A) idx x k i : Regular a -> at_ a idx = Some x -> nth_error idx k = Some i -> exists n, nth_error (shape a) k = Some n /\ i < n.
Proof.
  intros R E K. destruct a as [l|n rows].
  - destruct idx as [|i0 [|? ?]]; try discriminate. cbn in E. destruct k as [|[|k]]; try discriminate. cbn in K. injection K as <-.
    exists (length l). split; auto. apply nth_error_Some. congruence.
  - destruct idx as [|j0 [|i0 [|? ?]]]; try discriminate. cbn in E. destruct (nth_error rows j0) as [row|] eqn:Er; [|discriminate].
    destruct k as [|[|[|k]]]; try discriminate; cbn in K; injection K as <-.
    + exists (length rows). split; auto. apply nth_error_Some. congruence.
    + exists n. split; auto. cbn in R. rewrite Forall_forall in R. rewrite <- (R _ (nth_error_In _ _ Er)). apply nth_error_Some. congruence.
Qed.

Lemma fits_within A ndim (a : arr A) chosen s : Regular a -> length (shape a) = ndim -> Fits ndim chosen s ->
  (forall idx, chosen idx -> exists x, at_ a idx = Some x) -> Within s a.
Proof.
  intros R L [Ls [F [[_ B] _]]] C. apply forall2_build; [congruence|]. intros k p n P N.
  destruct (B k p P) as [_ [idx [I X]]]. destruct (C idx I) as [x E]. destruct (at_bound _ _ _ _ _ _ R E X) as [n' [N' L']].
  assert (n' = n) by congruence. subst n'. rewrite Forall_forall in F. pose proof (F p (nth_error_In _ _ P)). lia.
Qed.

Lemma arr_ext A (a b : arr A) : Regular a -> Regular b -> shape a = shape b -> (forall idx, at_ a idx = at_ b idx) -> a = b.
Proof.
  intros Ra Rb S E. destruct a as [l|n rows], b as [l'|n' rows']; try discriminate.
  - f_equal. apply nth_error_same. intro k. apply (E [k]).
  - cbn in S. injection S as S1 S2. subst n'. f_equal. apply nth_error_same. intro j.
    destruct (nth_error rows j) as [r|] eqn:X.
    + destruct (nth_error rows' j) as [r'|] eqn:X'.
      * f_equal. apply nth_error_same. intro i. specialize (E [j; i]). cbn in E. now rewrite X, X' in E.
      * apply nth_error_None in X'. assert (j < length rows) by (apply nth_error_Some; congruence). lia.
    + symmetry. apply nth_error_None. apply nth_error_None in X. lia.
Qed.

Lemma combine_nth A B (l : list A) (l' : list B) p : nth_error (combine l l') p = match nth_error l p, nth_error l' p with Some x, Some y => Some (x, y) | _, _ => None end.
Proof. revert l' p. induction l as [|x t IH]; intros [|y s] [|p]; cbn [combine nth_error]; auto. now destruct (nth_error t p). Qed.

Lemma or_at a b idx : Regular a -> Regular b -> shape a = shape b ->
  at_ (or_masks a b) idx = match at_ a idx, at_ b idx with Some x, Some y => Some (x || y) | _, _ => None end.
Proof.
  intros Ra Rb S. assert (L : length (flat a) = length (flat b)) by (rewrite !flat_length by auto; congruence).
  unfold or_masks. rewrite reshape_at by (auto; rewrite map_length, combine_length; lia).
  rewrite (at_flat _ a _ Ra), (at_flat _ b _ Rb), <- (flat_pos_shape _ _ a b idx S).
  destruct (flat_pos a idx) as [p|]; auto. rewrite nth_error_map.
  rewrite combine_nth. destruct (nth_error (flat a) p); auto. now destruct (nth_error (flat b) p).
Qed.

Lemma or_shape a b : Regular a -> Regular b -> shape a = shape b -> Regular (or_masks a b) /\ shape (or_masks a b) = shape a.
Proof.
  intros Ra Rb S. assert (L : length (flat a) = length (flat b)) by (rewrite !flat_length by auto; congruence).
  unfold or_masks. split; [apply reshape_regular | apply reshape_shape]; auto; rewrite map_length, combine_length; lia.
Qed.

Lemma at_length A (a : arr A) idx x : at_ a idx = Some x -> length idx = length (shape a).
Proof. destruct a; destruct idx as [|? [|? [|? ?]]]; cbn; intro E; try discriminate; auto. Qed.

Section Geometry.
Variable G : Type.
Variable intersects touches : G -> G -> bool.
Variable parts : G -> list G.
Variable rtree : list G -> G -> list nat.
Hypothesis Lib : IndexLibrary intersects touches parts rtree.
Notation mask_from_intersects := (mask_from_intersects G intersects touches parts rtree).
Notation get_intersects := (get_intersects G intersects touches parts rtree).
Notation Chosen := (Chosen intersects touches).

Lemma same_mask v geom keep : GoodVar v -> mask_from_intersects v geom true keep None = mask_from_intersects v geom false keep None.
Proof.
  intro Gv. destruct (mask_length G intersects touches parts rtree v geom true keep Gv) as [R1 S1].
  destruct (mask_length G intersects touches parts rtree v geom false keep Gv) as [R2 S2].
  apply arr_ext; auto; [congruence|]. intro idx. now rewrite !mask_value.
Qed.

Lemma same_intersects v geom keep : GoodVar v -> get_intersects v geom true keep = get_intersects v geom false keep.
Proof. intro Gv. unfold GeomModel.get_intersects. now rewrite same_mask. Qed.

(** One dimension and everything chosen. *)
Definition AllIn (keep : bool) (v : gvar G) (geom : G) : Prop :=
  length (shape (gv_value v)) = 1 /\ (exists pos g, at_ (gv_value v) pos = Some g) /\
  forall pos g, at_ (gv_value v) pos = Some g -> Chosen keep v geom pos.

Lemma all_in_mask v geom idx keep : GoodVar v -> (AllChosen1 (mask_from_intersects v geom idx keep None) <-> AllIn keep v geom).
Proof.
  intro Gv. destruct (mask_length G intersects touches parts rtree v geom idx keep Gv) as [R S].
  pose proof (fun pos => mask_chosen G intersects touches parts rtree v geom idx keep pos Lib Gv) as MC.
  set (m := mask_from_intersects v geom idx keep None) in *. split.
  - destruct m as [l|n rows] eqn:M; intro H; [|destruct H]. destruct H as [N Z].
    assert (AF : forall i, i < length l -> nth_error l i = Some false).
    { intros i L. destruct (nth_error l i) as [b|] eqn:E; [|apply nth_error_None in E; lia]. f_equal. apply Z. now apply nth_error_In in E. }
    split; [now rewrite <- S|]. split.
    + assert (C : Chosen keep v geom [0]) by (apply MC; cbn; apply (AF 0); destruct l; cbn; [congruence | lia]).
      destruct C as [_ [g [E _]]]. now exists [0], g.
    + intros pos g E. apply MC. destruct (at_in_shape _ _ _ (A1 l) pos g (proj1 Gv) R (eq_sym S) E) as [b B].
      destruct pos as [|i [|? ?]]; try discriminate. cbn in *. apply AF. apply nth_error_Some. congruence.
  - intros [L [[pos0 [g0 E0]] A]]. rewrite <- S in L. destruct m as [l|n rows] eqn:M; [|discriminate].
    assert (AF : forall i b, nth_error l i = Some b -> b = false).
    { intros i b E. destruct (at_in_shape _ _ (A1 l) (gv_value v) [i] b R (proj1 Gv) S E) as [g Eg].
      pose proof (A _ _ Eg) as C. apply MC in C. cbn in C. congruence. }
    split.
    + destruct (at_in_shape _ _ (gv_value v) (A1 l) pos0 g0 (proj1 Gv) R (eq_sym S) E0) as [b B].
      intros ->. destruct pos0 as [|i [|? ?]]; try discriminate. cbn in B. destruct i; discriminate.
    + intros b I. apply In_nth_error in I as [i E]. eauto.
Qed.

Lemma held_one v geom idx keep pos : GoodVar v ->
  let m := mask_from_intersects v geom idx keep None in
  Held [(zero_offsets m, Some m)] pos <-> Chosen keep v geom pos.
Proof.
  intros Gv m. pose proof (fun pos => mask_chosen G intersects touches parts rtree v geom idx keep pos Lib Gv) as MC. fold m in MC.
  assert (Z : forall loc b, at_ m loc = Some b -> map (fun p : nat * nat => fst p + snd p) (combine (zero_offsets m) loc) = loc).
  { intros loc b E. destruct m; destruct loc as [|? [|? [|? ?]]]; try discriminate; reflexivity. }
  split.
  - intros [off [m' [loc [I [A ->]]]]]. destruct I as [I|[]]. injection I as <- <-. rewrite (Z _ _ A). now apply MC.
  - intro C. apply MC in C. exists (zero_offsets m), m, pos. split; [now left|]. split; auto. symmetry. eapply Z; eauto.
Qed.

Lemma intersects_spec v geom idx keep : GoodVar v -> ~ AllIn keep v geom ->
  match get_intersects v geom idx keep with
  | Err e => e = EmptySubsetError /\ forall pos, ~ Chosen keep v geom pos
  | Ok (r, s) =>
      Fits (length (shape (gv_value v))) (Chosen keep v geom) s /\ Within s (gv_value v) /\
      gv_value r = slice_arr s (gv_value v) /\ Regular (gv_value r) /\ shape (gv_value r) = map (fun p => snd p - fst p) s /\
      exists m, gv_mask r = Some m /\ Regular m /\ shape m = shape (gv_value r) /\
        forall pos, at_ m pos = Some false <-> length pos = length s /\ Chosen keep v geom (moved_idx s pos)
  end.
Proof.
  intros Gv N. destruct (mask_length G intersects touches parts rtree v geom idx keep Gv) as [R S].
  pose proof (fun pos => mask_chosen G intersects touches parts rtree v geom idx keep pos Lib Gv) as MC.
  pose proof (fun pos => held_one v geom idx keep pos Gv) as HO. cbv zeta in HO.
  unfold GeomModel.get_intersects. set (m := mask_from_intersects v geom idx keep None) in *.
  destruct (mask_of_regular G v Gv) as [Ro So].
  assert (Bl : Blocks (length (shape (gv_value v))) [(zero_offsets m, Some m)]).
  { intros off m' [I|[]]. injection I as <- <-. split; auto. rewrite S. split; auto. rewrite <- S. now destruct m. }
  pose proof (global_slice_spec _ _ Bl) as GS.
  assert (NA : forall off m', In (off, Some m') [(zero_offsets m, Some m)] -> ~ AllChosen1 m').
  { intros off m' [I|[]]. injection I as <- <-. intro A. apply N. now apply (all_in_mask v geom idx keep Gv). }
  specialize (GS NA). destruct (global_slice [(zero_offsets m, Some m)]) as [s|e]; cbn [bind].
  - assert (F : Fits (length (shape (gv_value v))) (Chosen keep v geom) s).
    { destruct GS as [L [F [[A B] [i0 C]]]]. split; auto. split; auto. split; [split|].
      - intros pos P. apply A. now apply HO.
      - intros k p E. destruct (B k p E) as [[i [Ci X]] [i' [Ci' X']]]. split; [exists i | exists i']; split; auto; now apply HO.
      - exists i0. now apply HO. }
    assert (W : Within s (gv_value v)).
    { eapply fits_within; [apply Gv | reflexivity | exact F|]. intros pos [_ [g [E _]]]. now exists g. }
    assert (Wm : Within s m) by (unfold Within; now rewrite S).
    assert (Wo : Within s (mask_of v)) by (unfold Within; now rewrite So).
    pose proof F as [Ls [Fl _]].
    destruct (slice_shape _ s (gv_value v) W Fl (proj1 Gv)) as [S1 R1]. destruct (slice_shape _ s m Wm Fl R) as [S2 R2].
    destruct (slice_shape _ s (mask_of v) Wo Fl Ro) as [S3 R3].
    split; [exact F|]. split; [exact W|]. split; [reflexivity|]. split; [exact R1|]. split; [exact S1|].
    cbn [slice_gvar set_mask gv_value gv_mask]. eexists. split; [reflexivity|].
    destruct (or_shape (slice_arr s m) (slice_arr s (mask_of v)) R2 R3) as [R4 S4]; [congruence|].
    split; [exact R4|]. split; [congruence|].
    intro pos. rewrite or_at by (auto; congruence).
    assert (Lm : length s = length (shape m)) by (rewrite S; exact Ls).
    assert (Lo : length s = length (shape (mask_of v))) by (rewrite So; exact Ls).
    split.
    + destruct (at_ (slice_arr s m) pos) as [x|] eqn:X; [|discriminate]. destruct (at_ (slice_arr s (mask_of v)) pos) as [y|]; [|discriminate].
      intro E. injection E as E. apply orb_false_iff in E as [-> _]. apply (slice_at _ s m pos false Lm) in X as [L [_ X]].
      split; auto. now apply MC.
    + intros [L C]. assert (X : at_ (slice_arr s m) pos = Some false).
      { apply (slice_at _ s m pos false Lm). split; auto. split; [|now apply MC]. destruct F as [_ [_ [[A _] _]]]. now apply A. }
      assert (Y : at_ (slice_arr s (mask_of v)) pos = Some false).
      { apply (slice_at _ s (mask_of v) pos false Lo). split; auto. split; [destruct F as [_ [_ [[A _] _]]]; now apply A|].
        apply (mask_of_at G v _ Gv). destruct C as [U [g [E _]]]. split; [exact U | now exists g]. }
      now rewrite X, Y.
  - destruct GS as [-> No]. split; auto. intros pos C. apply (No pos). now apply HO.
Qed.

Lemma intersects_raises v geom idx keep : GoodVar v -> AllIn keep v geom -> get_intersects v geom idx keep = Err IndexError.
Proof.
  intros Gv A. unfold GeomModel.get_intersects. apply (all_in_mask v geom idx keep Gv) in A.
  rewrite (global_slice_raises _ (zero_offsets (mask_from_intersects v geom idx keep None)) (mask_from_intersects v geom idx keep None)); auto. now left.
Qed.

(** ** Intersection *)
Variable inter : G -> G -> G.

Lemma clipped_at (v : gvar G) geom pos : GoodVar v ->
  at_ (clipped G inter v geom) pos =
  match at_ (gv_value v) pos with
  | Some g => Some (match at_ (mask_of v) pos with Some false => inter g geom | _ => g end)
  | None => None
  end.
Proof.
  intro Gv. destruct (mask_of_regular G v Gv) as [R S].
  assert (L : length (flat (gv_value v)) = length (flat (mask_of v))) by (rewrite !flat_length by (auto; apply Gv); congruence).
  unfold clipped. rewrite reshape_at by (try apply Gv; rewrite map_length, combine_length; lia).
  rewrite (at_flat _ (gv_value v)) by apply Gv. rewrite (at_flat _ (mask_of v) _ R), (flat_pos_shape _ _ (mask_of v) (gv_value v) pos S).
  destruct (flat_pos (gv_value v) pos) as [p|] eqn:P; auto. rewrite nth_error_map, combine_nth.
  pose proof (flat_pos_bound _ _ _ _ (proj1 Gv) P) as B.
  destruct (nth_error (flat (gv_value v)) p) as [g|] eqn:E; auto.
  destruct (nth_error (flat (mask_of v)) p) as [b|] eqn:E'; [|apply nth_error_None in E'; lia]. now destruct b.
Qed.

Lemma clipped_shape (v : gvar G) geom : GoodVar v -> Regular (clipped G inter v geom) /\ shape (clipped G inter v geom) = shape (gv_value v).
Proof.
  intro Gv. destruct (mask_of_regular G v Gv) as [R S].
  assert (L : length (flat (gv_value v)) = length (flat (mask_of v))) by (rewrite !flat_length by (auto; apply Gv); congruence).
  unfold clipped. split; [apply reshape_regular; [apply Gv|] | apply reshape_shape]; rewrite map_length, combine_length; lia.
Qed.
End Geometry.

Lemma put_nth A (w l : list A) a k : a + length l <= length w ->
  nth_error (firstn a w ++ l ++ skipn (a + length l) w) k =
  if (a <=? k) && (k <? a + length l) then nth_error l (k - a) else nth_error w k.
Proof.
  intro H. destruct (Nat.leb_spec a k) as [B|B]; cbn [andb].
  - rewrite nth_error_app2 by (rewrite firstn_length; lia). rewrite firstn_length, Nat.min_l by lia.
    destruct (Nat.ltb_spec k (a + length l)) as [C|C].
    + now rewrite nth_error_app1 by lia.
    + rewrite nth_error_app2 by lia. rewrite nth_error_skipn. f_equal. lia.
  - rewrite nth_error_app1 by (rewrite firstn_length; lia). now rewrite nth_error_firstn.
Qed.

Definition inb (s : list (nat * nat)) (pos : list nat) : bool :=
  (length s =? length pos) && forallb (fun pi : nat * nat * nat => (fst (fst pi) <=? snd pi) && (snd pi <? snd (fst pi))) (combine s pos).
Definition back (s : list (nat * nat)) (pos : list nat) : list nat := map (fun pi : nat * nat * nat => snd pi - fst (fst pi)) (combine s pos).

Lemma put_slice_at A s (a whole : arr A) pos : Regular a -> Regular whole -> Within s whole -> Forall (fun p => fst p < snd p) s ->
  shape a = map (fun p => snd p - fst p) s ->
  at_ (put_slice s a whole) pos = if inb s pos then at_ a (back s pos) else at_ whole pos.
Proof.
  intros Ra Rw W F Sa. unfold Within in W. destruct whole as [w|wn w]; cbn [shape] in W.
  - inversion W as [|s0 m0 ss ms H W']; subst. inversion W'; subst. inversion F as [|? ? F0 _]; subst.
    destruct a as [l|n rows]; [|discriminate]. cbn in Sa. injection Sa as Sl. cbn [put_slice at_].
    destruct pos as [|i [|? ?]]; auto. rewrite put_nth by lia. unfold inb, back. cbn [combine map forallb fst snd length Nat.eqb andb]. rewrite andb_true_r.
    replace (fst s0 + length l) with (snd s0) by lia. now destruct ((fst s0 <=? i) && (i <? snd s0)).
  - inversion W as [|s0 m0 ss ms H W']; subst. inversion W' as [|s1 m1 ss' ms' H' W'']; subst. inversion W''; subst.
    inversion F as [|? ? F0 F1]; subst. inversion F1 as [|? ? F2 _]; subst.
    destruct a as [l|n rows]; [discriminate|]. cbn in Sa. injection Sa as Sl Sn. cbn [put_slice at_].
    destruct pos as [|j [|i [|? ?]]]; auto.
    set (mid := map (fun rw : list A * list A => firstn (fst s1) (snd rw) ++ fst rw ++ skipn (fst s1 + n) (snd rw)) (combine rows (skipn (fst s0) w))).
    assert (Lm : length mid = length rows) by (unfold mid; rewrite map_length, combine_length, skipn_length; lia).
    rewrite <- Lm. rewrite put_nth by lia. unfold inb, back. cbn [combine map forallb fst snd length Nat.eqb andb]. rewrite andb_true_r.
    replace (fst s0 + length mid) with (snd s0) by lia.
    destruct ((fst s0 <=? j) && (j <? snd s0)) eqn:J; cbn [andb]; auto.
    apply andb_true_iff in J as [J1 J2]. apply Nat.leb_le in J1. apply Nat.ltb_lt in J2.
    unfold mid. rewrite nth_error_map, combine_nth, nth_error_skipn. replace (fst s0 + (j - fst s0)) with j by lia.
    destruct (nth_error rows (j - fst s0)) as [r|] eqn:Er; [|apply nth_error_None in Er; lia].
    destruct (nth_error w j) as [wr|] eqn:Ew; [|apply nth_error_None in Ew; lia]. cbn [option_map fst snd].
    assert (Lr : length r = n) by (cbn in Ra; rewrite Forall_forall in Ra; apply Ra; now apply nth_error_In in Er).
    assert (Lw : length wr = wn) by (cbn in Rw; rewrite Forall_forall in Rw; apply Rw; now apply nth_error_In in Ew).
    rewrite <- Lr. rewrite put_nth by lia. replace (fst s1 + length r) with (snd s1) by lia.
    now destruct ((fst s1 <=? i) && (i <? snd s1)).
Qed.
