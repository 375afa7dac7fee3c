(** Intersections in place or not, the nearest geometry and buffers. *)
From Coq Require Import QArith Lia Lqa.
From Verif Require Import Py Lib NdModel NdSpec NdProofs MaskProofs GeomModel GeomSpec GeomProofs GeomSlice GeomOps.
Local Close Scope Q_scope.
Local Open Scope nat_scope.

Lemma inb_iff s pos : inb s pos = true <-> InSlices s pos.
Proof.
  unfold inb, InSlices. revert pos. induction s as [|p s IH]; intros [|i pos]; cbn [length combine forallb Nat.eqb andb].
  - split; [constructor | reflexivity].
  - split; [discriminate | intro H; inversion H].
  - split; [discriminate | intro H; inversion H].
  - specialize (IH pos). cbn [fst snd]. split.
    + intro H. rewrite !andb_true_iff in H. destruct H as [L [[A B] C]]. apply Nat.leb_le in A. apply Nat.ltb_lt in B. constructor; [lia|].
      apply IH. now rewrite L, C.
    + intro H. inversion H as [|? ? ? ? A B]; subst. apply IH in B. apply andb_true_iff in B as [B C]. rewrite B, C.
      assert (X : (fst p <=? i) = true) by (apply Nat.leb_le; lia). assert (Y : (i <? snd p) = true) by (apply Nat.ltb_lt; lia). now rewrite X, Y.
Qed.

Lemma back_moved s pos : InSlices s pos -> moved_idx s (back s pos) = pos /\ length (back s pos) = length s.
Proof.
  unfold moved_idx, back. induction 1 as [|p i s pos H F [IH L]]; cbn; auto. rewrite IH, L. split; auto. f_equal. lia.
Qed.

Section Geometry.
Variable G : Type.
Variable intersects touches : G -> G -> bool.
Variable parts : G -> list G.
Variable rtree : list G -> G -> list nat.
Hypothesis Lib : IndexLibrary intersects touches parts rtree.
Notation get_intersects := (get_intersects G intersects touches parts rtree).
Notation Chosen := (Chosen intersects touches).

Lemma obj_good v geom idx keep r s : GoodVar v -> ~ AllIn G intersects touches keep v geom -> get_intersects v geom idx keep = Ok (r, s) ->
  GoodVar r /\ forall pos, at_ (mask_of r) pos = Some false <-> length pos = length s /\ Chosen keep v geom (moved_idx s pos).
Proof.
  intros Gv N E. pose proof (intersects_spec G intersects touches parts rtree Lib v geom idx keep Gv N) as X. rewrite E in X.
  destruct X as [F [W [Ev [Rv [Sv [m [Em [Rm [Sm Hm]]]]]]]]].
  split; [split; [exact Rv|]; rewrite Em; auto|]. unfold mask_of. now rewrite Em.
Qed.

Variable inter : G -> G -> G.
Notation get_intersection := (get_intersection G intersects touches inter parts rtree).

Lemma intersection_spec v geom idx keep inplace (return_slice : bool) : GoodVar v -> ~ AllIn G intersects touches keep v geom ->
  (exists pos, Chosen keep v geom pos) ->
  exists r s v', get_intersection v geom idx keep inplace true return_slice = (Ok (if return_slice then WithSlice r s else Plain r), v') /\
    Tight (Chosen keep v geom) s /\ shape (gv_value r) = map (fun p => snd p - fst p) s /\
    (forall pos g, at_ (gv_value r) pos = Some g -> exists g0, at_ (gv_value v) (moved_idx s pos) = Some g0 /\
       (Chosen keep v geom (moved_idx s pos) -> g = inter g0 geom) /\ (~ Chosen keep v geom (moved_idx s pos) -> g = g0)) /\
    (forall pos, length pos = length s -> InSlices s (moved_idx s pos) -> exists g, at_ (gv_value r) pos = Some g) /\
    (forall pos, length pos = length s -> (at_ (mask_of r) pos = Some false <-> Chosen keep v geom (moved_idx s pos))) /\
    (inplace = false -> v' = v) /\
    (inplace = true -> gv_mask v' = gv_mask v /\ forall pos g0, at_ (gv_value v) pos = Some g0 ->
       (Chosen keep v geom pos -> at_ (gv_value v') pos = Some (inter g0 geom)) /\
       (~ Chosen keep v geom pos -> at_ (gv_value v') pos = Some g0)).
Proof.
  intros Gv N [pos0 C0]. unfold GeomModel.get_intersection.
  pose proof (intersects_spec G intersects touches parts rtree Lib v geom idx keep Gv N) as X.
  destruct (get_intersects v geom idx keep) as [[obj s]|e] eqn:E; [|destruct X as [_ X]; exfalso; now apply (X pos0)].
  destruct (obj_good v geom idx keep obj s Gv N E) as [Go Ho].
  destruct X as [F [W [Ev [Rv [Sv [m [Em [Rm [Sm Hm]]]]]]]]].
  pose proof F as [Ls [Fl [[Ti Te] _]]].
  destruct (clipped_shape G inter obj geom Go) as [Rc Sc].
  assert (At : forall pos g0, length pos = length s -> InSlices s (moved_idx s pos) -> at_ (gv_value v) (moved_idx s pos) = Some g0 ->
     at_ (clipped G inter obj geom) pos = Some (match at_ (mask_of obj) pos with Some false => inter g0 geom | _ => g0 end)).
  { intros pos g0 L I A. rewrite clipped_at by exact Go. rewrite Ev.
    assert (B : at_ (slice_arr s (gv_value v)) pos = Some g0) by (apply slice_at; auto). now rewrite B. }
  assert (Cl : forall pos g, at_ (clipped G inter obj geom) pos = Some g -> length pos = length s /\ InSlices s (moved_idx s pos) /\ exists g0, at_ (gv_value v) (moved_idx s pos) = Some g0).
  { intros pos g A. rewrite clipped_at in A by exact Go. rewrite Ev in A. destruct (at_ (slice_arr s (gv_value v)) pos) as [g0|] eqn:B; [|discriminate].
    apply slice_at in B as [L [I B]]; auto. split; auto. split; auto. now exists g0. }
  exists (mkgvar (clipped G inter obj geom) (gv_mask obj)), s. eexists. split; [reflexivity|]. cbn [gv_value gv_mask mask_of].
  split; [now split|]. split; [congruence|]. split; [|split; [|split; [|split]]].
  - intros pos g A. destruct (Cl pos g A) as [L [I [g0 B]]]. exists g0. split; auto. rewrite (At pos g0 L I B) in A. injection A as <-.
    split; intro C.
    + assert (M : at_ (mask_of obj) pos = Some false) by (apply Ho; auto). now rewrite M.
    + destruct (at_ (mask_of obj) pos) as [[|]|] eqn:M; auto. exfalso. apply C. now apply Ho.
  - intros pos L I.
    assert (Q : exists g0, at_ (gv_value v) (moved_idx s pos) = Some g0).
    { unfold Within in W. revert L I W. clear -Gv Ls. destruct Gv as [R _]. destruct (gv_value v) as [l|n rows]; intros L I W; cbn [shape] in W.
      - inversion W as [|s0 m0 ss ms H W']; subst. inversion W'; subst. destruct pos as [|i [|? ?]]; try discriminate.
        inversion I as [|? ? ? ? H0 _]; subst. cbn in *. destruct (nth_error l (fst s0 + i)) as [g|] eqn:X; [now exists g|]. apply nth_error_None in X. lia.
      - inversion W as [|s0 m0 ss ms H W']; subst. inversion W' as [|s1 m1 ss' ms' H' W'']; subst. inversion W''; subst. destruct pos as [|j [|i [|? ?]]]; try discriminate.
        inversion I as [|? ? ? ? H0 I']; subst. inversion I' as [|? ? ? ? H1 _]; subst. cbn in *.
        destruct (nth_error rows (fst s0 + j)) as [row|] eqn:X; [|apply nth_error_None in X; lia].
        rewrite Forall_forall in R. pose proof (R _ (nth_error_In _ _ X)) as Lr.
        destruct (nth_error row (fst s1 + i)) as [g|] eqn:Y; [now exists g|]. apply nth_error_None in Y. lia. }
    destruct Q as [g0 Q]. rewrite (At pos g0 L I Q). eauto.
  - intros pos L. change (match gv_mask obj with Some m => m | None => reshape (clipped G inter obj geom) (map (fun _ => false) (flat (clipped G inter obj geom))) end)
      with (mask_of (mkgvar (clipped G inter obj geom) (gv_mask obj))). unfold mask_of at 1. cbn [gv_mask]. rewrite Em. rewrite Hm. tauto.
  - intros ->. reflexivity.
  - intros ->. cbn [gv_mask gv_value]. split; auto. intros pos g0 A.
    assert (P : at_ (put_slice s (clipped G inter obj geom) (gv_value v)) pos = if inb s pos then at_ (clipped G inter obj geom) (back s pos) else at_ (gv_value v) pos).
    { apply put_slice_at; auto; [apply Gv | congruence]. }
    destruct (inb s pos) eqn:I.
    + apply inb_iff in I. destruct (back_moved s pos I) as [B L].
      assert (A' : at_ (gv_value v) (moved_idx s (back s pos)) = Some g0) by now rewrite B.
      rewrite (At (back s pos) g0 L ltac:(now rewrite B) A') in P. rewrite P. split; intro C.
      * assert (M : at_ (mask_of obj) (back s pos) = Some false) by (apply Ho; now rewrite B). now rewrite M.
      * destruct (at_ (mask_of obj) (back s pos)) as [[|]|] eqn:M; auto. exfalso. apply C. apply Ho in M as [_ M]. now rewrite B in M.
    + rewrite P. split; intro C; auto. apply Ti in C. apply inb_iff in C. congruence.
Qed.

(** Nothing chosen: the variable stays as it is. *)
Lemma intersection_empty v geom idx keep inplace return_slice : GoodVar v -> ~ AllIn G intersects touches keep v geom ->
  (forall pos, ~ Chosen keep v geom pos) -> get_intersection v geom idx keep inplace true return_slice = (Err EmptySubsetError, v).
Proof.
  intros Gv N No. unfold GeomModel.get_intersection.
  pose proof (intersects_spec G intersects touches parts rtree Lib v geom idx keep Gv N) as X.
  destruct (get_intersects v geom idx keep) as [[obj s]|e].
  - destruct X as [[_ [_ [_ [pos C]]]] _]. now apply No in C.
  - now destruct X as [-> _].
Qed.

Lemma intersection_unchecked v geom idx keep inplace : GoodVar v ->
  exists r v', get_intersection v geom idx keep inplace false false = (Ok (Plain r), v') /\ shape (gv_value r) = shape (gv_value v) /\ gv_mask r = gv_mask v /\
    (forall pos g0, at_ (gv_value v) pos = Some g0 ->
       (Unmasked v pos -> at_ (gv_value r) pos = Some (inter g0 geom)) /\ (~ Unmasked v pos -> at_ (gv_value r) pos = Some g0)) /\
    v' = if inplace then r else v.
Proof.
  intro Gv. unfold GeomModel.get_intersection. destruct (clipped_shape G inter v geom Gv) as [Rc Sc].
  eexists _, _. split; [reflexivity|]. cbn [gv_value gv_mask]. split; [exact Sc|]. split; auto. split; auto.
  intros pos g0 A. rewrite clipped_at by exact Gv. rewrite A. pose proof (mask_of_at G v pos Gv) as M. split; intro U.
  - assert (X : at_ (mask_of v) pos = Some false) by (apply M; split; [exact U | now exists g0]). now rewrite X.
  - destruct (at_ (mask_of v) pos) as [[|]|]; auto. exfalso. apply U. now apply M.
Qed.

(** ** Nearest *)
Variable distance : G -> G -> Q.
Variable centroid : G -> G.

(** The unmasked geometries with their positions. *)
Definition live (v : gvar G) : list (nat * G) :=
  iter_array (flat (gv_value v)) (match gv_mask v with Some m => Some (flat m) | None => None end).

Lemma live_In v i g : In (i, g) (live v) <->
  nth_error (flat (gv_value v)) i = Some g /\ match gv_mask v with Some m => nth_error (flat m) i = Some false | None => True end.
Proof using Type.
  clear inter distance centroid.
  unfold live, iter_array. destruct (gv_mask v) as [m|].
  - rewrite compressed_In, Nat.sub_0_r. split; [tauto|]. intro H. split; [lia | exact H].
  - assert (R : forall a (l : list G), In (i, g) (combine (seq a (length l)) l) <-> a <= i /\ nth_error l (i - a) = Some g).
    { intros a l. revert a. induction l as [|x t IH]; intro a; cbn [length seq combine].
      - split; [intros [] | intros [_ E]; destruct (i - a); discriminate].
      - split.
        + intros [E|I]; [injection E as <- <-; rewrite Nat.sub_diag; auto|]. apply IH in I as [L E]. split; [lia|]. replace (i - a) with (S (i - S a)) by lia. exact E.
        + intros [L E]. destruct (Nat.eq_dec a i) as [->|D].
          * rewrite Nat.sub_diag in E. cbn in E. injection E as ->. now left.
          * right. apply IH. split; [lia|]. replace (i - a) with (S (i - S a)) in E by lia. exact E. }
    rewrite R, Nat.sub_0_r. split; [intros [_ E]; auto | intros [E _]; split; [lia | exact E]].
Qed.

Lemma qset_In d k i k' i' : In (k', i') (qset d k i) -> In (k', i') d \/ (k' == k)%Q /\ i' = i.
Proof.
  induction d as [|[a b] d IH]; cbn [qset].
  - intros [E|[]]. injection E as <- <-. right. split; [reflexivity | auto].
  - destruct (Qeq_bool a k) eqn:E.
    + intros [X|X]; [|left; now right]. injection X as <- <-. right. split; [now apply Qeq_bool_iff | auto].
    + intros [X|X]; [left; now left|]. destruct (IH X) as [Y|Y]; auto. left. now right.
Qed.

Lemma qset_has d k i : exists k', In (k', i) (qset d k i) /\ (k' == k)%Q.
Proof.
  induction d as [|[a b] d IH]; cbn [qset].
  - exists k. split; [now left | reflexivity].
  - destruct (Qeq_bool a k) eqn:E.
    + exists a. split; [now left | now apply Qeq_bool_iff].
    + destruct IH as [k' [I X]]. exists k'. split; [now right | exact X].
Qed.

Lemma qset_keeps d k i k' i' : In (k', i') d -> exists i'', In (k', i'') (qset d k i).
Proof.
  induction d as [|[a b] d IH]; intro H; [destruct H|]. cbn [qset]. destruct (Qeq_bool a k).
  - destruct H as [E|I]; [injection E as <- <-; exists i; now left | exists i'; now right].
  - destruct H as [E|I]; [injection E as <- <-; exists b; now left|]. destruct (IH I) as [i'' J]. exists i''. now right.
Qed.

Lemma distances_spec c L d0 : let d := fold_left (fun d (ig : nat * G) => qset d (distance c (snd ig)) (fst ig)) L d0 in
  (forall k i, In (k, i) d -> In (k, i) d0 \/ exists g, In (i, g) L /\ (k == distance c g)%Q) /\
  (forall k i, In (k, i) d0 -> exists i', In (k, i') d) /\
  (forall i g, In (i, g) L -> exists k i', In (k, i') d /\ (k == distance c g)%Q).
Proof.
  revert d0. induction L as [|[i0 g0] L IH]; intro d0; cbn [fold_left fst snd].
  - repeat split; eauto. intros i g [].
  - destruct (IH (qset d0 (distance c g0) i0)) as [A [B C]]. repeat split.
    + intros k i I. destruct (A k i I) as [X|[g [X Y]]].
      * apply qset_In in X as [X|[X ->]]; auto. right. exists g0. split; [now left | exact X].
      * right. exists g. split; [now right | exact Y].
    + intros k i I. destruct (qset_keeps d0 (distance c g0) i0 k i I) as [i'' X]. now apply B in X.
    + intros i g [E|I]; [|exact (C i g I)]. injection E as <- <-. destruct (qset_has d0 (distance c g0) i0) as [k' [X Y]].
      destruct (B _ _ X) as [i' Z]. now exists k', i'.
Qed.

Lemma qmin_spec d best : (qmin d best = best \/ In (qmin d best) d) /\ (fst (qmin d best) <= fst best)%Q /\
  forall k i, In (k, i) d -> (fst (qmin d best) <= k)%Q.
Proof.
  revert best. induction d as [|[k i] d IH]; intro best; cbn [qmin].
  - repeat split; auto; [apply Qle_refl | intros k i []].
  - destruct (Qle_bool (fst best) k) eqn:E.
    + apply Qle_bool_iff in E. destruct (IH best) as [A [B C]]. repeat split.
      * destruct A as [A|A]; auto. right. now right.
      * exact B.
      * intros k' i' [X|X]; [injection X as <- <-; lra | exact (C k' i' X)].
    + assert (E' : ~ (fst best <= k)%Q) by (intro X; apply Qle_bool_iff in X; congruence). destruct (IH (k, i)) as [A [B C]]. cbn [fst] in B. repeat split.
      * destruct A as [A|A]; [right; left; now rewrite A | right; now right].
      * lra.
      * intros k' i' [X|X]; [injection X as <- <-; exact B | exact (C k' i' X)].
Qed.

Lemma nearest_spec v t : match get_nearest G distance centroid v t with
  | Ok i => exists g, In (i, g) (live v) /\ forall i' g', In (i', g') (live v) -> (distance (centroid t) g <= distance (centroid t) g')%Q
  | Err e => e = ValueError /\ live v = []
  end.
Proof.
  unfold get_nearest. fold (live v). destruct (distances_spec (centroid t) (live v) []) as [A [_ C]]. cbv zeta in A, C.
  destruct (fold_left (fun d (ig : nat * G) => qset d (distance (centroid t) (snd ig)) (fst ig)) (live v) []) as [|[k0 i0] d].
  - split; auto. destruct (live v) as [|[i g] l]; auto. destruct (C i g (or_introl eq_refl)) as [k [i' [[] _]]].
  - destruct (qmin_spec d (k0, i0)) as [X [Y Z]]. destruct (qmin d (k0, i0)) as [k i] eqn:Q. cbn [snd fst] in *.
    assert (I : In (k, i) ((k0, i0) :: d)) by (destruct X as [X|X]; [left; congruence | now right]).
    destruct (A k i I) as [[]|[g [L E]]]. exists g. split; auto. intros i' g' I'.
    destruct (C i' g' I') as [k' [i'' [J E']]]. rewrite <- E, <- E'. destruct J as [J|J]; [injection J as <- <-; exact Y | exact (Z k' i'' J)].
Qed.

(** ** Buffers *)
Variable buffered : G -> G.

Lemma buffer_spec v m : GoodVar v -> gv_mask v = Some m ->
  exists r, get_buffer G buffered v = Ok r /\ shape r = shape (gv_value v) /\
    forall pos g, at_ (gv_value v) pos = Some g ->
      (Unmasked v pos -> at_ r pos = Some (Some (buffered g))) /\ (~ Unmasked v pos -> at_ r pos = Some None).
Proof using Type.
  clear inter distance centroid.
  intros Gv E. unfold get_buffer. rewrite E. eexists. split; [reflexivity|].
  pose proof Gv as [R M]. rewrite E in M. destruct M as [Rm Sm].
  assert (L : length (flat (gv_value v)) = length (flat m)) by (rewrite !flat_length by auto; congruence).
  split; [apply reshape_shape; rewrite map_length, combine_length; lia|].
  intros pos g A. rewrite reshape_at by (auto; rewrite map_length, combine_length; lia). unfold Unmasked. rewrite E.
  rewrite (at_flat _ _ _ R) in A. rewrite (at_flat _ m _ Rm), (flat_pos_shape _ _ m (gv_value v) pos Sm).
  destruct (flat_pos (gv_value v) pos) as [p|] eqn:P; [|discriminate]. rewrite nth_error_map, combine_nth, A.
  pose proof (flat_pos_bound _ _ _ _ R P) as B. destruct (nth_error (flat m) p) as [b|] eqn:Eb; [|apply nth_error_None in Eb; lia].
  destruct b; cbn; split; intro U; auto; try congruence.
Qed.

Lemma buffer_one g : get_buffer G buffered (mkgvar (A1 [g]) None) = Ok (A1 [Some (buffered g)]).
Proof. reflexivity. Qed.

Lemma buffer_rest g g' l : exists r, get_buffer G buffered (mkgvar (A1 (g :: g' :: l)) None) = Ok r /\
  forall i, 0 < i < length (g :: g' :: l) -> at_ r [i] = Some None.
Proof using Type.
  clear inter distance centroid.
  eexists. split; [reflexivity|]. intros i H. cbn. destruct i as [|i]; [lia|]. cbn [nth_error].
  change (None :: map (fun _ : G => @None G) l) with (map (fun _ : G => @None G) (g' :: l)). rewrite nth_error_map.
  destruct (nth_error (g' :: l) i) eqn:X; auto. apply nth_error_None in X. cbn in *. lia.
Qed.
End Geometry.
