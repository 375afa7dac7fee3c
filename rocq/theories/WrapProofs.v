From Verif Require Import Py Lib Spec CoordModel CoordSpec CoordProofs WrapModel WrapSpec.
From Coq Require Import Lqa.
Local Open Scope Q_scope.

Lemma areas_in l : forall r, areas l = Ok r -> l = map Area r.
Proof.
  unfold areas. induction l as [|p l IH]; cbn; intros r H; [injection H as <-; reflexivity|].
  destruct p; cbn in H; try discriminate. destruct (map_res _ l) as [r'|]; [|discriminate]. cbn in H. injection H as <-.
  cbn. rewrite (IH _ eq_refl). reflexivity.
Qed.
Lemma areas_of r : areas (map Area r) = Ok r.
Proof. unfold areas. induction r as [|p r IH]; cbn; [reflexivity|]. rewrite IH. reflexivity. Qed.
Lemma merged_in l r : merged l = Ok r -> forall p, In p r <-> In (Area p) l.
Proof.
  unfold merged. intros H p. assert (G : forall l, areas l = Ok r -> In p r <-> In (Area p) l).
  { intros k Hk. rewrite (areas_in _ _ Hk). split; [apply in_map|]. intros I. apply in_map_iff in I. destruct I as (x & E & I). congruence. }
  destruct (areas l) as [r'|] eqn:E.
  - injection H as ->. apply G. exact E.
  - rewrite (G _ H), filter_In. cbn. tauto.
Qed.
Lemma map_res_in {A B} (f : A -> res B) l r : map_res f l = Ok r -> forall y, In y r <-> exists x, In x l /\ f x = Ok y.
Proof.
  revert r. induction l as [|a l IH]; cbn; intros r H y; [injection H as <-; split; [intros []|intros (x & [] & _)]|].
  destruct (f a) as [b|] eqn:E; [|discriminate]. cbn in H. destruct (map_res f l) as [r'|] eqn:E'; [|discriminate]. cbn in H. injection H as <-.
  cbn. rewrite (IH _ eq_refl). split.
  - intros [<-|(x & I & F)]; eauto.
  - intros (x & [<-|I] & F); [left; congruence|right; eauto].
Qed.
Lemma moved_in d l r : moved_pieces d l = Ok r -> forall q, In q r <-> exists p, In (Area p) l /\ q = moved d p.
Proof.
  intros H q. assert (M : map_res (moved_piece d) l = Ok r).
  { revert H. unfold moved_pieces. destruct l as [|[p| |] [|]]; auto; discriminate. }
  rewrite (map_res_in _ _ _ M). split.
  - intros (x & I & E). destruct x; cbn in E; try discriminate. injection E as <-. eauto.
  - intros (p & I & ->). exists (Area p). auto.
Qed.

Lemma qlt_iff a b : qlt a b = true <-> a < b.
Proof. unfold qlt. rewrite negb_true_iff. split; intros H. - apply Qnot_le_lt. intros G. apply Qle_bool_iff in G. congruence.
  - apply not_true_iff_false. intros G. apply Qle_bool_iff in G. lra. Qed.
Lemma qle_iff a b : qle a b = true <-> a <= b.
Proof. apply Qle_bool_iff. Qed.

Lemma xs_in l x : In x (xs_of l) <-> exists p q, In p l /\ In q (p_ext p) /\ fst q = x.
Proof.
  unfold xs_of. rewrite in_map_iff. split.
  - intros (q & E & I). apply in_flat_map in I. destruct I as (p & I & J). eauto 6.
  - intros (p & q & I & J & E). exists q. split; [exact E|]. apply in_flat_map. eauto.
Qed.

Lemma bounds_spec l b : bounds_x l = Ok b ->
  (exists p q, In p l /\ In q (p_ext p) /\ fst q = fst b) /\ (exists p q, In p l /\ In q (p_ext p) /\ fst q = snd b) /\
  forall p q, In p l -> In q (p_ext p) -> fst b <= fst q <= snd b.
Proof.
  unfold bounds_x, bind. destruct (np_min (xs_of l)) as [mn|] eqn:En; [|discriminate]. destruct (np_max (xs_of l)) as [mx|] eqn:Ex; [|discriminate].
  intros H. injection H as <-. apply np_min_spec in En. apply np_max_spec in Ex. destruct En as [I1 B1], Ex as [I2 B2]. apply xs_in in I1. apply xs_in in I2.
  split; [exact I1|]. split; [exact I2|]. intros p q Ip Iq. cbn. split; [apply B1|apply B2]; apply xs_in; eauto.
Qed.

Section L.
Variable inside : poly -> Q -> Q -> Prop.
Variable clip : list poly -> Q -> Q -> list piece.
Hypothesis L : Library inside clip.
Notation Covers := (Covers inside).

Lemma inside_moved_down d p x y : inside p x y -> inside (moved d p) (x + d) y.
Proof.
  intros H. apply (lib_translated _ _ L _ d) in H. destruct p as [e h]. unfold translated in H. cbn in H. apply (lib_holes _ _ L) in H. exact H.
Qed.
Lemma inside_moved_up d p x y : p_holes p = [] -> inside (moved d p) x y -> inside p (x - d) y.
Proof.
  intros Hh H. apply (lib_translated _ _ L p d). apply (lib_equal _ _ L) with x; [ring|]. unfold translated. rewrite Hh. exact H.
Qed.
Lemma inside_same p x x' y : x == x' -> inside p x y -> inside p x' y.
Proof. apply (lib_equal _ _ L). Qed.

Lemma wrap_cases g g' : wrap_region clip g = Ok g' ->
  ((forall p q, In p (exploded g) -> In q (p_ext p) -> 180 < fst q) /\ exploded g' = map (moved (- (360))) (exploded g)) \/
  (Crosses g /\ exists r, moved_pieces (- (360)) (clip (exploded g) 180 360) = Ok r /\
     forall p, In p (exploded g') <-> In (Area p) (clip (exploded g) (- (180)) 180) \/ In p r) \/
  ((forall p q, In p (exploded g) -> In q (p_ext p) -> fst q <= 180) /\ g' = g).
Proof.
  unfold wrap_region. destruct (bounds_x (exploded g)) as [b|] eqn:Eb; [|discriminate]. cbn [bind].
  destruct (bounds_spec _ _ Eb) as ((p1 & q1 & I1 & J1 & E1) & (p2 & q2 & I2 & J2 & E2) & B).
  destruct (qlt_spec 180 (fst b)) as [H1|H1], (qlt_spec 180 (snd b)) as [H2|H2]; cbn [andb].
  - intros H. left. split; [intros p q Ip Iq; specialize (B p q Ip Iq); lra|]. injection H as <-. destruct g; reflexivity.
  - exfalso. pose proof (B p1 q1 I1 J1). lra.
  - destruct (qle_spec (fst b) 180) as [H3|H3]; [|exfalso; lra]. cbn [andb].
    destruct (moved_pieces _ _) as [r|] eqn:Em; [|discriminate]. cbn [bind]. destruct (merged _) as [u|] eqn:Eu; [|discriminate]. cbn [bind].
    intros H. injection H as <-. right. left. split.
    + split; [exists p1, q1|exists p2, q2]; (split; [assumption|split; [assumption|rewrite ?E1, ?E2; lra]]).
    + exists r. split; [reflexivity|]. intros p. cbn [exploded]. rewrite (merged_in _ _ Eu), in_app_iff, in_map_iff. split.
      * intros [I|(x & E & I)]; [auto|]. right. congruence.
      * intros [I|I]; eauto.
  - rewrite andb_false_r. intros H. injection H as <-. right. right. split; [|reflexivity]. intros p q Ip Iq. specialize (B p q Ip Iq). lra.
Qed.

Lemma covers_within lo hi g x y : CornersWithin lo hi g -> Covers g x y -> lo <= x <= hi.
Proof.
  intros W (p & Ip & H). destruct (lib_hull _ _ L _ _ _ H) as (a & b & Ia & Ib & R). pose proof (W p a Ip Ia). pose proof (W p b Ip Ib). lra.
Qed.

(** Nothing is lost. *)
Theorem wrap_keeps g g' : CornersWithin (- (180)) 360 g -> wrap_region clip g = Ok g' ->
  forall x y, - (180) < x < 180 -> ~ x == 0 -> Covers g x y \/ Covers g (x + 360) y -> Covers g' x y.
Proof.
  intros W H x y Hx H0 C. destruct (wrap_cases _ _ H) as [[A E]|[(X & r & Er & E)|[A ->]]].
  - destruct C as [(p & Ip & Hp)|(p & Ip & Hp)].
    + destruct (lib_hull _ _ L _ _ _ Hp) as (a & b & Ia & _ & R). specialize (A p a Ip Ia). lra.
    + exists (moved (- (360)) p). rewrite E. split; [apply in_map; exact Ip|]. apply inside_same with (x + 360 + - (360)); [ring|]. apply inside_moved_down. exact Hp.
  - destruct C as [C|C].
    + destruct (proj2 (lib_clip _ _ L (exploded g) (- (180)) 180 x y Hx)) as (q & Iq & Hq); [exact C|]. exists q. split; [apply E; left; exact Iq|exact Hq].
    + pose proof (covers_within _ _ _ _ _ W C) as R. assert (Hx' : 180 < x + 360 < 360).
      { split; [lra|]. apply Qnot_le_lt. intros G. apply H0. lra. }
      destruct (proj2 (lib_clip _ _ L (exploded g) 180 360 _ y Hx')) as (q & Iq & Hq); [exact C|].
      exists (moved (- (360)) q). split; [apply E; right; apply (moved_in _ _ _ Er); eauto|].
      apply inside_same with (x + 360 + - (360)); [ring|]. apply inside_moved_down. exact Hq.
  - destruct C as [C|C]; [exact C|]. exfalso. destruct C as (p & Ip & Hp). destruct (lib_hull _ _ L _ _ _ Hp) as (a & b & _ & Ib & R). specialize (A p b Ip Ib). lra.
Qed.

(** Nothing is added if there are no holes. *)
Theorem wrap_adds g g' : CornersWithin (- (180)) 360 g -> NoHoles g -> wrap_region clip g = Ok g' ->
  forall x y, - (180) < x < 180 -> ~ x == 0 -> Covers g' x y -> Covers g x y \/ Covers g (x + 360) y.
Proof.
  intros W N H x y Hx H0 (p & Ip & Hp). destruct (wrap_cases _ _ H) as [[A E]|[(X & r & Er & E)|[A ->]]].
  - rewrite E in Ip. apply in_map_iff in Ip. destruct Ip as (q & <- & Iq). right. exists q. split; [exact Iq|].
    apply inside_moved_up in Hp; [|apply N; exact Iq]. revert Hp. apply inside_same. ring.
  - apply E in Ip. destruct Ip as [Ip|Ip].
    + left. apply (proj1 (lib_clip _ _ L (exploded g) (- (180)) 180 x y Hx)). eauto.
    + right. apply (moved_in _ _ _ Er) in Ip. destruct Ip as (q & Iq & ->).
      apply inside_moved_up in Hp; [|apply (lib_clip_holes _ _ L _ _ _ _ N Iq)]. apply inside_same with (x' := x + 360) in Hp; [|ring].
      assert (R : 180 <= x + 360 <= 360).
      { destruct (lib_hull _ _ L _ _ _ Hp) as (a & b & Ia & Ib & R). pose proof (lib_clip_corners _ _ L _ _ _ _ _ Iq Ia). pose proof (lib_clip_corners _ _ L _ _ _ _ _ Iq Ib). lra. }
      apply (proj1 (lib_clip _ _ L (exploded g) 180 360 (x + 360) y ltac:(split; [lra|apply Qnot_le_lt; intros G; apply H0; lra]))). eauto.
  - left. exists p. auto.
Qed.

(** The result is wrapped, and has no holes if there were none. *)
Theorem wrap_within g g' : CornersWithin (- (180)) 360 g -> wrap_region clip g = Ok g' -> CornersWithin (- (180)) 180 g' /\ (NoHoles g -> NoHoles g').
Proof.
  intros W H. destruct (wrap_cases _ _ H) as [[A E]|[(X & r & Er & E)|[A ->]]].
  - split.
    + intros p q Ip Iq. rewrite E in Ip. apply in_map_iff in Ip. destruct Ip as (p0 & <- & Ip0). cbn in Iq. apply in_map_iff in Iq.
      destruct Iq as (q0 & <- & Iq0). specialize (W _ _ Ip0 Iq0). specialize (A _ _ Ip0 Iq0). cbn. lra.
    + intros _ p Ip. rewrite E in Ip. apply in_map_iff in Ip. destruct Ip as (p0 & <- & Ip0). reflexivity.
  - split.
    + intros p q Ip Iq. apply E in Ip. destruct Ip as [Ip|Ip]; [apply (lib_clip_corners _ _ L _ _ _ _ _ Ip Iq)|].
      apply (moved_in _ _ _ Er) in Ip. destruct Ip as (p0 & Ip0 & ->). cbn in Iq. apply in_map_iff in Iq. destruct Iq as (q0 & <- & Iq0).
      pose proof (lib_clip_corners _ _ L _ _ _ _ _ Ip0 Iq0). cbn. lra.
    + intros N p Ip. apply E in Ip. destruct Ip as [Ip|Ip]; [apply (lib_clip_holes _ _ L _ _ _ _ N Ip)|].
      apply (moved_in _ _ _ Er) in Ip. destruct Ip as (p0 & Ip0 & ->). reflexivity.
  - split; [|auto]. intros p q Ip Iq. specialize (W _ _ Ip Iq). specialize (A _ _ Ip Iq). lra.
Qed.

(** ** Unwrapping *)
Lemma should_iff l : should_unwrap l = true <-> exists p q, In p l /\ In q (p_ext p) /\ fst q < 0.
Proof.
  unfold should_unwrap. rewrite existsb_exists. split.
  - intros (p & Ip & E). apply existsb_exists in E. destruct E as (q & Iq & E). apply qlt_iff in E. eauto 6.
  - intros (p & q & Ip & Iq & E). exists p. split; [exact Ip|]. apply existsb_exists. exists q. split; [exact Iq|]. apply qlt_iff. exact E.
Qed.
Lemma should_not l : should_unwrap l = false -> forall p q, In p l -> In q (p_ext p) -> 0 <= fst q.
Proof.
  intros H p q Ip Iq. apply Qnot_lt_le. intros G. assert (should_unwrap l = true) by (apply should_iff; eauto 6). congruence.
Qed.

Lemma one_cases p r : unwrap_one clip p = Ok r ->
  ((exists q, In q (p_ext p) /\ fst q < 0) /\ exists m, moved_pieces 360 (clip [p] (- (180)) 0) = Ok m /\
     forall q, In q r <-> In q m \/ In (Area q) (clip [p] 0 180)) \/
  ((forall q, In q (p_ext p) -> 0 <= fst q) /\ r = [p]).
Proof.
  unfold unwrap_one. destruct (should_unwrap [p]) eqn:E.
  - apply should_iff in E. destruct E as (p' & q & [->|[]] & Iq & Hq). destruct (moved_pieces _ _) as [m|] eqn:Em; [|discriminate]. cbn [bind].
    intros H. left. split; [eauto|]. exists m. split; [reflexivity|]. intros u. rewrite (merged_in _ _ H), in_app_iff, in_map_iff. split.
    + intros [(x & Ex & I)|I]; [left; congruence|auto].
    + intros [I|I]; eauto.
  - intros H. injection H as <-. right. split; [|reflexivity]. intros q Iq. apply (should_not _ E p q); [left; reflexivity|exact Iq].
Qed.

Lemma one_keeps p r : (forall q, In q (p_ext p) -> - (180) <= fst q <= 180) -> unwrap_one clip p = Ok r ->
  forall x y, 0 < x < 360 -> ~ x == 180 -> inside p x y \/ inside p (x - 360) y -> exists q, In q r /\ inside q x y.
Proof.
  intros W H x y Hx H0 C. assert (R : forall x, inside p x y -> - (180) <= x <= 180).
  { intros x' Hp. destruct (lib_hull _ _ L _ _ _ Hp) as (a & b & Ia & Ib & R). pose proof (W a Ia). pose proof (W b Ib). lra. }
  destruct (one_cases _ _ H) as [(X & m & Em & E)|[A ->]].
  - destruct C as [C|C]; pose proof (R _ C) as R'.
    + assert (Hx' : 0 < x < 180) by (split; [lra|apply Qnot_le_lt; intros G; apply H0; lra]).
      destruct (proj2 (lib_clip _ _ L [p] 0 180 x y Hx')) as (q & Iq & Hq); [exists p; cbn; auto|]. exists q. split; [apply E; right; exact Iq|exact Hq].
    + assert (Hx' : - (180) < x - 360 < 0) by (split; [apply Qnot_le_lt; intros G; apply H0; lra|lra]).
      destruct (proj2 (lib_clip _ _ L [p] (- (180)) 0 _ y Hx')) as (q & Iq & Hq); [exists p; cbn; auto|].
      exists (moved 360 q). split; [apply E; left; apply (moved_in _ _ _ Em); eauto|]. apply inside_same with (x - 360 + 360); [ring|]. apply inside_moved_down. exact Hq.
  - exists p. split; [left; reflexivity|]. destruct C as [C|C]; [exact C|]. exfalso. destruct (lib_hull _ _ L _ _ _ C) as (a & b & Ia & Ib & R'). pose proof (A a Ia). lra.
Qed.

Lemma one_adds p r : p_holes p = [] -> unwrap_one clip p = Ok r ->
  forall q, In q r -> forall x y, 0 < x < 360 -> ~ x == 180 -> inside q x y -> inside p x y \/ inside p (x - 360) y.
Proof.
  intros N H q Iq x y Hx H0 Hq. assert (N' : forall p', In p' [p] -> p_holes p' = []) by (intros p' [->|[]]; exact N).
  destruct (one_cases _ _ H) as [(X & m & Em & E)|[A ->]].
  - apply E in Iq. destruct Iq as [Iq|Iq].
    + right. apply (moved_in _ _ _ Em) in Iq. destruct Iq as (a & Ia & ->). apply inside_moved_up in Hq; [|apply (lib_clip_holes _ _ L _ _ _ _ N' Ia)].
      assert (R : - (180) <= x - 360 <= 0).
      { destruct (lib_hull _ _ L _ _ _ Hq) as (c & d & Ic & Id & R). pose proof (lib_clip_corners _ _ L _ _ _ _ _ Ia Ic). pose proof (lib_clip_corners _ _ L _ _ _ _ _ Ia Id). lra. }
      destruct (proj1 (lib_clip _ _ L [p] (- (180)) 0 (x - 360) y ltac:(split; [apply Qnot_le_lt; intros G; apply H0; lra|lra]))) as (p' & [->|[]] & Hp); eauto.
    + left. assert (R : 0 <= x <= 180).
      { destruct (lib_hull _ _ L _ _ _ Hq) as (c & d & Ic & Id & R). pose proof (lib_clip_corners _ _ L _ _ _ _ _ Iq Ic). pose proof (lib_clip_corners _ _ L _ _ _ _ _ Iq Id). lra. }
      destruct (proj1 (lib_clip _ _ L [p] 0 180 x y ltac:(split; [lra|apply Qnot_le_lt; intros G; apply H0; lra]))) as (p' & [->|[]] & Hp); eauto.
  - destruct Iq as [->|[]]. auto.
Qed.

Lemma one_within p r : (forall q, In q (p_ext p) -> - (180) <= fst q <= 180) -> unwrap_one clip p = Ok r ->
  forall a q, In a r -> In q (p_ext a) -> 0 <= fst q <= 360.
Proof.
  intros W H a q Ia Iq. destruct (one_cases _ _ H) as [(X & m & Em & E)|[A ->]].
  - apply E in Ia. destruct Ia as [Ia|Ia].
    + apply (moved_in _ _ _ Em) in Ia. destruct Ia as (b & Ib & ->). cbn in Iq. apply in_map_iff in Iq. destruct Iq as (q0 & <- & Iq).
      pose proof (lib_clip_corners _ _ L _ _ _ _ _ Ib Iq). cbn. lra.
    + pose proof (lib_clip_corners _ _ L _ _ _ _ _ Ia Iq). lra.
  - destruct Ia as [<-|[]]. specialize (W q Iq). specialize (A q Iq). lra.
Qed.
Lemma one_holes p r : p_holes p = [] -> unwrap_one clip p = Ok r -> forall a, In a r -> p_holes a = [].
Proof.
  intros N H a Ia. destruct (one_cases _ _ H) as [(X & m & Em & E)|[A ->]].
  - apply E in Ia. destruct Ia as [Ia|Ia].
    + apply (moved_in _ _ _ Em) in Ia. destruct Ia as (b & Ib & ->). reflexivity.
    + revert Ia. apply (lib_clip_holes _ _ L). intros p' [->|[]]; exact N.
  - destruct Ia as [<-|[]]. exact N.
Qed.

Lemma unwrap_cases g g' : unwrap_region clip g = Ok g' ->
  (exists ps, map_res (unwrap_one clip) (exploded g) = Ok ps /\ exploded g' = concat ps) \/
  (g' = g /\ forall p q, In p (exploded g) -> In q (p_ext p) -> 0 <= fst q).
Proof.
  unfold unwrap_region. destruct (should_unwrap (exploded g)) eqn:E.
  - destruct (map_res _ _) as [ps|] eqn:Em; [|discriminate]. cbn [bind]. intros H. left. exists ps. split; [reflexivity|].
    destruct (concat ps) as [|a [|b l]]; [discriminate| |]; injection H as <-; reflexivity.
  - intros H. injection H as <-. right. split; [reflexivity|]. apply should_not. exact E.
Qed.
(** Every polygon is unwrapped by itself. *)
Lemma unwrap_each g g' : unwrap_region clip g = Ok g' -> forall a, In a (exploded g') <-> exists p r, In p (exploded g) /\ unwrap_one clip p = Ok r /\ In a r.
Proof.
  intros H a. destruct (unwrap_cases _ _ H) as [(ps & Em & ->)|[-> A]].
  - rewrite in_concat. split.
    + intros (r & Ir & Ia). apply (map_res_in _ _ _ Em) in Ir. destruct Ir as (p & Ip & E). eauto 6.
    + intros (p & r & Ip & E & Ia). exists r. split; [apply (map_res_in _ _ _ Em); eauto|exact Ia].
  - assert (S : forall p, In p (exploded g) -> unwrap_one clip p = Ok [p]).
    { intros p Ip. unfold unwrap_one. destruct (should_unwrap [p]) eqn:E; [|reflexivity]. apply should_iff in E.
      destruct E as (p' & q & [->|[]] & Iq & G). specialize (A _ _ Ip Iq). lra. }
    split.
    + intros Ia. exists a, [a]. split; [exact Ia|]. split; [apply S; exact Ia|left; reflexivity].
    + intros (p & r & Ip & E & Ia). rewrite (S _ Ip) in E. injection E as <-. destruct Ia as [<-|[]]. exact Ip.
Qed.
Lemma unwrap_all g g' p : unwrap_region clip g = Ok g' -> In p (exploded g) -> exists r, unwrap_one clip p = Ok r.
Proof.
  intros H Ip. destruct (unwrap_cases _ _ H) as [(ps & Em & _)|[-> A]].
  - clear H. revert ps Em. induction (exploded g) as [|a l IH]; cbn; intros ps Em; [destruct Ip|].
    destruct (unwrap_one clip a) as [r|] eqn:E; [|discriminate]. cbn in Em. destruct (map_res _ l) eqn:E'; [|discriminate].
    destruct Ip as [->|Ip]; eauto.
  - unfold unwrap_one. destruct (should_unwrap [p]) eqn:E; [|eauto]. apply should_iff in E. destruct E as (p' & q & [->|[]] & Iq & G). specialize (A _ _ Ip Iq). lra.
Qed.

Theorem unwrap_keeps g g' : CornersWithin (- (180)) 180 g -> unwrap_region clip g = Ok g' ->
  forall x y, 0 < x < 360 -> ~ x == 180 -> Covers g x y \/ Covers g (x - 360) y -> Covers g' x y.
Proof.
  intros W H x y Hx H0 C. assert (E : exists p, In p (exploded g) /\ (inside p x y \/ inside p (x - 360) y)) by (destruct C as [(p & ? & ?)|(p & ? & ?)]; eauto).
  destruct E as (p & Ip & Hp). destruct (unwrap_all _ _ _ H Ip) as [r Er].
  destruct (one_keeps _ _ (fun q => W p q Ip) Er x y Hx H0 Hp) as (q & Iq & Hq). exists q. split; [|exact Hq]. apply (unwrap_each _ _ H). eauto.
Qed.
Theorem unwrap_adds g g' : NoHoles g -> unwrap_region clip g = Ok g' ->
  forall x y, 0 < x < 360 -> ~ x == 180 -> Covers g' x y -> Covers g x y \/ Covers g (x - 360) y.
Proof.
  intros N H x y Hx H0 (q & Iq & Hq). apply (unwrap_each _ _ H) in Iq. destruct Iq as (p & r & Ip & Er & Iq).
  destruct (one_adds _ _ (N p Ip) Er q Iq x y Hx H0 Hq) as [C|C]; [left|right]; exists p; auto.
Qed.
Theorem unwrap_within g g' : CornersWithin (- (180)) 180 g -> unwrap_region clip g = Ok g' -> CornersWithin 0 360 g' /\ (NoHoles g -> NoHoles g').
Proof.
  intros W H. split.
  - intros a q Ia Iq. apply (unwrap_each _ _ H) in Ia. destruct Ia as (p & r & Ip & Er & Ia). apply (one_within _ _ (fun q => W p q Ip) Er a q Ia Iq).
  - intros N a Ia. apply (unwrap_each _ _ H) in Ia. destruct Ia as (p & r & Ip & Er & Ia). apply (one_holes _ _ (N p Ip) Er a Ia).
Qed.

(** ** There and back *)
Theorem wrap_unwrap g w u : CornersWithin 0 360 g -> NoHoles g -> wrap_region clip g = Ok w -> unwrap_region clip w = Ok u ->
  forall x y, 0 < x < 360 -> ~ x == 180 -> (Covers u x y <-> Covers g x y).
Proof.
  intros W N Hw Hu x y Hx H0. assert (W' : CornersWithin (- (180)) 360 g) by (intros p q Ip Iq; specialize (W p q Ip Iq); lra).
  destruct (wrap_within _ _ W' Hw) as [Ww Nw]. specialize (Nw N).
  assert (A : Covers u x y <-> Covers w x y \/ Covers w (x - 360) y).
  { split; [apply (unwrap_adds _ _ Nw Hu x y Hx H0)|apply (unwrap_keeps _ _ Ww Hu x y Hx H0)]. }
  rewrite A. assert (B : forall z, - (180) < z < 180 -> ~ z == 0 -> Covers w z y <-> Covers g z y \/ Covers g (z + 360) y).
  { intros z Hz Hz0. split; [apply (wrap_adds _ _ W' N Hw z y Hz Hz0)|apply (wrap_keeps _ _ W' Hw z y Hz Hz0)]. }
  assert (S : forall z z', z == z' -> Covers g z y -> Covers g z' y) by (intros z z' E (p & Ip & Hp); exists p; split; [exact Ip|apply (inside_same _ _ _ _ E Hp)]).
  destruct (Qlt_le_dec x 180) as [D|D].
  - assert (F : ~ Covers w (x - 360) y) by (intros G; apply (covers_within _ _ _ _ _ Ww) in G; lra).
    rewrite (B x) by lra. split; [|auto]. intros [[G|G]|G]; [exact G| |contradiction]. apply (covers_within _ _ _ _ _ W) in G. lra.
  - assert (D' : 180 < x) by (apply Qnot_le_lt; intros G; apply H0; lra).
    assert (F : ~ Covers w x y) by (intros G; apply (covers_within _ _ _ _ _ Ww) in G; lra).
    rewrite (B (x - 360)) by lra. split.
    + intros [G|[G|G]]; [contradiction| |].
      * apply (covers_within _ _ _ _ _ W) in G. lra.
      * revert G. apply S. ring.
    + intros G. right. right. revert G. apply S. ring.
Qed.

(** ** What is lost and what raises *)
(** Unwrapping a polygon that reaches west of the meridian drops what lies east of 180. *)
Theorem unwrap_drops p g' : p_holes p = [] -> (exists q, In q (p_ext p) /\ fst q < 0) -> unwrap_region clip (Single p) = Ok g' ->
  forall x y, 180 < x < 360 -> ~ inside p (x - 360) y -> ~ Covers g' x y.
Proof.
  intros N X H x y Hx Hn (a & Ia & Ha). apply (unwrap_each _ _ H) in Ia. destruct Ia as (p' & r & [<-|[]] & Er & Ia).
  destruct (one_cases _ _ Er) as [(_ & m & Em & E)|[A _]].
  - apply E in Ia. destruct Ia as [Ia|Ia].
    + destruct (one_adds _ _ N Er a (proj2 (E a) (or_introl Ia)) x y ltac:(lra) ltac:(lra) Ha) as [C|C]; [|contradiction].
      apply (moved_in _ _ _ Em) in Ia. destruct Ia as (b & Ib & ->).
      assert (N' : forall p', In p' [p] -> p_holes p' = []) by (intros p' [->|[]]; exact N).
      apply inside_moved_up in Ha; [|apply (lib_clip_holes _ _ L _ _ _ _ N' Ib)].
      assert (R : x - 360 <= 0).
      { destruct (lib_hull _ _ L _ _ _ Ha) as (c & d & Ic & Id & R). pose proof (lib_clip_corners _ _ L _ _ _ _ _ Ib Id). lra. }
      destruct (proj1 (lib_clip _ _ L [p] (- (180)) 0 (x - 360) y ltac:(lra))) as (p' & [->|[]] & Hp); [eauto|contradiction].
    + destruct (lib_hull _ _ L _ _ _ Ha) as (c & d & Ic & Id & R). pose proof (lib_clip_corners _ _ L _ _ _ _ _ Ia Id). lra.
  - destruct X as (q & Iq & Hq). specialize (A q Iq). lra.
Qed.
(** Holes are filled. *)
Theorem wrap_fills p g' : (forall q, In q (p_ext p) -> 180 < fst q) -> wrap_region clip (Single p) = Ok g' ->
  forall x y, inside (mkpoly (p_ext p) []) (x + 360) y -> Covers g' x y.
Proof.
  intros A H x y C. destruct (wrap_cases _ _ H) as [[_ E]|[((_ & X) & _)|[A' ->]]].
  - exists (moved (- (360)) p). rewrite E. split; [left; reflexivity|]. apply inside_same with (x + 360 + - (360)); [ring|].
    apply (inside_moved_down (- (360)) (mkpoly (p_ext p) [])) in C. exact C.
  - revert H. unfold wrap_region. destruct (bounds_x _) as [b|] eqn:Eb; [|discriminate]. cbn [bind].
    destruct (bounds_spec _ _ Eb) as ((p1 & q1 & [<-|[]] & J1 & E1) & (p2 & q2 & [<-|[]] & J2 & E2) & B). pose proof (A _ J1). pose proof (A _ J2).
    rewrite E1 in *. rewrite E2 in *. destruct (qlt_spec 180 (fst b)) as [H1|H1]; [|contradiction]. destruct (qlt_spec 180 (snd b)) as [H2|H2]; [|contradiction]. cbn [andb]. intros H'. injection H' as <-.
    exists (moved (- (360)) p). split; [left; reflexivity|]. apply inside_same with (x + 360 + - (360)); [ring|].
    apply (inside_moved_down (- (360)) (mkpoly (p_ext p) [])) in C. exact C.
  - destruct (lib_hull _ _ L _ _ _ C) as (a & b & Ia & _ & _). cbn in Ia. pose proof (A a Ia). pose proof (A' p a (or_introl eq_refl) Ia). lra.
Qed.
End L.

Lemma areas_dot l : In Dot l -> exists e, areas l = Err e /\ e = TypeError.
Proof.
  unfold areas. induction l as [|a l IH]; intros I; [destruct I|]. destruct a; cbn; eauto. destruct I as [E|I]; [discriminate|].
  destruct (IH I) as (e & -> & ->). cbn. eauto.
Qed.
Lemma merged_dot l : In Dot l -> merged l = Err TypeError.
Proof.
  intros I. unfold merged. destruct (areas_dot _ I) as (e & -> & _).
  destruct (areas_dot (filter (fun p => negb (is_line p)) l)) as (e' & -> & ->); [apply filter_In; auto|reflexivity].
Qed.
Lemma moved_other d l : In Line l \/ In Dot l -> exists e, moved_pieces d l = Err e.
Proof.
  intros I. destruct (moved_pieces d l) as [r|e] eqn:E; [|eauto]. exfalso. revert E. unfold moved_pieces.
  assert (M : forall r, map_res (moved_piece d) l <> Ok r).
  { revert I. induction l as [|a l IH]; intros I r1; [destruct I as [[]|[]]|]. cbn. destruct a; cbn; try discriminate.
    destruct (map_res _ l) eqn:E; [|discriminate]. exfalso. apply (IH ltac:(destruct I as [[I|I]|[I|I]]; try discriminate; auto) _ eq_refl). }
  destruct l as [|[p| |] [|]]; try discriminate; apply M.
Qed.
Lemma merged_ok l : ~ In Dot l -> exists r, merged l = Ok r.
Proof.
  intros N. unfold merged. destruct (areas l) eqn:E; [eauto|]. clear E. unfold areas. induction l as [|a l IH]; [cbn; eauto|].
  assert (N' : ~ In Dot l) by (intros I; apply N; right; exact I). destruct (IH N') as [r Er]. cbn. destruct a; cbn.
  - rewrite Er. cbn. eauto.
  - eauto.
  - exfalso. apply N. left. reflexivity.
Qed.
Lemma moved_ok d l : ~ In Line l -> ~ In Dot l -> exists r, moved_pieces d l = Ok r.
Proof.
  intros N1 N2. assert (M : exists r, map_res (moved_piece d) l = Ok r).
  { induction l as [|a l IH]; [cbn; eauto|]. destruct IH as [r Er]; [intros I; apply N1; right; exact I|intros I; apply N2; right; exact I|].
    cbn. destruct a; [|exfalso; apply N1; left; reflexivity|exfalso; apply N2; left; reflexivity]. cbn. rewrite Er. cbn. eauto. }
  unfold moved_pieces. destruct l as [|[p| |] [|]]; auto; exfalso; [apply N1|apply N2]; left; reflexivity.
Qed.

(** Wrapping a geometry that crosses the 180th meridian works exactly if the part to the
    left of it has no isolated points and the part to the right consists of polygons. *)
Theorem wrap_succeeds clip g : Crosses g ->
  ((exists g', wrap_region clip g = Ok g') <->
   ~ In Dot (clip (exploded g) (- (180)) 180) /\ ~ In Line (clip (exploded g) 180 360) /\ ~ In Dot (clip (exploded g) 180 360)).
Proof.
  intros [(p1 & q1 & I1 & J1 & E1) (p2 & q2 & I2 & J2 & E2)]. unfold wrap_region.
  assert (N : xs_of (exploded g) <> []).
  { intros E. assert (I : In (fst q1) (xs_of (exploded g))) by (apply xs_in; eauto 6). rewrite E in I. destruct I. }
  assert (Eb : exists b, bounds_x (exploded g) = Ok b).
  { unfold bounds_x. destruct (np_min_ok _ N) as [a ->]. destruct (np_max_ok _ N) as [b ->]. cbn. eauto. }
  destruct Eb as [b Eb]. rewrite Eb. cbn [bind]. destruct (bounds_spec _ _ Eb) as (_ & _ & B).
  pose proof (B _ _ I1 J1). pose proof (B _ _ I2 J2). destruct (qlt_spec 180 (fst b)); [lra|]. destruct (qlt_spec 180 (snd b)); [|lra].
  destruct (qle_spec (fst b) 180); [|lra]. cbn [andb]. split.
  - intros (g' & H'). destruct (moved_pieces _ _) as [r|] eqn:Em; [|discriminate]. cbn [bind] in H'. destruct (merged _) as [u|] eqn:Eu; [|discriminate].
    split; [|split].
    + intros I. rewrite merged_dot in Eu; [discriminate|]. apply in_app_iff. auto.
    + intros I. destruct (moved_other (- (360)) (clip (exploded g) 180 360)) as [e E]; [auto|]. congruence.
    + intros I. destruct (moved_other (- (360)) (clip (exploded g) 180 360)) as [e E]; [auto|]. congruence.
  - intros (D1 & D2 & D3). destruct (moved_ok (- (360)) _ D2 D3) as [r ->]. cbn [bind].
    destruct (merged_ok (clip (exploded g) (- (180)) 180 ++ map Area r)) as [u ->].
    + intros I. apply in_app_iff in I. destruct I as [I|I]; [auto|]. apply in_map_iff in I. destruct I as (? & ? & _). discriminate.
    + cbn [bind]. eauto.
Qed.
(** The same for unwrapping a polygon with a corner west of the zero meridian. *)
Theorem unwrap_succeeds clip p : (exists q, In q (p_ext p) /\ fst q < 0) ->
  ((exists r, unwrap_one clip p = Ok r) <-> ~ In Line (clip [p] (- (180)) 0) /\ ~ In Dot (clip [p] (- (180)) 0) /\ ~ In Dot (clip [p] 0 180)).
Proof.
  intros (q & Iq & Hq). unfold unwrap_one. assert (E : should_unwrap [p] = true) by (apply should_iff; exists p, q; cbn; auto). rewrite E. split.
  - intros (r & H). destruct (moved_pieces _ _) as [m|] eqn:Em; [|discriminate]. cbn [bind] in H. split; [|split].
    + intros I. destruct (moved_other 360 (clip [p] (- (180)) 0)) as [e E']; [auto|]. congruence.
    + intros I. destruct (moved_other 360 (clip [p] (- (180)) 0)) as [e E']; [auto|]. congruence.
    + intros I. rewrite merged_dot in H; [discriminate|]. apply in_app_iff. auto.
  - intros (D1 & D2 & D3). destruct (moved_ok 360 _ D1 D2) as [m ->]. cbn [bind]. apply merged_ok. intros I. apply in_app_iff in I. destruct I as [I|I]; [|auto].
    apply in_map_iff in I. destruct I as (? & ? & _). discriminate.
Qed.
