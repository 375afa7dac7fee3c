From Verif Require Import Py Lib Spec CoordModel CoordSpec CoordProofs WrapModel WrapSpec WrapProofs.
From Coq Require Import Lqa.
Local Open Scope Q_scope.

Lemma state_cases l : (wrapped_state_from_array l = UNWRAPPED /\ exists x, In x l /\ 180 < x) \/
  ((forall x, In x l -> x <= 180) /\
   ((wrapped_state_from_array l = WRAPPED /\ exists x, In x l /\ x < 0) \/ (wrapped_state_from_array l = UNKNOWN /\ forall x, In x l -> 0 <= x))).
Proof.
  unfold wrapped_state_from_array. destruct (existsb (fun x => qlt MERIDIAN_180TH x) l) eqn:E1.
  - left. split; [reflexivity|]. apply existsb_exists in E1. destruct E1 as (x & I & H). apply qlt_iff in H. eauto.
  - right. split.
    + intros x I. apply Qnot_lt_le. intros H. apply qlt_iff in H. assert (existsb (fun x => qlt MERIDIAN_180TH x) l = true) by (apply existsb_exists; eauto). congruence.
    + destruct (existsb (fun x => qlt x 0) l) eqn:E2; [left|right]; split; try reflexivity.
      * apply existsb_exists in E2. destruct E2 as (x & I & H). apply qlt_iff in H. eauto.
      * intros x I. apply Qnot_lt_le. intros H. apply qlt_iff in H. assert (existsb (fun x => qlt x 0) l = true) by (apply existsb_exists; eauto). congruence.
Qed.

Section M.
Variable inside : poly -> Q -> Q -> Prop.
Variable clip : list poly -> Q -> Q -> list piece.
Hypothesis L : Library inside clip.
Notation Covers := (Covers inside).
Variables x0 y0 x1 y1 : Q.
Hypothesis Hx : x0 < x1.
Hypothesis Hy : y0 <= y1.
Notation B := (Single (box x0 y0 x1 y1)).

Lemma box_corners q : In q (p_ext (box x0 y0 x1 y1)) -> (fst q = x0 \/ fst q = x1) /\ (snd q = y0 \/ snd q = y1).
Proof. cbn. intuition (subst; cbn; auto). Qed.
Lemma box_within lo hi : lo <= x0 -> x1 <= hi -> CornersWithin lo hi B.
Proof. intros H1 H2 p q [<-|[]] Iq. apply box_corners in Iq. destruct Iq as [[->| ->] _]; lra. Qed.
Lemma box_holes : NoHoles B.
Proof. intros p [<-|[]]. reflexivity. Qed.
Lemma box_covers x y : Covers B x y <-> x0 <= x <= x1 /\ y0 <= y <= y1.
Proof.
  unfold WrapSpec.Covers. cbn [exploded]. split.
  - intros (p & [<-|[]] & H). apply (lib_box _ _ L) in H; [|lra|lra]. exact H.
  - intros H. exists (box x0 y0 x1 y1). split; [left; reflexivity|]. apply (lib_box _ _ L); [lra|lra|]. exact H.
Qed.

(** A box with points strictly between the meridians has one part there, a polygon. *)
Lemma box_part lo hi : (exists x, lo < x < hi /\ x0 <= x <= x1) -> exists q, clip [box x0 y0 x1 y1] lo hi = [Area q].
Proof.
  intros (x & H1 & H2). destruct (proj2 (lib_clip _ _ L [box x0 y0 x1 y1] lo hi x y0 H1)) as (q & Iq & _).
  - exists (box x0 y0 x1 y1). split; [left; reflexivity|]. apply (lib_box _ _ L); [lra|lra|]. split; [exact H2|]. split; [apply Qle_refl|exact Hy].
  - destruct (lib_clip_box _ _ L x0 y0 x1 y1 lo hi) as [(q' & E)|[E|E]]; [eauto| |]; rewrite E in Iq; cbn in Iq; intuition discriminate.
Qed.
Lemma box_no_dot lo hi : ~ In Dot (clip [box x0 y0 x1 y1] lo hi).
Proof. intros I. destruct (lib_clip_box _ _ L x0 y0 x1 y1 lo hi) as [(q' & E)|[E|E]]; rewrite E in I; cbn in I; intuition discriminate. Qed.

Lemma box_xs : xs_of (exploded B) = [x1; x1; x0; x0; x1].
Proof. reflexivity. Qed.
Lemma box_state : (180 < x1 /\ state_of_region B = UNWRAPPED) \/ (x1 <= 180 /\ x0 < 0 /\ state_of_region B = WRAPPED) \/ (x1 <= 180 /\ 0 <= x0 /\ state_of_region B = UNKNOWN).
Proof.
  unfold state_of_region. rewrite box_xs. destruct (state_cases [x1; x1; x0; x0; x1]) as [[-> (x & I & H)]|[A [[-> (x & I & H)]|[-> A']]]].
  - left. split; [|reflexivity]. cbn in I. intuition (subst; lra).
  - right. left. split; [apply A; cbn; auto|]. split; [|reflexivity]. cbn in I. intuition (subst; lra).
  - right. right. split; [apply A; cbn; auto|]. split; [apply A'; cbn; auto|reflexivity].
Qed.

(** Crossing and being cut. *)
Lemma box_wraps : - (180) <= x0 -> x1 <= 360 -> exists g, wrap_region clip B = Ok g /\ CornersWithin (- (180)) 180 g /\
  forall x y, - (180) < x < 180 -> ~ x == 0 -> (Covers g x y <-> y0 <= y <= y1 /\ (x0 <= x <= x1 \/ x0 <= x + 360 <= x1)).
Proof.
  intros H1 H2. assert (W : CornersWithin (- (180)) 360 B) by (apply box_within; assumption).
  assert (E : exists g, wrap_region clip B = Ok g).
  { destruct (Qlt_le_dec 180 x1) as [D|D]; [destruct (Qlt_le_dec 180 x0) as [D'|D']|].
    - unfold wrap_region. assert (Eb : exists b, bounds_x (exploded B) = Ok b).
      { unfold bounds_x. rewrite box_xs. destruct (np_min_ok [x1; x1; x0; x0; x1]) as [a ->]; [discriminate|]. destruct (np_max_ok [x1; x1; x0; x0; x1]) as [b ->]; [discriminate|]. cbn. eauto. }
      destruct Eb as [b Eb]. rewrite Eb. cbn [bind]. destruct (bounds_spec _ _ Eb) as ((p & q & [<-|[]] & J1 & E1) & (p' & q' & [<-|[]] & J2 & E2) & _).
      apply box_corners in J1. apply box_corners in J2. destruct (qlt_spec 180 (fst b)) as [F|F].
      + destruct (qlt_spec 180 (snd b)) as [G|G]; cbn; [eauto|]. exfalso. apply G. rewrite <- E2. destruct J2 as [[->| ->] _]; lra.
      + exfalso. apply F. rewrite <- E1. destruct J1 as [[->| ->] _]; lra.
    - apply wrap_succeeds.
      + split; exists (box x0 y0 x1 y1); [exists (x0, y0)|exists (x1, y0)]; cbn; auto 10.
      + cbn [exploded]. split; [apply box_no_dot|].
        destruct (box_part 180 360) as [q Eq].
        * destruct (Qlt_le_dec x1 360) as [F|F]; [exists x1|exists ((180 + x1) * (1 # 2))]; lra.
        * rewrite Eq. cbn. intuition discriminate.
    - unfold wrap_region. assert (Eb : exists b, bounds_x (exploded B) = Ok b).
      { unfold bounds_x. rewrite box_xs. destruct (np_min_ok [x1; x1; x0; x0; x1]) as [a ->]; [discriminate|]. destruct (np_max_ok [x1; x1; x0; x0; x1]) as [b ->]; [discriminate|]. cbn. eauto. }
      destruct Eb as [b Eb]. rewrite Eb. cbn [bind]. destruct (bounds_spec _ _ Eb) as (_ & (p' & q' & [<-|[]] & J2 & E2) & _). apply box_corners in J2.
      destruct (qlt_spec 180 (snd b)) as [G|G]; [exfalso; rewrite <- E2 in G; destruct J2 as [[J| J] _]; rewrite J in G; lra|]. rewrite !andb_false_r. eauto. }
  destruct E as [g E]. exists g. split; [exact E|]. split; [apply (wrap_within _ _ L _ _ W E)|].
  intros x y R R0. assert (I : Covers g x y <-> Covers B x y \/ Covers B (x + 360) y).
  { split; [apply (wrap_adds _ _ L _ _ W box_holes E x y R R0)|apply (wrap_keeps _ _ L _ _ W E x y R R0)]. }
  rewrite I, !box_covers. tauto.
Qed.

Lemma box_unwraps : - (180) <= x0 -> x1 <= 180 -> x0 < 0 -> exists g, unwrap_region clip B = Ok g /\ CornersWithin 0 360 g /\
  forall x y, 0 < x < 360 -> ~ x == 180 -> (Covers g x y <-> y0 <= y <= y1 /\ (x0 <= x <= x1 \/ x0 <= x - 360 <= x1)).
Proof.
  intros H1 H2 H3. assert (W : CornersWithin (- (180)) 180 B) by (apply box_within; assumption).
  assert (X : exists q, In q (p_ext (box x0 y0 x1 y1)) /\ fst q < 0) by (exists (x0, y0); cbn; auto 10).
  destruct (box_part (- (180)) 0) as [q Eq].
  { destruct (Qlt_le_dec x1 0) as [D|D]; [exists x1|exists (x0 * (1 # 2))]; lra. }
  assert (E1 : exists r, unwrap_one clip (box x0 y0 x1 y1) = Ok r).
  { apply unwrap_succeeds; [exact X|]. rewrite Eq. split; [cbn; intuition discriminate|]. split; [cbn; intuition discriminate|]. apply box_no_dot. }
  assert (E : exists g, unwrap_region clip B = Ok g).
  { destruct E1 as [r E1]. unfold unwrap_region. assert (S : should_unwrap (exploded B) = true) by (apply should_iff; destruct X as (c & Ic & Hc); exists (box x0 y0 x1 y1), c; cbn; auto).
    rewrite S. cbn [exploded map_res]. rewrite E1. cbn [bind concat]. rewrite app_nil_r. destruct r as [|a [|b r]]; eauto.
    exfalso. destruct (one_cases _ _ _ E1) as [(_ & m & Em & I)|[A _]].
    - apply (I (moved 360 q)). left. apply (moved_in _ _ _ Em). exists q. rewrite Eq. cbn. auto.
    - destruct X as (c & Ic & Hc). specialize (A c Ic). lra. }
  destruct E as [g E]. exists g. split; [exact E|]. split; [apply (unwrap_within _ _ L _ _ W E)|].
  intros x y R R0. assert (I : Covers g x y <-> Covers B x y \/ Covers B (x - 360) y).
  { split; [apply (unwrap_adds _ _ L _ _ box_holes E x y R R0)|apply (unwrap_keeps _ _ L _ _ W E x y R R0)]. }
  rewrite I, !box_covers. tauto.
Qed.

(** Preparing does nothing to geometries that are not west of the zero meridian. *)
Lemma prepare_east tol v : (forall p q, In p (exploded (gv_geom v)) -> In q (p_ext p) -> 0 <= fst q) -> (gv_state v = None \/ xs_of (exploded (gv_geom v)) <> []) -> prepare_bbox tol v = Ok v.
Proof.
  intros A N. unfold prepare_bbox. destruct (gv_bbox v) eqn:Eb; [|reflexivity]. cbn [andb]. destruct (is_unwrapped (state_of v)) eqn:Eu; [|reflexivity].
  assert (N' : xs_of (exploded (gv_geom v)) <> []).
  { destruct N as [N|N]; [|exact N]. unfold state_of in Eu. rewrite N in Eu. unfold state_of_region in Eu. intros E. rewrite E in Eu. discriminate. }
  unfold bounds_x. destruct (np_min_ok _ N') as [a Ea]. destruct (np_max_ok _ N') as [b Ebb]. rewrite Ea, Ebb. cbn [bind].
  assert (N2 : map snd (flat_map p_ext (exploded (gv_geom v))) <> []).
  { intros E. apply N'. unfold xs_of. destruct (flat_map p_ext (exploded (gv_geom v))); [reflexivity|discriminate]. }
  destruct (np_min_ok _ N2) as [c ->]. destruct (np_max_ok _ N2) as [d ->]. cbn [bind fst].
  apply np_min_spec in Ea. destruct Ea as [Ia _]. apply xs_in in Ia. destruct Ia as (p & q & Ip & Iq & <-).
  destruct (qlt_spec (fst q) 0) as [F|F]; [|reflexivity]. specialize (A p q Ip Iq). lra.
Qed.
Lemma prepare_wrapped_only tol v : is_unwrapped (state_of v) = false -> prepare_bbox tol v = Ok v.
Proof. intros E. unfold prepare_bbox. rewrite E, andb_false_r. reflexivity. Qed.

(** A box that reaches west gets a second one at the other end. *)
Lemma prepare_west tol s : x0 < 0 -> 0 <= x1 -> 0 <= tol -> state_of (mkgvar B s true) = UNWRAPPED -> exists v, prepare_bbox tol (mkgvar B s true) = Ok v /\
  forall x y, 0 < x < 360 -> (Covers (gv_geom v) x y <-> y0 <= y <= y1 /\ (x0 <= x <= x1 \/ x0 <= x - 360 <= x1)).
Proof.
  intros H0 H1 Ht Es. unfold prepare_bbox. rewrite Es. cbn [gv_bbox is_unwrapped andb gv_geom].
  destruct (np_min_ok (xs_of (exploded B))) as [a Ea]; [discriminate|]. destruct (np_max_ok (xs_of (exploded B))) as [b Ebb]; [discriminate|].
  destruct (np_min_ok (map snd (flat_map p_ext (exploded B)))) as [c Ec]; [discriminate|]. destruct (np_max_ok (map snd (flat_map p_ext (exploded B)))) as [d Ed]; [discriminate|].
  unfold bounds_x. rewrite Ea, Ebb. cbn [bind]. rewrite Ec, Ed. cbn [bind fst snd].
  apply np_min_spec in Ea. apply np_max_spec in Ebb. apply np_min_spec in Ec. apply np_max_spec in Ed. rewrite box_xs in Ea, Ebb.
  change (map snd (flat_map p_ext (exploded B))) with [y0; y1; y1; y0; y0] in Ec, Ed.
  assert (A : a == x0). { destruct Ea as [I M]. pose proof (M x0 ltac:(cbn; auto)). cbn in I. intuition (subst; lra). }
  assert (A' : b == x1). { destruct Ebb as [I M]. pose proof (M x1 ltac:(cbn; auto)). cbn in I. intuition (subst; lra). }
  assert (C : c == y0). { destruct Ec as [I M]. pose proof (M y0 ltac:(cbn; auto)). cbn in I. intuition (subst; lra). }
  assert (C' : d == y1). { destruct Ed as [I M]. pose proof (M y1 ltac:(cbn; auto)). cbn in I. intuition (subst; lra). }
  destruct (qlt_spec a 0) as [F|F]; [|exfalso; apply F; lra].
  eexists. split; [reflexivity|]. intros x y R. cbn [gv_geom]. unfold WrapSpec.Covers. cbn [exploded]. split.
  - intros (p & [<-|[<-|[]]] & H); (apply (lib_box _ _ L) in H; [|lra|lra]); (split; [lra|]); [left|right]; lra.
  - intros (Ry & [G|G]).
    + exists (box a c b d). split; [left; reflexivity|]. apply (lib_box _ _ L); [lra|lra|]. lra.
    + exists (box (a + 360) c (360 + tol) d). split; [right; left; reflexivity|]. apply (lib_box _ _ L); [lra|lra|]. lra.
Qed.

Theorem prepare_unwrapped tol : 0 <= tol -> - (180) <= x0 -> x1 <= 360 -> exists v, prepare clip tol UNWRAPPED (mkgvar B None true) = Ok v /\
  forall x y, 0 < x < 360 -> ~ x == 180 -> (Covers (gv_geom v) x y <-> y0 <= y <= y1 /\ (x0 <= x <= x1 \/ x0 <= x - 360 <= x1)).
Proof.
  intros Ht H1 H2. unfold prepare. unfold state_of at 1. cbn [gv_state gv_geom].
  destruct box_state as [[D E]|[(D & D' & E)|(D & D' & E)]].
  - rewrite E. cbn [bind]. destruct (Qlt_le_dec x0 0) as [F|F].
    + destruct (prepare_west tol None F ltac:(lra) Ht) as (v & Ev & C); [exact E|]. exists v. split; [exact Ev|]. intros x y R _. apply C. exact R.
    + rewrite prepare_east; [|intros p q [<-|[]] Iq; apply box_corners in Iq; destruct Iq as [[->| ->] _]; lra|auto].
      eexists. split; [reflexivity|]. intros x y R R0. cbn [gv_geom]. rewrite box_covers. split; [tauto|]. intros (Ry & [G|G]); [tauto|lra].
  - rewrite E. unfold wrap_variable. unfold state_of at 1. cbn [gv_state gv_geom]. rewrite E. cbn [state_is_action negb].
    destruct (box_unwraps H1 D D') as (g & Eg & Wg & C). rewrite Eg. cbn [bind]. rewrite prepare_east; [|intros p q Ip Iq; apply (Wg p q Ip Iq)|auto].
    eexists. split; [reflexivity|]. exact C.
  - rewrite E. cbn [bind]. rewrite prepare_east; [|intros p q [<-|[]] Iq; apply box_corners in Iq; destruct Iq as [[->| ->] _]; lra|auto].
    eexists. split; [reflexivity|]. intros x y R R0. cbn [gv_geom]. rewrite box_covers. split; [tauto|]. intros (Ry & [G|G]); [tauto|lra].
Qed.

Theorem prepare_wrapped tol s : s = None \/ s = Some UNWRAPPED -> - (180) <= x0 -> x1 <= 360 -> exists v, prepare clip tol WRAPPED (mkgvar B s true) = Ok v /\
  forall x y, - (180) < x < 180 -> ~ x == 0 -> (Covers (gv_geom v) x y <-> y0 <= y <= y1 /\ (x0 <= x <= x1 \/ x0 <= x + 360 <= x1)).
Proof.
  intros Hs H1 H2. unfold prepare. destruct (state_of (mkgvar B s true)) eqn:E.
  - cbn [bind]. rewrite prepare_wrapped_only by (rewrite E; reflexivity). eexists. split; [reflexivity|]. intros x y R R0. cbn [gv_geom].
    assert (D : x1 <= 180). { destruct Hs as [-> | ->]; [|discriminate]. unfold state_of in E. cbn in E. destruct box_state as [[D F]|[(D & _)|(D & _)]]; [congruence|exact D|exact D]. }
    rewrite box_covers. split; [tauto|]. intros (Ry & [G|G]); [tauto|lra].
  - unfold wrap_variable. rewrite E. cbn [state_is_action negb gv_geom]. destruct (box_wraps H1 H2) as (g & Eg & Wg & C). rewrite Eg. cbn [bind].
    rewrite prepare_wrapped_only.
    + eexists. split; [reflexivity|]. exact C.
    + unfold state_of, state_of_region. cbn [gv_state gv_geom]. destruct (state_cases (xs_of (exploded g))) as [[_ (x & I & H)]|[_ [[-> _]|[-> _]]]]; [|reflexivity|reflexivity].
      apply xs_in in I. destruct I as (p & q & Ip & Iq & <-). specialize (Wg p q Ip Iq). lra.
  - cbn [bind]. rewrite prepare_wrapped_only by (rewrite E; reflexivity). eexists. split; [reflexivity|]. intros x y R R0. cbn [gv_geom].
    assert (D : x1 <= 180). { destruct Hs as [-> | ->]; [|discriminate]. unfold state_of in E. cbn in E. destruct box_state as [[D F]|[(D & _)|(D & _)]]; [congruence|exact D|exact D]. }
    rewrite box_covers. split; [tauto|]. intros (Ry & [G|G]); [tauto|lra].
Qed.

(** Boxes from an unwrapped grid, for an unwrapped grid: the chunks of a destination grid
    with a margin. *)
Theorem prepare_margin tol : 0 <= tol -> 0 <= x1 -> x1 <= 360 -> exists v, prepare clip tol UNWRAPPED (mkgvar B (Some UNWRAPPED) true) = Ok v /\
  forall x y, 0 < x < 360 -> (Covers (gv_geom v) x y <-> y0 <= y <= y1 /\ (x0 <= x <= x1 \/ x0 <= x - 360 <= x1)).
Proof.
  intros Ht H1 H2. unfold prepare. cbn [state_of gv_state bind]. destruct (Qlt_le_dec x0 0) as [F|F].
  - apply prepare_west; auto.
  - rewrite prepare_east; [|intros p q [<-|[]] Iq; apply box_corners in Iq; destruct Iq as [[->| ->] _]; lra|right; discriminate].
    eexists. split; [reflexivity|]. intros x y R. cbn [gv_geom]. rewrite box_covers. split; [tauto|]. intros (Ry & [G|G]); [tauto|lra].
Qed.

(** Margins beyond the other ends are not brought round. *)
Theorem prepare_beyond_east tol s : 0 <= x0 -> 180 < x1 -> s = None \/ s = Some UNWRAPPED -> prepare clip tol UNWRAPPED (mkgvar B s true) = Ok (mkgvar B s true).
Proof.
  intros H0 H1 Hs. unfold prepare. assert (E : state_of (mkgvar B s true) = UNWRAPPED).
  { destruct Hs as [-> | ->]; [|reflexivity]. unfold state_of. cbn. destruct box_state as [[D F]|[(D & _)|(D & _)]]; [exact F|lra|lra]. }
  rewrite E. cbn [bind]. apply prepare_east; [intros p q [<-|[]] Iq; apply box_corners in Iq; destruct Iq as [[->| ->] _]; lra|right; discriminate].
Qed.
Theorem prepare_beyond_west tol : prepare clip tol WRAPPED (mkgvar B (Some WRAPPED) true) = Ok (mkgvar B (Some WRAPPED) true).
Proof. reflexivity. Qed.
Theorem prepare_lost tol s v : x0 < - (180) -> x1 < 0 -> s = None \/ s = Some WRAPPED -> prepare clip tol UNWRAPPED (mkgvar B s true) = Ok v ->
  forall x y, 0 < x < 180 -> ~ Covers (gv_geom v) x y.
Proof.
  intros H0 H1 Hs H. assert (E : state_of (mkgvar B s true) = WRAPPED).
  { destruct Hs as [-> | ->]; [|reflexivity]. unfold state_of. cbn. destruct box_state as [[D F]|[(D & _ & F)|(D & F & _)]]; [lra|exact F|lra]. }
  unfold prepare in H. rewrite E in H. unfold wrap_variable in H. rewrite E in H. cbn [state_is_action negb gv_geom] in H.
  destruct (unwrap_region clip B) as [g|] eqn:Eg; [|discriminate]. cbn [bind] in H.
  assert (W : forall a q, In a (exploded g) -> In q (p_ext a) -> 0 <= fst q <= 360).
  { intros a q Ia Iq. apply (unwrap_each _ _ _ Eg) in Ia. destruct Ia as (p & r & [<-|[]] & Er & Ia).
    destruct (one_cases _ _ _ Er) as [(X & m & Em & I)|[A ->]].
    - apply I in Ia. destruct Ia as [Ia|Ia]; [|pose proof (lib_clip_corners _ _ L _ _ _ _ _ Ia Iq); lra].
      apply (moved_in _ _ _ Em) in Ia. destruct Ia as (b & Ib & ->). cbn in Iq. apply in_map_iff in Iq. destruct Iq as (q0 & <- & Iq).
      pose proof (lib_clip_corners _ _ L _ _ _ _ _ Ib Iq). cbn. lra.
    - specialize (A (x0, y0) ltac:(cbn; auto 10)). cbn in A. lra. }
  rewrite prepare_east in H; [|intros a q Ia Iq; apply (W a q Ia Iq)|auto]. injection H as <-. cbn [gv_geom].
  intros x y R (a & Ia & Ha). apply (unwrap_each _ _ _ Eg) in Ia. destruct Ia as (p & r & [<-|[]] & Er & Ia).
  destruct (one_cases _ _ _ Er) as [(X & m & Em & I)|[A _]].
  - apply I in Ia. destruct Ia as [Ia|Ia].
    + apply (moved_in _ _ _ Em) in Ia. destruct Ia as (b & Ib & ->). destruct (lib_hull _ _ L _ _ _ Ha) as (c & d & Ic & _ & G).
      cbn in Ic. apply in_map_iff in Ic. destruct Ic as (q0 & <- & Iq). pose proof (lib_clip_corners _ _ L _ _ _ _ _ Ib Iq). cbn in G. lra.
    + destruct (proj1 (lib_clip _ _ L [box x0 y0 x1 y1] 0 180 x y R)) as (p & [<-|[]] & Hp); [eauto|]. apply (lib_box _ _ L) in Hp; [|lra|lra]. lra.
  - specialize (A (x0, y0) ltac:(cbn; auto 10)). cbn in A. lra.
Qed.
End M.

(** ** The wrapped state on several processes *)
Lemma state_unwrapped l : wrapped_state_from_array l = UNWRAPPED <-> exists x, In x l /\ 180 < x.
Proof.
  destruct (state_cases l) as [[-> H]|[A [[-> _]|[-> _]]]]; [tauto| |]; (split; [discriminate|]); intros (x & I & H); specialize (A x I); lra.
Qed.
Lemma state_wrapped l : wrapped_state_from_array l = WRAPPED <-> (exists x, In x l /\ x < 0) /\ forall x, In x l -> x <= 180.
Proof.
  destruct (state_cases l) as [[-> (x & I & H)]|[A [[-> H]|[-> H]]]].
  - split; [discriminate|]. intros [_ A]. specialize (A x I). lra.
  - tauto.
  - split; [discriminate|]. intros [(x & I & G) _]. specialize (H x I). lra.
Qed.
Lemma first_in l : forall s, first_state l = s -> s <> UNKNOWN -> exists xs, In (Some xs) l /\ wrapped_state_from_array xs = s.
Proof.
  induction l as [|[xs|] l IH]; cbn; intros s H N; [congruence| |].
  - destruct (wrapped_state_from_array xs) eqn:E; [exists xs; split; [auto|congruence]|exists xs; split; [auto|congruence]|].
    destruct (IH _ H N) as (ys & I & F). eauto.
  - destruct (IH _ H N) as (ys & I & F). eauto.
Qed.
Lemma first_unknown l : first_state l = UNKNOWN -> forall xs, In (Some xs) l -> wrapped_state_from_array xs = UNKNOWN.
Proof.
  induction l as [|[ys|] l IH]; cbn; intros H xs I; [destruct I| |].
  - destruct (wrapped_state_from_array ys) eqn:E; try discriminate. destruct I as [I|I]; [congruence|auto].
  - destruct I as [I|I]; [discriminate|auto].
Qed.
Lemma in_target_geom l x : In x (xs_of_target (GeomTarget l)) <-> exists xs, In (Some xs) l /\ In x xs.
Proof.
  cbn. rewrite in_flat_map. split.
  - intros ([xs|] & I & J); [eauto|destruct J].
  - intros (xs & I & J). exists (Some xs). auto.
Qed.
(** The state of one process. *)
Lemma local_spec t s : local_state t = Some s ->
  match s with
  | UNWRAPPED => exists x, In x (xs_of_target t) /\ 180 < x
  | WRAPPED => exists x, In x (xs_of_target t) /\ x < 0
  | UNKNOWN => forall x, In x (xs_of_target t) -> 0 <= x <= 180
  end.
Proof.
  destruct t as [|xs|l]; cbn [local_state]; intros H; [discriminate| |]; injection H as H.
  - destruct (state_cases xs) as [[E X]|[A [[E X]|[E X]]]]; rewrite E in H; subst s; cbn; auto.
  - destruct s.
    + destruct (first_in _ _ H) as (xs & I & E); [discriminate|]. apply state_wrapped in E. destruct E as [(x & J & G) _]. exists x. split; [apply in_target_geom; eauto|exact G].
    + destruct (first_in _ _ H) as (xs & I & E); [discriminate|]. apply state_unwrapped in E. destruct E as (x & J & G). exists x. split; [apply in_target_geom; eauto|exact G].
    + intros x I. apply in_target_geom in I. destruct I as (xs & I & J). pose proof (first_unknown _ H _ I) as E.
      destruct (state_cases xs) as [[F _]|[A [[F _]|[_ X]]]]; [congruence|congruence|]. auto.
Qed.

Lemma found s ranks : existsb (fun r => match r with Some t => s t | None => false end) (map local_state ranks) = true <->
  exists t u, In t ranks /\ local_state t = Some u /\ s u = true.
Proof.
  rewrite existsb_exists. split.
  - intros (r & I & H). apply in_map_iff in I. destruct I as (t & E & I). destruct r as [u|]; [|discriminate]. eauto 6.
  - intros (t & u & I & E & H). exists (Some u). split; [apply in_map_iff; eauto|exact H].
Qed.

Theorem state_everywhere pick ranks : (forall l, l <> [] -> In (pick l) l) -> ranks <> [] -> ~ In EmptyTarget ranks ->
  ~ ((exists t x, In t ranks /\ In x (xs_of_target t) /\ x < 0) /\ (exists t x, In t ranks /\ In x (xs_of_target t) /\ 180 < x)) ->
  exists s, global_state pick ranks = Some s /\
    (s = UNWRAPPED <-> exists t x, In t ranks /\ In x (xs_of_target t) /\ 180 < x) /\
    (s = WRAPPED <-> exists t x, In t ranks /\ In x (xs_of_target t) /\ x < 0).
Proof.
  intros Hp Hn He Hm. unfold global_state. destruct (existsb _ (map local_state ranks)) eqn:E1.
  - apply found in E1. destruct E1 as (t & u & I & E & H). destruct u; try discriminate. apply local_spec in E. destruct E as (x & J & G).
    exists WRAPPED. split; [reflexivity|]. split; [|split; eauto 6]. split; [discriminate|]. intros X. exfalso. apply Hm. split; eauto 6.
  - destruct (existsb (fun r => match r with Some t => is_unwrapped t | None => false end) (map local_state ranks)) eqn:E2.
    + apply found in E2. destruct E2 as (t & u & I & E & H). destruct u; try discriminate. apply local_spec in E. destruct E as (x & J & G).
      exists UNWRAPPED. split; [reflexivity|]. split; [split; eauto 6|]. split; [discriminate|]. intros X. exfalso. apply Hm. split; eauto 6.
    + assert (A : forall t, In t ranks -> local_state t = Some UNKNOWN).
      { intros t I. destruct (local_state t) as [[]|] eqn:E; [| |reflexivity|].
        - assert (F : existsb (fun r => match r with Some t => is_wrapped t | None => false end) (map local_state ranks) = true) by (apply found; eauto 6). congruence.
        - assert (F : existsb (fun r => match r with Some t => is_unwrapped t | None => false end) (map local_state ranks) = true) by (apply found; eauto 6). congruence.
        - destruct t; [contradiction|discriminate|discriminate]. }
      assert (B : pick (map local_state ranks) = Some UNKNOWN).
      { pose proof (Hp (map local_state ranks)) as P. destruct ranks as [|t r]; [congruence|]. specialize (P ltac:(discriminate)).
        apply in_map_iff in P. destruct P as (t' & E & I). rewrite <- E. apply A. exact I. }
      exists UNKNOWN. split; [exact B|]. split; (split; [discriminate|]); intros (t & x & I & J & G); specialize (A t I); apply local_spec in A; specialize (A x J); lra.
Qed.
(** So it depends on the coordinates only. *)
Theorem state_distribution pick pick' ranks ranks' : (forall l, l <> [] -> In (pick l) l) -> (forall l, l <> [] -> In (pick' l) l) ->
  ranks <> [] -> ranks' <> [] -> ~ In EmptyTarget ranks -> ~ In EmptyTarget ranks' ->
  (forall x, (exists t, In t ranks /\ In x (xs_of_target t)) <-> (exists t, In t ranks' /\ In x (xs_of_target t))) ->
  ~ ((exists t x, In t ranks /\ In x (xs_of_target t) /\ x < 0) /\ (exists t x, In t ranks /\ In x (xs_of_target t) /\ 180 < x)) ->
  global_state pick ranks = global_state pick' ranks'.
Proof.
  intros Hp Hp' Hn Hn' He He' S Hm.
  assert (S' : forall P : Q -> Prop, (exists t x, In t ranks /\ In x (xs_of_target t) /\ P x) <-> (exists t x, In t ranks' /\ In x (xs_of_target t) /\ P x)).
  { intros P. split; intros (t & x & I & J & G); [destruct (proj1 (S x)) as (t' & I' & J')|destruct (proj2 (S x)) as (t' & I' & J')]; eauto 6. }
  destruct (state_everywhere pick ranks Hp Hn He Hm) as (s & E & U & W).
  destruct (state_everywhere pick' ranks' Hp' Hn' He') as (s' & E' & U' & W').
  { rewrite <- (S' (fun x => x < 0)), <- (S' (fun x => 180 < x)). exact Hm. }
  rewrite <- (S' (fun x => 180 < x)) in U'. rewrite <- (S' (fun x => x < 0)) in W'. rewrite E, E'. f_equal.
  destruct s, s'; try reflexivity; exfalso;
    first [ assert (WRAPPED = UNWRAPPED) by (apply U; apply U'; reflexivity); discriminate
          | assert (UNKNOWN = UNWRAPPED) by (apply U; apply U'; reflexivity); discriminate
          | assert (UNKNOWN = UNWRAPPED) by (apply U'; apply U; reflexivity); discriminate
          | assert (UNKNOWN = WRAPPED) by (apply W; apply W'; reflexivity); discriminate
          | assert (UNKNOWN = WRAPPED) by (apply W'; apply W; reflexivity); discriminate
          | assert (WRAPPED = UNWRAPPED) by (apply U'; apply U; reflexivity); discriminate ].
Qed.

(** Otherwise order and distribution matter. *)
Theorem state_mixed pick a b : wrapped_state_from_array a = UNWRAPPED -> wrapped_state_from_array b = WRAPPED ->
  global_state pick [GeomTarget [Some a; Some b]] = Some UNWRAPPED /\ global_state pick [GeomTarget [Some b; Some a]] = Some WRAPPED /\
  global_state pick [GeomTarget [Some a]; GeomTarget [Some b]] = Some WRAPPED /\
  global_state pick [GridTarget (a ++ b)] = Some UNWRAPPED /\ global_state pick [GridTarget a; GridTarget b] = Some WRAPPED.
Proof.
  intros Ha Hb. unfold global_state. cbn [map local_state first_state]. rewrite Ha, Hb. cbn. repeat split; try reflexivity.
  assert (E : wrapped_state_from_array (a ++ b) = UNWRAPPED).
  { apply state_unwrapped. apply state_unwrapped in Ha. destruct Ha as (x & I & H). exists x. split; [apply in_app_iff; auto|exact H]. }
  rewrite E. reflexivity.
Qed.
(** Processes without elements make it a matter of chance whether there is a state. *)
Theorem state_empty xs : (forall x, In x xs -> 0 <= x <= 180) -> exists pick pick', (forall l, l <> [] -> In (pick l) l) /\ (forall l, l <> [] -> In (pick' l) l) /\
  global_state pick [EmptyTarget; GridTarget xs] = None /\ global_state pick' [EmptyTarget; GridTarget xs] = Some UNKNOWN.
Proof.
  intros A. exists (fun l => hd None l), (fun l => last l None). split; [|split].
  - intros [|a l] N; [congruence|left; reflexivity].
  - intros l N. destruct (exists_last N) as (l' & a & ->). rewrite last_last. apply in_app_iff. right. left. reflexivity.
  - assert (E : wrapped_state_from_array xs = UNKNOWN).
    { destruct (state_cases xs) as [[_ (x & I & H)]|[_ [[_ (x & I & H)]|[E _]]]]; [|  |exact E]; specialize (A x I); lra. }
    unfold global_state. cbn [map local_state]. rewrite E. split; reflexivity.
Qed.

(** The action asked for does away with the difference. *)
Theorem action_matches xs dst : (forall x, In x xs -> - (180) <= x <= 360) ->
  let ys := match get_wrap_action (wrapped_state_from_array xs) dst with Some WRAP => wrap_array 180 xs | Some UNWRAP => unwrap_array 0 xs | None => xs end in
  (dst = WRAPPED -> wrapped_state_from_array ys <> UNWRAPPED) /\ (dst = UNWRAPPED -> wrapped_state_from_array ys <> WRAPPED).
Proof.
  intros A. split; intros ->; cbn; destruct (wrapped_state_from_array xs) eqn:E; try congruence.
  - intros H. apply state_unwrapped in H. destruct H as (y & I & H). apply in_map_iff in I. destruct I as (x & <- & I). specialize (A x I).
    destruct (qlt_spec 180 x); lra.
  - intros H. apply state_wrapped in H. destruct H as [(y & I & H) _]. apply in_map_iff in I. destruct I as (x & <- & I). specialize (A x I).
    destruct (qlt_spec x 0); lra.
Qed.
