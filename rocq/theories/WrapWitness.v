(** A library for polygons whose exterior and holes are rectangles: they are what lies
    between their outermost corners. *)
From Verif Require Import Py Lib Spec CoordModel CoordSpec CoordProofs WrapModel WrapSpec WrapProofs WrapMore.
From Coq Require Import Lqa.
Local Open Scope Q_scope.

Definition rect_inside (p : poly) (x y : Q) : Prop :=
  (exists a b, In a (p_ext p) /\ In b (p_ext p) /\ fst a <= x <= fst b) /\ (exists a b, In a (p_ext p) /\ In b (p_ext p) /\ snd a <= y <= snd b) /\
  forall h, In h (p_holes p) -> ~ ((exists a b, In a h /\ In b h /\ fst a < x < fst b) /\ exists a b, In a h /\ In b h /\ snd a < y < snd b).

Definition clamp (lo hi x : Q) : Q := qmin hi (qmax lo x).
Definition rect_part (lo hi : Q) (p : poly) : list piece :=
  if existsb (fun q => qle (fst q) hi) (p_ext p) && existsb (fun q => qle lo (fst q)) (p_ext p) && qle lo hi
  then [Area (mkpoly (map (fun q => (clamp lo hi (fst q), snd q)) (p_ext p)) (p_holes p))] else [].
Definition rect_clip (l : list poly) (lo hi : Q) : list piece := flat_map (rect_part lo hi) l.

Lemma clamp_spec lo hi x : lo <= hi -> lo <= clamp lo hi x <= hi /\ (lo <= x -> clamp lo hi x <= x) /\ (x <= hi -> x <= clamp lo hi x).
Proof.
  intros H. unfold clamp, qmin, qmax. destruct (qle_spec lo x) as [A|A].
  - destruct (qle_spec hi x) as [B|B]; lra.
  - destruct (qle_spec hi lo) as [B|B]; lra.
Qed.

Lemma part_in lo hi p q : In (Area q) (rect_part lo hi p) <->
  (exists a, In a (p_ext p) /\ fst a <= hi) /\ (exists a, In a (p_ext p) /\ lo <= fst a) /\ lo <= hi /\
  q = mkpoly (map (fun q => (clamp lo hi (fst q), snd q)) (p_ext p)) (p_holes p).
Proof.
  unfold rect_part. destruct (existsb _ _) eqn:E1; cbn [andb].
  - apply existsb_exists in E1. destruct E1 as (a & Ia & Ha). apply qle_iff in Ha. destruct (existsb _ _) eqn:E2; cbn [andb].
    + apply existsb_exists in E2. destruct E2 as (b & Ib & Hb). apply qle_iff in Hb. destruct (qle_spec lo hi) as [H|H].
      * cbn. split; [intros [E|[]]; injection E as <-; eauto 8|]. intros (_ & _ & _ & ->). auto.
      * cbn. split; [intros []|]. intros (_ & _ & G & _). contradiction.
    + cbn. split; [intros []|]. intros (_ & (b & Ib & Hb) & _). apply qle_iff in Hb.
      assert (F : existsb (fun q => qle lo (fst q)) (p_ext p) = true) by (apply existsb_exists; eauto). congruence.
  - cbn. split; [intros []|]. intros ((a & Ia & Ha) & _). apply qle_iff in Ha.
    assert (F : existsb (fun q => qle (fst q) hi) (p_ext p) = true) by (apply existsb_exists; eauto). congruence.
Qed.

Lemma in_mapped {A} (f : A -> A) l P : (exists a b, In a (map f l) /\ In b (map f l) /\ P a b) <-> exists a b, In a l /\ In b l /\ P (f a) (f b).
Proof.
  split.
  - intros (a & b & Ia & Ib & H). apply in_map_iff in Ia. apply in_map_iff in Ib. destruct Ia as (a' & <- & Ia), Ib as (b' & <- & Ib). eauto 6.
  - intros (a & b & Ia & Ib & H). exists (f a), (f b). auto using in_map.
Qed.

Theorem rect_library : Library rect_inside rect_clip.
Proof.
  constructor.
  - intros p x x' y E ((a & b & Ia & Ib & H) & Y & N). split; [exists a, b; repeat split; auto; lra|]. split; [exact Y|].
    intros h Ih ((c & d & Ic & Id & G) & Yh). apply (N h Ih). split; [exists c, d; repeat split; auto; lra|exact Yh].
  - intros p d x y. unfold rect_inside, translated. cbn [p_ext p_holes]. rewrite !in_mapped. cbn [fst snd]. split.
    + intros ((a & b & Ia & Ib & H) & Y & N). split; [exists a, b; repeat split; auto; lra|]. split; [exact Y|].
      intros h Ih ((c & e & Ic & Ie & G) & Yh). apply (N (map (fun q => (fst q + d, snd q)) h)); [apply in_map; exact Ih|]. rewrite !in_mapped. cbn [fst snd].
      split; [exists c, e; repeat split; auto; lra|exact Yh].
    + intros ((a & b & Ia & Ib & H) & Y & N). split; [exists a, b; repeat split; auto; lra|]. split; [exact Y|].
      intros h Ih. apply in_map_iff in Ih. destruct Ih as (h' & <- & Ih). rewrite !in_mapped. cbn [fst snd]. intros ((c & e & Ic & Ie & G) & Yh).
      apply (N h' Ih). split; [exists c, e; repeat split; auto; lra|exact Yh].
  - intros p x y (X & _ & _). exact X.
  - intros e h x y (X & Y & _). split; [exact X|]. split; [exact Y|]. intros k [].
  - intros l lo hi x y Hx. split.
    + intros (q & Iq & Hq). apply in_flat_map in Iq. destruct Iq as (p & Ip & Iq). apply part_in in Iq. destruct Iq as ((a & Ia & Ha) & (b & Ib & Hb) & Hl & ->).
      exists p. split; [exact Ip|]. destruct Hq as (X & Y & N). cbn [p_ext p_holes] in X, Y, N. rewrite in_mapped in X, Y. cbn [fst snd] in X, Y.
      split; [|split; [exact Y|exact N]]. destruct X as (c & d & Ic & Id & G).
      exists c, d. split; [exact Ic|]. split; [exact Id|]. destruct (clamp_spec lo hi (fst c) Hl) as (C1 & C2 & C3). destruct (clamp_spec lo hi (fst d) Hl) as (D1 & D2 & D3). split.
      * destruct (Qlt_le_dec hi (fst c)) as [F|F]; [|specialize (C3 F); lra]. specialize (C2 ltac:(lra)).
        exfalso. unfold clamp, qmin, qmax in *. destruct (qle_spec lo (fst c)); [|lra]. destruct (qle_spec hi (fst c)); lra.
      * destruct (Qlt_le_dec (fst d) lo) as [F|F]; [|specialize (D2 F); lra].
        exfalso. unfold clamp, qmin, qmax in *. destruct (qle_spec lo (fst d)); [lra|]. destruct (qle_spec hi lo); lra.
    + intros (p & Ip & ((a & b & Ia & Ib & H) & Y & N)). eexists. split.
      * apply in_flat_map. exists p. split; [exact Ip|]. apply part_in. split; [exists a; split; [exact Ia|lra]|]. split; [exists b; split; [exact Ib|lra]|]. split; [lra|reflexivity].
      * split; [|split; [|exact N]]; cbn [p_ext]; rewrite in_mapped; cbn [fst snd]; [|exact Y].
        exists a, b. split; [exact Ia|]. split; [exact Ib|]. destruct (clamp_spec lo hi (fst a) ltac:(lra)) as (C1 & C2 & C3). destruct (clamp_spec lo hi (fst b) ltac:(lra)) as (D1 & D2 & D3). split.
        -- destruct (Qlt_le_dec (fst a) lo) as [F|F]; [|specialize (C2 F); lra]. unfold clamp, qmin, qmax in *. destruct (qle_spec lo (fst a)); [lra|]. destruct (qle_spec hi lo); lra.
        -- destruct (Qlt_le_dec hi (fst b)) as [F|F]; [|specialize (D3 F); lra]. unfold clamp, qmin, qmax in *. destruct (qle_spec lo (fst b)); [|lra]. destruct (qle_spec hi (fst b)); lra.
  - intros l lo hi p q Ip Iq. apply in_flat_map in Ip. destruct Ip as (p' & _ & Ip). apply part_in in Ip. destruct Ip as (_ & _ & H & ->).
    cbn [p_ext] in Iq. apply in_map_iff in Iq. destruct Iq as (c & <- & _). cbn [fst]. apply clamp_spec. exact H.
  - intros l lo hi q N Iq. apply in_flat_map in Iq. destruct Iq as (p & Ip & Iq). apply part_in in Iq. destruct Iq as (_ & _ & _ & ->). exact (N p Ip).
  - intros x0 y0 x1 y1 x y Hx Hy. unfold rect_inside, box. cbn [p_ext p_holes]. split.
    + intros ((a & b & Ia & Ib & H) & (c & d & Ic & Id & G) & _).
      apply box_corners in Ia. apply box_corners in Ib. apply box_corners in Ic. apply box_corners in Id.
      destruct Ia as [Ia _], Ib as [Ib _], Ic as [_ Ic], Id as [_ Id].
      split; [destruct Ia as [E| E], Ib as [F| F]; rewrite E, F in H; lra|destruct Ic as [E|E], Id as [F|F]; rewrite E, F in G; lra].
    + intros [H G]. split; [exists (x0, y0), (x1, y0); cbn; auto 10|]. split; [exists (x0, y0), (x0, y1); cbn; auto 10|]. intros h [].
  - intros x0 y0 x1 y1 lo hi. unfold rect_clip. cbn [flat_map]. unfold rect_part. destruct (_ && _ && _); cbn; eauto.
Qed.

(** A polygon with a hole across the 180th meridian, and others. *)
Definition ring (x0 y0 x1 y1 : Q) : list (Q * Q) := p_ext (box x0 y0 x1 y1).
Definition holed : poly := mkpoly (ring 190 0 230 40) [ring 200 10 210 20].
Lemma holed_case : exists g', wrap_region rect_clip (Single holed) = Ok g' /\ ~ rect_inside holed 205 15 /\ Covers rect_inside g' (- (155)) 15.
Proof.
  eexists. split; [reflexivity|]. split.
  - intros (_ & _ & N). apply (N (ring 200 10 210 20)); [left; reflexivity|]. split.
    + exists (200, 10), (210, 10). cbn. repeat split; auto 6; reflexivity.
    + exists (200, 10), (210, 20). cbn. repeat split; auto 6; reflexivity.
  - apply (wrap_fills _ _ rect_library holed _); [|reflexivity|].
    + intros q Iq. cbn in Iq. intuition (subst; reflexivity).
    + split; [exists (190, 0), (230, 0); cbn; repeat split; auto 6; discriminate|]. split; [exists (190, 0), (190, 40); cbn; repeat split; auto 6; discriminate|]. intros h [].
Qed.
Definition box_case : region := Single (box 170 (- (10)) 200 10).
Lemma box_case_ok : CornersWithin 0 360 box_case /\ NoHoles box_case /\ Crosses box_case.
Proof.
  split; [intros p q [<-|[]] Iq; cbn in Iq; intuition (subst; cbn; lra)|]. split; [intros p [<-|[]]; reflexivity|].
  split; exists (box 170 (- (10)) 200 10); [exists (170, 10)|exists (200, 10)]; cbn; (split; [auto|split; [auto 6|lra]]).
Qed.
