(** Rectangles without some boxes as polygons: an instance of the library and the cases for
    C97-C100. *)
From Coq Require Import QArith Lia Lqa.
From Verif Require Import Py Lib ChunkModel PolyModel PolySpec.
Local Close Scope Q_scope.
Local Open Scope nat_scope.

(** A rectangle without its holes and without notches that reach in from its sides. *)
Record rect := mkrect { r_box : qbox; r_holes : list qbox; r_notches : list qbox }.
Definition qlt (a b : Q) : bool := negb (Qle_bool b a).
Definition within_b (b : qbox) (pt : point) : bool :=
  let '(x0, y0, x1, y1) := b in qlt x0 (fst pt) && qlt (fst pt) x1 && qlt y0 (snd pt) && qlt (snd pt) y1.
Definition in_b (b : qbox) (pt : point) : bool :=
  let '(x0, y0, x1, y1) := b in Qle_bool x0 (fst pt) && Qle_bool (fst pt) x1 && Qle_bool y0 (snd pt) && Qle_bool (snd pt) y1.
Definition inside_b (a b : qbox) : bool :=
  let '(ax0, ay0, ax1, ay1) := a in let '(bx0, by0, bx1, by1) := b in Qle_bool bx0 ax0 && Qle_bool ax1 bx1 && Qle_bool by0 ay0 && Qle_bool ay1 by1.
Definition overlap_b (a b : qbox) : bool :=
  let '(ax0, ay0, ax1, ay1) := a in let '(bx0, by0, bx1, by1) := b in qlt ax0 bx1 && qlt bx0 ax1 && qlt ay0 by1 && qlt by0 ay1.
Definition meet_b (a b : qbox) : bool :=
  let '(ax0, ay0, ax1, ay1) := a in let '(bx0, by0, bx1, by1) := b in Qle_bool ax0 bx1 && Qle_bool bx0 ax1 && Qle_bool ay0 by1 && Qle_bool by0 ay1.
Definition qmax (a b : Q) : Q := if Qle_bool a b then b else a.
Definition qmin_ (a b : Q) : Q := if Qle_bool a b then a else b.
Definition common (a b : qbox) : qbox :=
  let '(ax0, ay0, ax1, ay1) := a in let '(bx0, by0, bx1, by1) := b in (qmax ax0 bx0, qmax ay0 by0, qmin_ ax1 bx1, qmin_ ay1 by1).

Definition r_covers (p : rect) (pt : point) : bool :=
  within_b (r_box p) pt && negb (existsb (fun h => in_b h pt) (r_holes p ++ r_notches p)).
Definition r_cut (p : rect) (b : qbox) : geometry rect :=
  if overlap_b (r_box p) b && negb (existsb (inside_b b) (r_notches p)) then
    Single (mkrect (common (r_box p) b) (filter (fun h => inside_b h b) (r_holes p))
              (filter (fun h => overlap_b h b) (filter (fun h => negb (inside_b h b)) (r_holes p) ++ r_notches p)))
  else if meet_b (r_box p) b then Mixed [] else Nothing.
Definition r_meets (p : rect) (b : qbox) : bool := meet_b (r_box p) b.
Definition r_centroid (h : qbox) : point := let '(x0, y0, x1, y1) := h in ((x0 + x1) / 2, (y0 + y1) / 2)%Q.
Definition r_good (p : rect) : Prop := forall h, In h (r_holes p) -> let '(x0, y0, x1, y1) := h in (x0 < x1)%Q /\ (y0 < y1)%Q.
(** Nodes of the exterior: four for each notch (fewer at a corner), and those of the
    rectangle. *)
Definition r_nodes (p : rect) : Z := (5 + 4 * Z.of_nat (length (r_notches p)))%Z.

Lemma qlt_iff a b : qlt a b = true <-> (a < b)%Q.
Proof. unfold qlt. rewrite negb_true_iff. split; intro E; [apply Qnot_le_lt; intro L; apply Qle_bool_iff in L; congruence | destruct (Qle_bool b a) eqn:F; auto; apply Qle_bool_iff in F; lra]. Qed.
Lemma within_iff b pt : within_b b pt = true <-> Within b pt.
Proof. destruct b as [[[x0 y0] x1] y1]. unfold within_b, Within. rewrite !andb_true_iff, !qlt_iff. tauto. Qed.
Lemma in_iff b pt : in_b b pt = true <-> let '(x0, y0, x1, y1) := b in (x0 <= fst pt <= x1)%Q /\ (y0 <= snd pt <= y1)%Q.
Proof. destruct b as [[[x0 y0] x1] y1]. unfold in_b. rewrite !andb_true_iff, !Qle_bool_iff. tauto. Qed.
Lemma qmax_lt a b x : (qmax a b < x)%Q <-> (a < x)%Q /\ (b < x)%Q.
Proof. unfold qmax. destruct (Qle_bool a b) eqn:E; [apply Qle_bool_iff in E | assert (~ (a <= b)%Q) by (intro L; apply Qle_bool_iff in L; congruence)]; lra. Qed.
Lemma qmin_lt a b x : (x < qmin_ a b)%Q <-> (x < a)%Q /\ (x < b)%Q.
Proof. unfold qmin_. destruct (Qle_bool a b) eqn:E; [apply Qle_bool_iff in E | assert (~ (a <= b)%Q) by (intro L; apply Qle_bool_iff in L; congruence)]; lra. Qed.
Lemma common_within a b pt : Within (common a b) pt <-> Within a pt /\ Within b pt.
Proof.
  destruct a as [[[ax0 ay0] ax1] ay1], b as [[[bx0 by0] bx1] by1]. unfold Within, common. rewrite !qmax_lt, !qmin_lt. tauto.
Qed.
Lemma overlap_within a b pt : Within a pt -> Within b pt -> overlap_b a b = true.
Proof. destruct a as [[[ax0 ay0] ax1] ay1], b as [[[bx0 by0] bx1] by1]. unfold Within, overlap_b. rewrite !andb_true_iff, !qlt_iff. lra. Qed.
Lemma overlap_in a b pt : in_b a pt = true -> Within b pt -> overlap_b a b = true.
Proof. rewrite in_iff. destruct a as [[[ax0 ay0] ax1] ay1], b as [[[bx0 by0] bx1] by1]. unfold Within, overlap_b. rewrite !andb_true_iff, !qlt_iff. lra. Qed.
Lemma within_beyond b pt : Within b pt -> Beyond b pt -> False.
Proof. destruct b as [[[x0 y0] x1] y1]. unfold Within, Beyond. lra. Qed.

Lemma cut_covers p b pt : (exists q, r_cut p b = Single q /\ (r_covers q pt = true -> Within b pt /\ r_covers p pt = true \/ ~ Within b pt) /\
    (r_covers q pt = true -> Within b pt) /\ (Within b pt -> r_covers q pt = r_covers p pt)) \/
  (polygons (r_cut p b) = [] /\ (Within b pt -> r_covers p pt = false)).
Proof.
  unfold r_cut. destruct (overlap_b (r_box p) b && negb (existsb (inside_b b) (r_notches p))) eqn:O.
  - left. eexists. split; [reflexivity|].
    assert (C : Within b pt -> r_covers (mkrect (common (r_box p) b) (filter (fun h => inside_b h b) (r_holes p))
              (filter (fun h => overlap_b h b) (filter (fun h => negb (inside_b h b)) (r_holes p) ++ r_notches p))) pt = r_covers p pt).
    { intro W. unfold r_covers. cbn [r_box r_holes r_notches]. f_equal.
      - apply Bool.eq_iff_eq_true. rewrite !within_iff, common_within. tauto.
      - f_equal. apply Bool.eq_iff_eq_true. rewrite !existsb_exists. split.
        + intros [h [I E]]. exists h. split; auto. apply in_app_iff in I as [I|I]; apply in_app_iff.
          * apply filter_In in I as [I _]. now left.
          * apply filter_In in I as [I _]. apply in_app_iff in I as [I|I]; [apply filter_In in I as [I _]; now left | now right].
        + intros [h [I E]]. exists h. split; auto. apply in_app_iff. apply in_app_iff in I as [I|I].
          * destruct (inside_b h b) eqn:Ib; [left; apply filter_In; now split | right]. apply filter_In. split; [|now apply (overlap_in h b pt)].
            apply in_app_iff. left. apply filter_In. split; auto. now rewrite Ib.
          * right. apply filter_In. split; [apply in_app_iff; now right | now apply (overlap_in h b pt)]. }
    assert (D : r_covers (mkrect (common (r_box p) b) (filter (fun h => inside_b h b) (r_holes p))
              (filter (fun h => overlap_b h b) (filter (fun h => negb (inside_b h b)) (r_holes p) ++ r_notches p))) pt = true -> Within b pt).
    { unfold r_covers at 1. cbn [r_box]. rewrite andb_true_iff, within_iff, common_within. tauto. }
    split; [|split; auto]. intro E. left. split; auto. rewrite <- C; auto.
  - right. split; [now destruct (meet_b (r_box p) b)|]. intro W. unfold r_covers. destruct (within_b (r_box p) pt) eqn:E; auto.
    apply within_iff in E. rewrite (overlap_within _ _ pt E W) in O. cbn [andb] in O |- *. apply negb_false_iff in O. apply negb_false_iff.
    apply existsb_exists in O as [h [I Ih]]. apply existsb_exists. exists h. split; [apply in_app_iff; now right|].
    apply in_iff. destruct h as [[[ax0 ay0] ax1] ay1], b as [[[bx0 by0] bx1] by1]. unfold inside_b in Ih. rewrite !andb_true_iff, !Qle_bool_iff in Ih.
    unfold Within in W. lra.
Qed.

Lemma one_covered (q : rect) pt : covered r_covers [q] pt = if r_covers q pt then 1 else 0.
Proof. unfold covered. cbn [filter]. now destruct (r_covers q pt). Qed.

Lemma rects_library : PolygonLibrary r_covers r_holes r_centroid (fun h => h) r_box r_cut r_meets r_good.
Proof.
  split.
  - intros p pt _ C. unfold r_covers in C. apply andb_true_iff in C as [C _]. now apply within_iff.
  - intros p b pt _ W. destruct (cut_covers p b pt) as [[q [E [_ [_ C]]]]|[E C]].
    + rewrite E. cbn [polygons]. rewrite !one_covered. now rewrite C.
    + rewrite E, one_covered, C by auto. reflexivity.
  - intros p b pt _ B. destruct (cut_covers p b pt) as [[q [E [_ [D _]]]]|[E _]]; [|now rewrite E].
    rewrite E. cbn [polygons]. rewrite one_covered. destruct (r_covers q pt); auto. exfalso. exact (within_beyond b pt (D eq_refl) B).
  - intros p b pt _ N. destruct (cut_covers p b pt) as [[q [E [_ [D C]]]]|[E _]]; [|now rewrite E].
    rewrite E. cbn [polygons]. rewrite one_covered. destruct (r_covers q pt) eqn:X; auto. rewrite <- (C (D eq_refl)) in N. discriminate.
  - intros p b pt _ W C. unfold r_covers in C. apply andb_true_iff in C as [C _]. apply within_iff in C. unfold r_meets.
    destruct (r_box p) as [[[ax0 ay0] ax1] ay1], b as [[[bx0 by0] bx1] by1]. unfold Within in *. unfold meet_b. rewrite !andb_true_iff, !Qle_bool_iff. lra.
  - intros p b q h' _ I J. unfold r_cut in I. destruct (overlap_b (r_box p) b && negb (existsb (inside_b b) (r_notches p))); [|destruct (meet_b (r_box p) b); destruct I].
    destruct I as [<-|[]]. cbn [r_holes] in J. apply filter_In in J as [J E]. exists h'. split; auto.
    destruct h' as [[[ax0 ay0] ax1] ay1], b as [[[bx0 by0] bx1] by1]. unfold inside_b in E. rewrite !andb_true_iff, !Qle_bool_iff in E. unfold Inside. tauto.
  - intros p h G I. specialize (G h I). destruct h as [[[x0 y0] x1] y1]. unfold Within, r_centroid. cbn [fst snd]. 
    assert (A : forall a b : Q, (a < b -> a < (a + b) / 2 < b)%Q).
    { intros a b L. split; [apply Qlt_shift_div_l | apply Qlt_shift_div_r]; try reflexivity; lra. }
    split; apply A; tauto.
Qed.

(** A square with one hole, one with two, and combs with ten notches. *)
Definition one_hole : rect := mkrect (0, 0, 10, 10)%Q [(2, 2, 4, 4)%Q] [].
Definition two_holes : rect := mkrect (0, 0, 10, 10)%Q [(2, 2, 4, 4)%Q; (6, 6, 8, 8)%Q] [].
Definition notch (i : Z) : qbox := (inject_Z i / 4, 90, (2 * inject_Z i + 1) / 8, 100)%Q.
Definition comb10 : rect := mkrect (0, 0, 100, 100)%Q [] (map notch [1; 2; 3; 4; 5; 6; 7; 8; 9; 10]%Z).
(** A square without its upper right quarter. *)
Definition ell : rect := mkrect (0, 0, 10, 10)%Q [] [(5, 5, 10, 10)%Q].
(** A comb without its upper right quarter. *)
Definition comb_ell : rect := mkrect (0, 0, 100, 100)%Q [] ((50, 50, 100, 100)%Q :: r_notches comb10).
(** Rings of letters as polygons, for the removal of repeated nodes. *)
Definition letters : Type := list nat.
