(** Boxes as geometries: an instance of the library and the cases for C93-C96. *)
From Coq Require Import QArith Lia Lqa.
From Verif Require Import Py Lib GeomModel GeomSpec.
Local Close Scope Q_scope.
Local Open Scope Z_scope.

(** Collections of boxes [(x0, y0, x1, y1)]. *)
Definition zbox : Type := Z * Z * Z * Z.
Definition boxes : Type := list zbox.
Definition meet (a b : zbox) : bool :=
  let '(ax0, ay0, ax1, ay1) := a in let '(bx0, by0, bx1, by1) := b in
  (ax0 <=? bx1) && (bx0 <=? ax1) && (ay0 <=? by1) && (by0 <=? ay1).
Definition overlap (a b : zbox) : bool :=
  let '(ax0, ay0, ax1, ay1) := a in let '(bx0, by0, bx1, by1) := b in
  (ax0 <? bx1) && (bx0 <? ax1) && (ay0 <? by1) && (by0 <? ay1).
Definition some_pair (r : zbox -> zbox -> bool) (g h : boxes) : bool := existsb (fun a => existsb (r a) h) g.
Definition b_intersects (g h : boxes) : bool := some_pair meet g h.
Definition b_touches (g h : boxes) : bool := some_pair meet g h && negb (some_pair overlap g h).
Definition b_parts (g : boxes) : list boxes := map (fun b => [b]) g.
Definition b_rtree (l : list boxes) (p : boxes) : list nat := seq 0 (length l).

Lemma some_pair_iff r g h : some_pair r g h = true <-> exists a b, In a g /\ In b h /\ r a b = true.
Proof.
  unfold some_pair. rewrite existsb_exists. split.
  - intros [a [I E]]. apply existsb_exists in E as [b [J E]]. now exists a, b.
  - intros [a [b [I [J E]]]]. exists a. split; auto. apply existsb_exists. now exists b.
Qed.

Lemma overlap_meet a b : overlap a b = true -> meet a b = true.
Proof. destruct a as [[[? ?] ?] ?], b as [[[? ?] ?] ?]. cbn. rewrite !andb_true_iff, !Z.leb_le, !Z.ltb_lt. lia. Qed.

Lemma boxes_library : IndexLibrary b_intersects b_touches b_parts b_rtree.
Proof.
  split.
  - intros l p i g E _. unfold b_rtree. apply in_seq. cbn. split; [lia|]. apply nth_error_Some. congruence.
  - intros l p i I. unfold b_rtree in I. apply in_seq in I. lia.
  - intros g h. unfold b_intersects. rewrite some_pair_iff. split.
    + intros [a [b [I [J E]]]]. exists [a]. split; [unfold b_parts; now apply (in_map (fun b => [b])) in I|]. apply some_pair_iff. exists a, b. split; [now left | auto].
    + intros [p [I E]]. apply in_map_iff in I as [a [<- I]]. apply some_pair_iff in E as [a' [b [[<-|[]] [J E]]]]. now exists a, b.
  - intros g h X. unfold b_intersects, b_touches in *. rewrite X. cbn [andb]. rewrite negb_true_iff. split.
    + intros N p I E. apply in_map_iff in I as [a [<- I]]. rewrite E. cbn [andb]. apply negb_true_iff.
      destruct (some_pair overlap [a] h) eqn:O; auto. apply some_pair_iff in O as [a' [b [[<-|[]] [J O]]]].
      assert (some_pair overlap g h = true) by (apply some_pair_iff; now exists a, b). congruence.
    + intro A. destruct (some_pair overlap g h) eqn:O; auto. apply some_pair_iff in O as [a [b [I [J O]]]].
      assert (M : some_pair meet [a] h = true) by (apply some_pair_iff; exists a, b; split; [now left|]; split; auto; now apply overlap_meet).
      assert (T : some_pair meet [a] h && negb (some_pair overlap [a] h) = true) by (apply A; auto; unfold b_parts; now apply (in_map (fun b => [b])) in I).
      rewrite M in T. cbn [andb] in T. apply negb_true_iff in T.
      assert (some_pair overlap [a] h = true) by (apply some_pair_iff; exists a, b; split; [now left | auto]). congruence.
Qed.

Definition cellb (x y : Z) : boxes := [(x, y, x + 1, y + 1)].
(** Three rows and columns of unit cells; the cell in the middle is masked. *)
Definition cells33 : gvar boxes :=
  mkgvar (A2 3 (map (fun y => map (fun x => cellb x y) [0; 1; 2]) [0; 1; 2]))
         (Some (A2 3 [[false; false; false]; [false; true; false]; [false; false; false]])).
(** Two boxes: over the first two columns of the lowest row, and over the cell on top of the
    second column; both touch other cells. *)
Definition sel33 : boxes := [(0, 0, 2, 1); (1, 2, 2, 3)].
Definition row3 : gvar boxes := mkgvar (A1 (map (fun x => cellb x 0) [0; 1; 2])) None.

(** Squared distances between boxes, and the middle of the first box, in units of one half
    so that the middle is exact. *)
Definition gap (a0 a1 b0 b1 : Z) : Z := Z.max 0 (Z.max (b0 - a1) (a0 - b1)).
Definition b_distance (g h : boxes) : Q :=
  match g, h with
  | (ax0, ay0, ax1, ay1) :: _, (bx0, by0, bx1, by1) :: _ =>
      inject_Z (gap ax0 ax1 bx0 bx1 * gap ax0 ax1 bx0 bx1 + gap ay0 ay1 by0 by1 * gap ay0 ay1 by0 by1)
  | _, _ => 0%Q
  end.
Definition b_centroid (g : boxes) : boxes :=
  match g with (x0, y0, x1, y1) :: _ => let x := (x0 + x1) / 2 in let y := (y0 + y1) / 2 in [(x, y, x, y)] | [] => [] end.
(** A long box, a point near its end and one above its middle. *)
Definition long_box : boxes := [(0, 0, 100, 2)].
Definition two_points : gvar boxes := mkgvar (A1 [[(101, 1, 101, 1)]; [(50, 20, 50, 20)]]) None.
Definition masked_points : gvar boxes := mkgvar (A1 [[(101, 1, 101, 1)]; [(50, 20, 50, 20)]; [(3, 3, 3, 3)]]) (Some (A1 [false; false; true])).
Definition b_buffered (g : boxes) : boxes := map (fun b => let '(x0, y0, x1, y1) := b in (x0 - 1, y0 - 1, x1 + 1, y1 + 1)) g.
