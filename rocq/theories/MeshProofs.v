(** Proofs about unstructured meshes. *)
From Verif Require Import Py Lib CoordSpec CoordModel CoordProofs SelectProofs MeshModel MeshSpec.
Local Close Scope Q_scope.
Local Open Scope Z_scope.

(** ** Rings *)

Lemma area2_eq r : area2 r = twice_area r.
Proof.
  unfold twice_area. induction r as [|a [|b t] IH]; [reflexivity|reflexivity|].
  change (area2 (a :: b :: t)) with (cross a b + area2 (b :: t)). rewrite IH. cbn [tl combine map]. rewrite zsum_cons. reflexivity.
Qed.

Lemma area2_snoc l a b : area2 (l ++ [a; b]) = area2 (l ++ [a]) + cross a b.
Proof.
  induction l as [|x l IH]; [cbn; unfold cross; lia|]. destruct l as [|y l].
  - cbn. unfold cross. lia.
  - change ((x :: y :: l) ++ [a; b])%list with (x :: y :: (l ++ [a; b]))%list. change ((x :: y :: l) ++ [a])%list with (x :: y :: (l ++ [a]))%list.
    change (area2 (x :: y :: (l ++ [a; b]))) with (cross x y + area2 ((y :: l) ++ [a; b])). change (area2 (x :: y :: (l ++ [a]))) with (cross x y + area2 ((y :: l) ++ [a])).
    rewrite IH. lia.
Qed.

Lemma area2_rev r : area2 (rev r) = - area2 r.
Proof.
  induction r as [|a [|b t] IH]; [reflexivity|reflexivity|].
  change (rev (a :: b :: t)) with ((rev t ++ [b]) ++ [a])%list. rewrite <- app_assoc. cbn [app]. rewrite area2_snoc.
  change (rev t ++ [b])%list with (rev (b :: t)). rewrite IH. change (area2 (a :: b :: t)) with (cross a b + area2 (b :: t)). unfold cross. lia.
Qed.

Lemma get_ccw_ok r : CounterClockwise r (get_ccw r).
Proof.
  unfold CounterClockwise, get_ccw, is_ccw. destruct (0 <=? area2 r) eqn:E.
  - split; [now left|]. rewrite <- area2_eq. lia.
  - split; [now right|]. rewrite <- area2_eq, area2_rev. lia.
Qed.

Lemma last_last {A} (l : list A) x d : last (l ++ [x]) d = x.
Proof. induction l as [|a [|b t] IH]; [reflexivity|reflexivity|exact IH]. Qed.
Lemma hd_rev {A} (l : list A) d : hd d (rev l) = last l d.
Proof. induction l as [|a l IH] using rev_ind; [reflexivity|]. rewrite rev_app_distr, last_last. reflexivity. Qed.
Lemma last_rev {A} (l : list A) d : last (rev l) d = hd d l.
Proof. rewrite <- (rev_involutive l) at 2. now rewrite hd_rev. Qed.

Lemma closed_rev r : ClosedRing r -> ClosedRing (rev r).
Proof.
  intros [v [m [-> [L [H1 H2]]]]]. exists v, (rev m). split; [|split; [|split]].
  - cbn [rev]. rewrite rev_app_distr. reflexivity.
  - now rewrite rev_length.
  - now rewrite hd_rev.
  - now rewrite last_rev.
Qed.
Lemma closed_ccw r : ClosedRing r -> ClosedRing (get_ccw r).
Proof. unfold get_ccw. destruct (is_ccw r); [trivial|apply closed_rev]. Qed.

Lemma closes_used (rep : bool) r : ClosedRing r -> Closes (if rep then r else removelast r) r.
Proof.
  intros [v [m [-> [L [H1 H2]]]]]. unfold Closes. destruct rep.
  - split; [cbn [List.length]; rewrite app_length; cbn [List.length]; lia|]. split; [cbn [List.length]; rewrite app_length; cbn [List.length]; lia|].
    exists v, (m ++ [v])%list. split; [reflexivity|]. left. split; [apply last_last|reflexivity].
  - assert (E : removelast (v :: m ++ [v]) = v :: m) by (change (v :: m ++ [v])%list with ((v :: m) ++ [v])%list; apply removelast_last).
    rewrite E. split; [cbn [List.length]; lia|]. split; [cbn [List.length]; rewrite app_length; cbn [List.length]; lia|].
    exists v, m. split; [reflexivity|]. right. split; [exact H2|reflexivity].
Qed.

Lemma veqb_eq a b : veqb a b = true <-> a = b.
Proof. destruct a as [a1 a2], b as [b1 b2]. unfold veqb. cbn [fst snd]. split; [intro H; f_equal; lia|intro H; injection H as -> ->; lia]. Qed.
Lemma veqb_refl a : veqb a a = true.
Proof. now apply veqb_eq. Qed.

Lemma polygon_closes vs r : Closes vs r -> polygon_of vs = Ok (mkpoly r []).
Proof.
  intros [L1 [L2 [v [m [-> H]]]]]. unfold polygon_of. replace (zlen (v :: m) <? 3) with false by (unfold zlen; lia).
  assert (E : last (v :: m) v = last m v) by (destruct m; reflexivity). rewrite E.
  destruct H as [[H ->]|[H ->]].
  - rewrite H, veqb_refl. replace (zlen (v :: m) <? 4) with false by (unfold zlen; lia). reflexivity.
  - destruct (veqb v (last m v)) eqn:V; [apply veqb_eq in V; congruence|]. replace (zlen ((v :: m) ++ [v]) <? 4) with false by (unfold zlen; lia). reflexivity.
Qed.

(** ** Rows *)

Lemma draws_app nodes extra start row vs : Draws nodes start row vs -> Draws (nodes ++ extra) start row vs.
Proof.
  unfold Draws. induction 1 as [|i v row vs [H1 H2] _ IH]; constructor; [|exact IH]. split; [exact H1|].
  rewrite nth_error_app1; [exact H2|]. apply nth_error_Some. congruence.
Qed.

Lemma find_from_some : forall nodes k v j, find_from k nodes v = Some j -> exists i, j = k + Z.of_nat i /\ nth_error nodes i = Some v.
Proof.
  induction nodes as [|n t IH]; intros k v j H; cbn [find_from] in H; [discriminate|]. destruct (veqb n v) eqn:V.
  - injection H as <-. apply veqb_eq in V. exists 0%nat. split; [lia|cbn; now rewrite V].
  - destruct (IH _ _ _ H) as [i [E N]]. exists (S i). split; [lia|exact N].
Qed.
Lemma find_from_none : forall nodes k v, find_from k nodes v = None -> ~ In v nodes.
Proof.
  induction nodes as [|n t IH]; intros k v H; cbn [find_from] in H; [easy|]. destruct (veqb n v) eqn:V; [discriminate|].
  intros [E|I]; [subst; now rewrite veqb_refl in V|exact (IH _ _ H I)].
Qed.

(** The nodes from position [n] on occur in the row. *)
Definition NewUsed (n : nat) (nodes : list vertex) (start : Z) (row : list Z) : Prop :=
  forall i, (n <= i < List.length nodes)%nat -> In (start + Z.of_nat i) row.

Lemma fold_packed start : forall used nodes row, exists extra row2,
  fold_left (add_packed start) used (nodes, start + zlen nodes, row) = ((nodes ++ extra)%list, start + zlen (nodes ++ extra), (row ++ row2)%list) /\
  Draws (nodes ++ extra) start row2 used /\ (NoDup nodes -> NoDup (nodes ++ extra)) /\ NewUsed (List.length nodes) (nodes ++ extra) start row2.
Proof.
  induction used as [|v used IH]; intros nodes row; cbn [fold_left].
  - exists [], []. rewrite !app_nil_r. split; [reflexivity|]. split; [constructor|]. split; [trivial|]. intros i Hi. lia.
  - unfold add_packed at 2. unfold find_index. destruct (find_from 0 nodes v) as [k|] eqn:F.
    + destruct (find_from_some _ _ _ _ F) as [i [-> N]]. destruct (IH nodes (row ++ [Z.of_nat i + start])%list) as [extra [row2 [E [D [ND NU]]]]].
      exists extra, ((0 + Z.of_nat i + start) :: row2)%list. split; [|split; [|split]].
      * replace (0 + Z.of_nat i + start) with (Z.of_nat i + start) by lia. rewrite E, <- app_assoc. reflexivity.
      * constructor; [|exact D]. split; [lia|]. replace (Z.to_nat (0 + Z.of_nat i + start - start)) with i by lia.
        rewrite nth_error_app1; [exact N|]. apply nth_error_Some. congruence.
      * exact ND.
      * intros j Hj. right. now apply NU.
    + assert (L : start + zlen nodes + 1 = start + zlen (nodes ++ [v])) by (unfold zlen; rewrite app_length; cbn [List.length]; lia). rewrite L.
      destruct (IH (nodes ++ [v])%list (row ++ [start + zlen nodes])%list) as [extra [row2 [E [D [ND NU]]]]].
      exists (v :: extra), ((start + zlen nodes) :: row2)%list. rewrite <- app_assoc in E, D, ND, NU. cbn [app] in E, D, ND, NU.
      split; [|split; [|split]].
      * rewrite E, <- app_assoc. reflexivity.
      * constructor; [|exact D]. split; [unfold zlen; lia|]. replace (Z.to_nat (start + zlen nodes - start)) with (List.length nodes) by (unfold zlen; lia).
        rewrite nth_error_app2, Nat.sub_diag by lia. reflexivity.
      * intro Hn. apply ND. apply NoDup_app_intro; [exact Hn|repeat constructor; easy|]. intros x Hx [<-|[]]. exact (find_from_none _ _ _ F Hx).
      * intros j Hj. destruct (Nat.eq_dec j (List.length nodes)) as [->|Hne]; [left; reflexivity|]. right. apply NU. rewrite app_length. cbn [List.length]. lia.
Qed.

Lemma draws_range start : forall used nodes, Draws (nodes ++ used) start (zrange (start + zlen nodes) (start + zlen nodes + zlen used)) used.
Proof.
  induction used as [|v used IH]; intros nodes.
  - unfold zrange. replace (Z.to_nat _) with 0%nat by (unfold zlen; cbn [List.length]; lia). constructor.
  - assert (E : zrange (start + zlen nodes) (start + zlen nodes + zlen (v :: used)) = (start + zlen nodes) :: zrange (start + zlen (nodes ++ [v])) (start + zlen (nodes ++ [v]) + zlen used)).
    { unfold zrange. replace (Z.to_nat (start + zlen nodes + zlen (v :: used) - (start + zlen nodes))) with (S (List.length used)) by (unfold zlen; cbn [List.length]; lia).
      replace (Z.to_nat (start + zlen (nodes ++ [v]) + zlen used - (start + zlen (nodes ++ [v])))) with (List.length used) by (unfold zlen; lia).
      cbn [seq map]. f_equal; [lia|]. rewrite <- seq_shift, map_map. apply map_ext. intro a. unfold zlen. rewrite app_length. cbn [List.length]. lia. }
    rewrite E. constructor.
    + split; [unfold zlen; lia|]. replace (Z.to_nat (start + zlen nodes - start)) with (List.length nodes) by (unfold zlen; lia).
      rewrite nth_error_app2, Nat.sub_diag by lia. reflexivity.
    + specialize (IH (nodes ++ [v])%list). rewrite <- app_assoc in IH. exact IH.
Qed.

(** The vertices of a part that are stored. *)
Definition used_of (o : options) (p : polygon) : list vertex := if o_repeat o then get_ccw (exterior p) else removelast (get_ccw (exterior p)).

Lemma add_part_ok o nodes p : exists extra row,
  add_part o nodes (o_start o + zlen nodes) (exterior p) = ((nodes ++ extra)%list, o_start o + zlen (nodes ++ extra), row) /\
  Draws (nodes ++ extra) (o_start o) row (used_of o p) /\ (o_pack o = true -> NoDup nodes -> NoDup (nodes ++ extra)) /\
  NewUsed (List.length nodes) (nodes ++ extra) (o_start o) row /\ (o_pack o = false -> extra = used_of o p).
Proof.
  unfold add_part. change (if o_repeat o then get_ccw (exterior p) else removelast (get_ccw (exterior p))) with (used_of o p). destruct (o_pack o).
  - destruct (fold_packed (o_start o) (used_of o p) nodes []) as [extra [row [E [D [ND NU]]]]]. exists extra, row. cbn [app] in E.
    split; [exact E|]. split; [exact D|]. split; [intros _; exact ND|]. split; [exact NU|discriminate].
  - exists (used_of o p), (zrange (o_start o + zlen nodes) (o_start o + zlen nodes + zlen (used_of o p))). split; [|split; [|split; [|split]]].
    + f_equal. f_equal. unfold zlen. rewrite app_length. lia.
    + apply draws_range.
    + discriminate.
    + intros i Hi. rewrite app_length in Hi. unfold zrange. apply in_map_iff. exists (i - List.length nodes)%nat. split; [unfold zlen; lia|]. apply in_seq. unfold zlen. lia.
    + reflexivity.
Qed.

Lemma join_snoc v : forall pieces p, join v (pieces ++ [p]) = match pieces with [] => p | _ => (join v pieces ++ v :: p)%list end.
Proof.
  induction pieces as [|q pieces IH]; intro p; [reflexivity|]. destruct pieces as [|q2 pieces]; [reflexivity|].
  change ((q :: q2 :: pieces) ++ [p])%list with (q :: ((q2 :: pieces) ++ [p]))%list.
  change (join v (q :: ((q2 :: pieces) ++ [p]))) with (q ++ v :: join v ((q2 :: pieces) ++ [p]))%list. rewrite IH.
  change (join v (q :: q2 :: pieces)) with (q ++ v :: join v (q2 :: pieces))%list. rewrite <- app_assoc. reflexivity.
Qed.

(** One geometry without holes. *)
Definition part_step (o : options) (acc : list vertex * Z * list Z * Z) (p : polygon) : list vertex * Z * list Z * Z :=
  let '(nodes, cidx, row, subidx) := acc in
  let row1 := if 0 <? subidx then (row ++ [o_break o])%list else row in
  let '(nodes', cidx', idxs) := add_part o nodes cidx (exterior p) in
  (nodes', cidx', (row1 ++ idxs)%list, subidx + 1).

Lemma fold_parts o : forall ps nodes pieces, exists extra pieces2,
  fold_left (part_step o) ps (nodes, o_start o + zlen nodes, join (o_break o) pieces, zlen pieces) =
    ((nodes ++ extra)%list, o_start o + zlen (nodes ++ extra), join (o_break o) (pieces ++ pieces2), zlen (pieces ++ pieces2)) /\
  Forall2 (fun piece p => Draws (nodes ++ extra) (o_start o) piece (used_of o p)) pieces2 ps /\
  (o_pack o = true -> NoDup nodes -> NoDup (nodes ++ extra)) /\ NewUsed (List.length nodes) (nodes ++ extra) (o_start o) (concat pieces2) /\
  (o_pack o = false -> extra = concat (map (used_of o) ps)).
Proof.
  induction ps as [|p ps IH]; intros nodes pieces.
  - exists [], []. rewrite !app_nil_r. cbn [fold_left]. split; [reflexivity|]. split; [constructor|]. split; [trivial|]. split; [intros i Hi; lia|trivial].
  - cbn [fold_left]. destruct (add_part_ok o nodes p) as [e1 [r1 [E1 [D1 [N1 [U1 X1]]]]]].
    assert (S1 : part_step o (nodes, o_start o + zlen nodes, join (o_break o) pieces, zlen pieces) p =
      ((nodes ++ e1)%list, o_start o + zlen (nodes ++ e1), join (o_break o) (pieces ++ [r1]), zlen (pieces ++ [r1]))).
    { unfold part_step. rewrite E1. f_equal; [f_equal|].
      - rewrite join_snoc. destruct pieces as [|q pieces]; [reflexivity|]. replace (0 <? zlen (q :: pieces)) with true by (unfold zlen; cbn [List.length]; lia). now rewrite <- app_assoc.
      - unfold zlen. rewrite app_length. cbn [List.length]. lia. }
    rewrite S1. destruct (IH (nodes ++ e1)%list (pieces ++ [r1])%list) as [e2 [p2 [E2 [F2 [N2 [U2 X2]]]]]].
    exists (e1 ++ e2)%list, (r1 :: p2)%list. rewrite <- !app_assoc in E2. rewrite <- app_assoc in F2, N2, U2. cbn [app] in E2.
    split; [exact E2|]. split; [|split; [|split]].
    + constructor; [|exact F2]. rewrite app_assoc. now apply draws_app.
    + intros P N. rewrite app_assoc in N2. rewrite app_assoc. apply N2; [exact P|]. now apply N1.
    + intros i Hi. cbn [concat]. apply in_app_iff. rewrite !app_length in Hi. destruct (Nat.lt_ge_cases i (List.length (nodes ++ e1)%list)) as [Q|Q].
      * left. apply U1. rewrite app_length in Q |- *. lia.
      * right. apply U2. rewrite !app_length. rewrite app_length in Q. lia.
    + intro P. rewrite (X1 P), (X2 P). reflexivity.
Qed.

Lemma no_holes g : PlainPolygons g -> existsb (fun p => 0 <? zlen (holes p)) (parts_of g) = false.
Proof.
  intro H. destruct (existsb _ _) eqn:E; [|reflexivity]. apply existsb_exists in E. destruct E as [p [I Hp]]. exfalso.
  assert (holes p = []) as Hh.
  { destruct g as [v|q|ps|vs]; cbn in H, I; try easy; [destruct I as [<-|[]]; exact (proj1 H)|]. destruct H as [_ F]. rewrite Forall_forall in F. exact (proj1 (F p I)). }
  rewrite Hh in Hp. discriminate.
Qed.

Lemma parts_same g : parts_of g = parts g.
Proof. destruct g; reflexivity. Qed.

Lemma add_geom_ok o nodes g : PlainPolygons g -> exists extra pieces,
  add_geom o nodes (o_start o + zlen nodes) g = Ok ((nodes ++ extra)%list, o_start o + zlen (nodes ++ extra), join (o_break o) pieces) /\
  Forall2 (fun piece p => Draws (nodes ++ extra) (o_start o) piece (used_of o p)) pieces (parts g) /\
  (o_pack o = true -> NoDup nodes -> NoDup (nodes ++ extra)) /\ NewUsed (List.length nodes) (nodes ++ extra) (o_start o) (concat pieces) /\
  (o_pack o = false -> extra = concat (map (used_of o) (parts g))).
Proof.
  intro H. destruct (fold_parts o (parts g) nodes []) as [extra [pieces [E R]]]. exists extra, pieces. split; [|exact R].
  cbn [app] in E. unfold add_geom. rewrite (no_holes g H), parts_same.
  assert (E' : fold_left (part_step o) (parts g) (nodes, o_start o + zlen nodes, [], 0) =
    ((nodes ++ extra)%list, o_start o + zlen (nodes ++ extra), join (o_break o) pieces, zlen pieces)) by exact E.
  unfold part_step in E'. destruct g; try contradiction H; rewrite E'; reflexivity.
Qed.

Lemma concat_in_join v pieces x : In x (concat pieces) -> In x (join v pieces).
Proof.
  induction pieces as [|p pieces IH]; [easy|]. cbn [concat]. intro H. apply in_app_iff in H. destruct pieces as [|q pieces].
  - destruct H as [H|[]]. exact H.
  - change (join v (p :: q :: pieces)) with (p ++ v :: join v (q :: pieces))%list. apply in_app_iff. destruct H as [H|H]; [now left|right; right; now apply IH].
Qed.

(** All geometries. *)
Definition geom_step (o : options) (st : list vertex * Z * list (list Z)) (g : geom) : res (list vertex * Z * list (list Z)) :=
  let '(nodes, cidx, rows) := st in
  do r <- add_geom o nodes cidx g;
  let '(nodes', cidx', row) := r in
  do row' <- store_row o row;
  Ok (nodes', cidx', (rows ++ [row'])%list).

Definition RowOf (o : options) (nodes : list vertex) (g : geom) (row : list Z) : Prop :=
  exists pieces, row = join (o_break o) pieces /\ Forall2 (fun piece p => Draws nodes (o_start o) piece (used_of o p)) pieces (parts g).

Lemma rowof_app o nodes extra g row : RowOf o nodes g row -> RowOf o (nodes ++ extra) g row.
Proof.
  intros [pieces [-> F]]. exists pieces. split; [reflexivity|]. induction F; constructor; [now apply draws_app|assumption].
Qed.

Lemma used_length o p : PlainPolygon p -> (3 <= List.length (used_of o p))%nat.
Proof.
  intros [_ C]. unfold used_of. exact (proj1 (closes_used (o_repeat o) _ (closed_ccw _ C))).
Qed.

Lemma draws_length nodes start row vs : Draws nodes start row vs -> List.length row = List.length vs.
Proof. intro H. unfold Draws in H. induction H; cbn; congruence. Qed.

Lemma plain_parts g : PlainPolygons g -> parts g <> [] /\ Forall PlainPolygon (parts g).
Proof. intro H. destruct g as [v|q|ps|vs]; cbn in H |- *; try easy. split; [discriminate|]. constructor; [exact H|constructor]. Qed.

Lemma row_long o nodes g row : PlainPolygons g -> RowOf o nodes g row -> (3 <= List.length row)%nat.
Proof.
  intros H [pieces [-> F]]. destruct (plain_parts g H) as [N P]. clear H. revert N P. destruct F as [|piece p pieces ps D F]; intros N P; [congruence|].
  apply Forall_inv in P. apply used_length with (o := o) in P. apply draws_length in D.
  destruct pieces as [|q pieces]; [cbn [join]; lia|]. change (join (o_break o) (piece :: q :: pieces)) with (piece ++ o_break o :: join (o_break o) (q :: pieces))%list.
  rewrite app_length. lia.
Qed.

Lemma store_long o row row' : (3 <= List.length row)%nat -> store_row o row = Ok row' -> row' = row.
Proof.
  unfold store_row. destruct (o_max o) as [n|]; [|congruence]. destruct (zlen row =? n); [congruence|]. destruct row as [|x [|y t]]; cbn; intros L H; try discriminate; lia.
Qed.

Lemma convert_fold o : forall gs nodes rows st, Forall PlainPolygons gs ->
  fold_res (geom_step o) gs (nodes, o_start o + zlen nodes, rows) = Ok st -> exists extra rows2,
  st = ((nodes ++ extra)%list, o_start o + zlen (nodes ++ extra), (rows ++ rows2)%list) /\ Forall2 (RowOf o (nodes ++ extra)) gs rows2 /\
  (o_pack o = true -> NoDup nodes -> NoDup (nodes ++ extra)) /\ NewUsed (List.length nodes) (nodes ++ extra) (o_start o) (concat rows2) /\
  (o_pack o = false -> extra = concat (map (used_of o) (concat (map parts gs)))).
Proof.
  induction gs as [|g gs IH]; intros nodes rows st H E; cbn [fold_res] in E.
  - injection E as <-. exists [], []. rewrite !app_nil_r. split; [reflexivity|]. split; [constructor|]. split; [trivial|]. split; [intros i Hi; lia|trivial].
  - inversion H as [|? ? Hg Hgs]; subst. destruct (add_geom_ok o nodes g Hg) as [e1 [pieces [E1 [F1 [N1 [U1 X1]]]]]].
    unfold geom_step at 1 in E. rewrite E1 in E. cbn [bind] in E. destruct (store_row o (join (o_break o) pieces)) as [row'|] eqn:ES; cbn [bind] in E; [|discriminate].
    assert (R1 : RowOf o (nodes ++ e1) g (join (o_break o) pieces)) by (exists pieces; split; [reflexivity|exact F1]).
    apply (store_long o _ _ (row_long o _ g _ Hg R1)) in ES. subst row'.
    destruct (IH _ _ _ Hgs E) as [e2 [rows2 [-> [F2 [N2 [U2 X2]]]]]].
    exists (e1 ++ e2)%list, (join (o_break o) pieces :: rows2)%list. rewrite <- !app_assoc. cbn [app]. split; [reflexivity|]. split; [|split; [|split]].
    + constructor; [rewrite app_assoc; now apply rowof_app|]. rewrite <- app_assoc in F2. exact F2.
    + intros P N. rewrite app_assoc. apply N2; [exact P|now apply N1].
    + intros i Hi. cbn [concat]. apply in_app_iff. rewrite !app_length in Hi. destruct (Nat.lt_ge_cases i (List.length (nodes ++ e1)%list)) as [Q|Q].
      * left. apply concat_in_join, U1. rewrite app_length in Q |- *. lia.
      * right. apply U2. rewrite !app_length. rewrite app_length in Q. lia.
    + intro P. rewrite (X1 P), (X2 P). cbn [map concat]. now rewrite map_app, concat_app.
Qed.

Lemma convert_fold_defined o : o_max o = None -> forall gs nodes rows, Forall PlainPolygons gs ->
  exists st, fold_res (geom_step o) gs (nodes, o_start o + zlen nodes, rows) = Ok st.
Proof.
  intros M. induction gs as [|g gs IH]; intros nodes rows H; cbn [fold_res]; [eexists; reflexivity|].
  inversion H as [|? ? Hg Hgs]; subst. destruct (add_geom_ok o nodes g Hg) as [e1 [pieces [E1 _]]].
  unfold geom_step at 1. rewrite E1. cbn [bind]. unfold store_row. rewrite M. cbn [bind]. now apply IH.
Qed.

Lemma convert_rows_step o gs : convert_rows o gs = (do st <- fold_res (geom_step o) gs ([], o_start o + zlen (@nil vertex), []); let '(nodes, _, rows) := st in Ok (nodes, rows)).
Proof. unfold convert_rows. replace (o_start o + zlen (@nil vertex)) with (o_start o) by (unfold zlen; cbn; lia). reflexivity. Qed.

Lemma geom_type_plain gs : Forall PlainPolygons gs -> gs <> [] ->
  (Exists Multi gs /\ geom_type gs = Some TMultiPolygon) \/ (Forall (fun g => ~ Multi g) gs /\ geom_type gs = Some TPolygon).
Proof.
  induction gs as [|g gs IH]; intros H N; [congruence|]. inversion H as [|? ? Hg Hgs]; subst. destruct g as [v|p|ps|vs]; try contradiction Hg.
  - destruct gs as [|g2 gs].
    + right. split; [constructor; [easy|constructor]|reflexivity].
    + destruct (IH Hgs ltac:(discriminate)) as [[E T]|[E T]].
      * left. split; [now right|]. cbn [geom_type] in T |- *. now rewrite T.
      * right. split; [constructor; [easy|exact E]|]. cbn [geom_type] in T |- *. now rewrite T.
  - left. split; [left; exact I|reflexivity].
Qed.

(** What [convert_to] makes of polygons. *)
Lemma convert_to_ok o gs mask g : Forall PlainPolygons gs -> gs <> [] -> convert_to o gs mask = Ok g ->
  g_point g = false /\ g_mask g = mask /\ start_index g = o_start o /\
  (Exists Multi gs /\ g_multi g = Some (o_break o) \/ Forall (fun x => ~ Multi x) gs /\ g_multi g = None) /\
  exists rows, (g_index g = Some (Ragged rows) \/ g_index g = Some (Table rows)) /\ Forall2 (RowOf o (g_nodes g)) gs rows /\
  (o_pack o = true -> NoDup (g_nodes g)) /\
  (forall k, (k < List.length (g_nodes g))%nat -> In (o_start o + Z.of_nat k) (concat rows)) /\
  (o_pack o = false -> g_nodes g = concat (map (used_of o) (concat (map parts gs)))).
Proof.
  intros H N E. unfold convert_to in E.
  assert (G : forall k, geom_type gs = Some k -> k = TMultiPolygon \/ k = TPolygon) by (intros k Ek; destruct (geom_type_plain gs H N) as [[_ T]|[_ T]]; rewrite T in Ek; injection Ek as <-; tauto).
  destruct (geom_type gs) as [k|] eqn:T; [|destruct (geom_type_plain gs H N) as [[_ T']|[_ T']]; congruence].
  assert (E' : (do r <- convert_rows o gs;
    let '(nodes, rows) := r in
    Ok (mkgc false nodes (Some (match o_max o with None => Ragged rows | Some _ => Table rows end))
             (Some (o_start o)) (o_start o) (match k with TMultiPolygon => Some (o_break o) | _ => None end) mask)) = Ok g) by (destruct (G k eq_refl) as [-> | ->]; exact E).
  clear E. rewrite convert_rows_step in E'. destruct (fold_res (geom_step o) gs ([], o_start o + zlen (@nil vertex), [])) as [st|] eqn:EF; cbn [bind] in E'; [|discriminate].
  destruct (convert_fold o gs [] [] st H EF) as [extra [rows [-> [F [ND [U X]]]]]]. cbn [app bind] in E', F, ND, U, X. injection E' as <-. cbn [g_point g_mask g_index g_nodes g_multi].
  split; [reflexivity|]. split; [reflexivity|]. split; [reflexivity|]. split.
  - destruct (geom_type_plain gs H N) as [[M T']|[M T']]; rewrite T in T'; injection T' as ->; [left|right]; (split; [exact M|reflexivity]).
  - exists rows. split; [destruct (o_max o); [now right|now left]|]. split; [exact F|]. split; [intro P; apply (ND P); constructor|]. split; [|exact X].
    intros k0 Hk. apply U. cbn [List.length]. lia.
Qed.

Lemma convert_to_defined o gs mask : Forall PlainPolygons gs -> gs <> [] -> o_max o = None -> exists g, convert_to o gs mask = Ok g.
Proof.
  intros H N M. unfold convert_to. rewrite convert_rows_step. destruct (convert_fold_defined o M gs [] [] H) as [[[nodes c] rows] E]. rewrite E. cbn [bind].
  destruct (geom_type_plain gs H N) as [[_ T]|[_ T]]; rewrite T; eexists; reflexivity.
Qed.

(** ** Reading *)

Lemma join_unique v : forall a b, a <> [] -> b <> [] -> (forall p, In p a -> ~ In v p) -> (forall p, In p b -> ~ In v p) -> join v a = join v b -> a = b.
Proof.
  assert (P : forall p q s t, ~ In v p -> ~ In v q -> (p ++ v :: s)%list = (q ++ v :: t)%list -> p = q /\ s = t).
  { induction p as [|x p IH]; intros [|y q] s t Hp Hq E; cbn in E.
    - injection E as ->. now split.
    - injection E as <- _. exfalso. apply Hq. now left.
    - injection E as -> _. exfalso. apply Hp. now left.
    - injection E as -> E. destruct (IH q s t) as [-> ->]; [intro; apply Hp; now right|intro; apply Hq; now right|exact E|]. now split. }
  assert (Q : forall p q t, ~ In v p -> p = (q ++ v :: t)%list -> False).
  { intros p q t Hp ->. apply Hp. apply in_app_iff. right. now left. }
  induction a as [|p a IH]; intros b Na Nb Ha Hb E; [congruence|]. destruct b as [|q b]; [congruence|].
  destruct a as [|p2 a], b as [|q2 b].
  - cbn in E. now subst.
  - exfalso. change (join v [p]) with p in E. apply (Q p q (join v (q2 :: b))); [apply Ha; now left|exact E].
  - exfalso. change (join v [q]) with q in E. symmetry in E. apply (Q q p (join v (p2 :: a))); [apply Hb; now left|exact E].
  - change (join v (p :: p2 :: a)) with (p ++ v :: join v (p2 :: a))%list in E. change (join v (q :: q2 :: b)) with (q ++ v :: join v (q2 :: b))%list in E.
    apply P in E; [|apply Ha; now left|apply Hb; now left]. destruct E as [-> E]. f_equal. apply IH; try discriminate; [intros; apply Ha; now right|intros; apply Hb; now right|exact E].
Qed.

Lemma multipart_join v pieces : pieces <> [] -> (forall p, In p pieces -> ~ In v p) -> iter_multipart_coordinates (join v pieces) v = pieces.
Proof.
  intros N H. destruct (multipart_spec (join v pieces) v) as [J [K L]]. apply (join_unique v); trivial.
  intro E. rewrite E in L. unfold zlen in L. cbn [List.length] in L. lia.
Qed.

Lemma py_index_nth {A} (l : list A) k x : nth_error l k = Some x -> py_index l (Z.of_nat k) = Ok x.
Proof.
  intro H. assert (k < List.length l)%nat by (apply nth_error_Some; congruence). unfold py_index, zlen.
  replace (Z.of_nat k <? 0) with false by lia. replace ((Z.of_nat k <? 0) || (Z.of_nat (List.length l) <=? Z.of_nat k)) with false by lia. now rewrite Nat2Z.id, H.
Qed.

Lemma draws_read nodes start row vs : Draws nodes start row vs -> map_res (py_index nodes) (map (fun x => x - start) row) = Ok vs.
Proof.
  unfold Draws. induction 1 as [|i v row vs [H1 H2] _ IH]; [reflexivity|]. cbn [map map_res]. replace (i - start) with (Z.of_nat (Z.to_nat (i - start))) by lia.
  rewrite (py_index_nth _ _ _ H2). cbn [bind]. now rewrite IH.
Qed.

Lemma closes_read nodes start row vs r : Draws nodes start row vs -> Closes vs r ->
  (do vs <- map_res (py_index nodes) (map (fun x => x - start) row); polygon_of vs) = Ok (mkpoly r []).
Proof. intros D C. rewrite (draws_read _ _ _ _ D). cbn [bind]. now apply polygon_closes. Qed.

Lemma map_minus_zero l : map (fun x => x - 0) l = l.
Proof. rewrite <- (map_id l) at 2. apply map_ext. intro. lia. Qed.

Lemma draws_no_break nodes start row vs v : 0 <= start -> v < 0 -> Draws nodes start row vs -> ~ In v row.
Proof.
  intros S V D. unfold Draws in D. induction D as [|i w row vs [H1 _] _ IH]; [easy|]. intros [E|I]; [lia|exact (IH I)].
Qed.

(** One element. *)
Lemma element_read g geo row : 0 <= start_index g -> (forall v, g_multi g = Some v -> v < 0) -> g_multi g = None \/ start_index g = 0 ->
  Depicts (g_nodes g) (start_index g) (g_multi g) row geo ->
  polygon_element g false (if 0 <? start_index g then map (fun x => x - start_index g) row else row) = Ok geo.
Proof.
  intros S V M D. assert (E0 : (if 0 <? start_index g then map (fun x => x - start_index g) row else row) = map (fun x => x - start_index g) row).
  { destruct (0 <? start_index g) eqn:Q; [reflexivity|]. replace (start_index g) with 0 by lia. now rewrite map_minus_zero. }
  rewrite E0. clear E0. unfold polygon_element, Depicts in *. destruct (g_multi g) as [v|].
  - destruct M as [M|M]; [discriminate|]. rewrite M in *. rewrite map_minus_zero. destruct D as [pieces [rings [-> [N [F ->]]]]].
    rewrite multipart_join; [|exact N|].
    + assert (E : map_res (fun comp => do vs <- map_res (py_index (g_nodes g)) comp; polygon_of vs) pieces = Ok (map (fun r => mkpoly r []) rings)).
      { clear N. induction F as [|piece r pieces rings [vs [D C]] F IH]; [reflexivity|]. cbn [map_res map]. pose proof (closes_read _ _ _ _ _ D C) as R. rewrite map_minus_zero in R.
        rewrite R. cbn [bind]. rewrite IH. reflexivity. }
      rewrite E. reflexivity.
    + intros p I. clear N. specialize (V v eq_refl). induction F as [|piece r pieces rings [vs [D C]] F IH]; [easy|]. destruct I as [<-|I]; [|exact (IH I)]. exact (draws_no_break _ 0 _ _ v (Z.le_refl 0) V D).
  - destruct D as [vs [r [D [C ->]]]]. cbn [map_res]. rewrite (closes_read _ _ _ _ _ D C). reflexivity.
Qed.

(** The mask. *)
Lemma masked_spec g use_mask k : masked_at g use_mask None k = true <-> use_mask = true /\ Masked (g_mask g) k.
Proof.
  unfold masked_at, has_masked_values, Masked. destruct (g_mask g) as [m|].
  - split.
    + intro H. destruct use_mask; [|discriminate]. split; [reflexivity|]. exists m. split; [reflexivity|]. cbn [andb] in H. rewrite orb_false_r in H.
      apply andb_true_iff in H. destruct H as [_ H]. revert H. generalize k. induction m as [|b m IH]; intros [|k0] H; cbn in H |- *; try discriminate; [now rewrite H|now apply IH].
    + intros [-> [m' [E N]]]. injection E as <-. cbn [andb]. rewrite orb_false_r. assert (nth k m false = true) as -> by (revert N; generalize k; induction m as [|b m IH]; intros [|k0] N; cbn in N |- *; try discriminate; [now injection N|now apply IH]).
      assert (existsb (fun b => b) m = true) as ->; [|reflexivity]. apply existsb_exists. exists true. split; [exact (nth_error_In _ _ N)|reflexivity].
  - rewrite andb_false_r. split; [discriminate|]. intros [_ [m [E _]]]. discriminate.
Qed.

(** Reading rows that are copied. *)
Lemma visit_rows g s masked : forall gs k, (s = Ragged (rows_of s) \/ s = Table (rows_of s)) ->
  0 <= start_index g -> (forall v, g_multi g = Some v -> v < 0) -> g_multi g = None \/ start_index g = 0 ->
  (forall j geo, nth_error gs j = Some geo -> exists row, nth_error (rows_of s) (k + j)%nat = Some row /\ Depicts (g_nodes g) (start_index g) (g_multi g) row geo) ->
  visit g false masked (seq k (List.length gs)) s = (s, Ok (map (fun p => if masked (fst p) then None else Some (snd p)) (combine (seq k (List.length gs)) gs))).
Proof.
  induction gs as [|geo gs IH]; intros k S0 St V M H; [reflexivity|]. cbn [List.length seq visit combine map fst snd].
  assert (Hn : forall j g0, nth_error gs j = Some g0 -> exists row, nth_error (rows_of s) (S k + j)%nat = Some row /\ Depicts (g_nodes g) (start_index g) (g_multi g) row g0).
  { intros j g0 Hj. replace (S k + j)%nat with (k + S j)%nat by lia. exact (H (S j) g0 Hj). }
  specialize (IH (S k) S0 St V M Hn). destruct (masked k) eqn:Mk.
  - rewrite IH. reflexivity.
  - destruct (H 0%nat geo eq_refl) as [row [R D]]. rewrite Nat.add_0_r in R.
    assert (C : connectivity s k = Ok row) by (destruct S0 as [-> | ->]; cbn [connectivity rows_of] in *; now rewrite R).
    assert (B : subtract_start s k (start_index g) = s) by (unfold subtract_start; destruct (0 <? start_index g); destruct S0 as [-> | ->]; reflexivity).
    rewrite C, B, (element_read g geo row St V M D), IH. reflexivity.
Qed.

Lemma F2_nth {A B} (R : A -> B -> Prop) l l' : Forall2 R l l' -> List.length l = List.length l' /\ forall j y, nth_error l' j = Some y -> exists x, nth_error l j = Some x /\ R x y.
Proof.
  induction 1 as [|x y l l' H _ [L IH]]; [split; [reflexivity|intros [|j] y0 E; discriminate]|]. split; [cbn; congruence|].
  intros [|j] y0 E; [injection E as <-; exists x; now split|exact (IH j y0 E)].
Qed.

Definition expected (masked : nat -> bool) (k : nat) (gs : list geom) : list (option geom) :=
  map (fun p => if masked (fst p) then None else Some (snd p)) (combine (seq k (List.length gs)) gs).

Lemma expected_nth masked : forall gs k j, nth_error (expected masked k gs) j = match nth_error gs j with Some geo => Some (if masked (k + j)%nat then None else Some geo) | None => None end.
Proof.
  unfold expected. induction gs as [|geo gs IH]; intros k [|j]; cbn [List.length seq combine map nth_error fst snd]; try reflexivity.
  - now rewrite Nat.add_0_r.
  - rewrite IH. replace (S k + j)%nat with (k + S j)%nat by lia. reflexivity.
Qed.
Lemma expected_length masked gs k : List.length (expected masked k gs) = List.length gs.
Proof. unfold expected. rewrite map_length, combine_length, seq_length. lia. Qed.

Lemma expected_shows g use_mask gs : Shows (if use_mask : bool then g_mask g else None) gs (expected (masked_at g use_mask None) 0 gs).
Proof.
  split; [apply expected_length|]. intros k geo E. rewrite expected_nth, E, Nat.add_0_l. pose proof (masked_spec g use_mask k) as MS.
  destruct (masked_at g use_mask None k) eqn:Mk.
  - split; [reflexivity|]. intro N. exfalso. apply N. destruct (proj1 MS eq_refl) as [-> Q]. exact Q.
  - split; [|reflexivity]. intro N. exfalso. destruct use_mask; [|destruct N as [m [E0 _]]; discriminate]. assert (false = true); [apply MS; now split|discriminate].
Qed.

Lemma set_index_same g s : g_index g = Some s -> set_index g (Some s) = g.
Proof. intros <-. destruct g; reflexivity. Qed.

(** Reading a mesh stored in rows. *)
Lemma iter_rows_hint g gs use_mask hint : Mesh g gs -> Ugrid g -> g_multi g = None \/ start_index g = 0 ->
  iter_geometries g use_mask hint false = (g, Ok (expected (masked_at g use_mask hint) 0 gs)).
Proof.
  intros [P [s [I [F [V [St L]]]]]] [rows U] M.
  assert (S0 : s = Ragged (rows_of s) \/ s = Table (rows_of s)) by (destruct U as [U|U]; rewrite I in U; injection U as ->; [now left|now right]).
  destruct (F2_nth _ _ _ F) as [FL FN].
  assert (N : n_elements g = List.length gs) by (unfold n_elements; rewrite I; destruct S0 as [-> | ->]; exact FL).
  unfold iter_geometries. rewrite P, I, N.
  rewrite (visit_rows g s (masked_at g use_mask hint) gs 0%nat S0 St V M FN).
  destruct (g_multi g) as [v|] eqn:GM; rewrite set_index_same by exact I; [|reflexivity]. replace (v <? 0) with true by (specialize (V v eq_refl); lia). reflexivity.
Qed.

Lemma iter_rows g gs use_mask : Mesh g gs -> Ugrid g -> g_multi g = None \/ start_index g = 0 ->
  exists l, iter_geometries g use_mask None false = (g, Ok l) /\ Shows (if use_mask : bool then g_mask g else None) gs l.
Proof.
  intros H U M. exists (expected (masked_at g use_mask None) 0 gs). split; [now apply iter_rows_hint|apply expected_shows].
Qed.
