(** Proofs about splitting polygons. *)
From Coq Require Import QArith Lia Lqa.
From Verif Require Import Py Lib Spec ChunkModel ChunkSpec SplitProofs PolyModel PolySpec.
Local Close Scope Q_scope.
Local Open Scope nat_scope.

Lemma covered_app {P} (c : P -> point -> bool) l l' pt : covered c (l ++ l') pt = covered c l pt + covered c l' pt.
Proof. unfold covered. now rewrite filter_app, app_length. Qed.

Lemma sum_cons x l : list_sum (x :: l) = x + list_sum l.
Proof. reflexivity. Qed.
Lemma covered_concat {P} (c : P -> point -> bool) ll pt : covered c (concat ll) pt = list_sum (map (fun l => covered c l pt) ll).
Proof. induction ll as [|l t IH]; auto. cbn [concat map]. rewrite sum_cons, covered_app, IH. reflexivity. Qed.

Lemma multi_polygons {P} e (l : list (geometry P)) r : multipolygon P e l = Ok r -> r = flat_map polygons l.
Proof.
  revert r. induction l as [|g t IH]; intros r E; cbn [multipolygon flat_map] in *; [now injection E as <-|].
  destruct g as [p|l|l|]; try discriminate; cbn [polygons app].
  - destruct (multipolygon P e t) as [r'|]; [|discriminate]. cbn [bind] in E. injection E as <-. f_equal. now apply IH.
  - now apply IH.
Qed.

Lemma multi_ok {P} e (l : list (geometry P)) : (forall g, In g l -> (exists p, g = Single p) \/ g = Nothing) ->
  multipolygon P e l = Ok (flat_map polygons l).
Proof.
  induction l as [|g t IH]; intro A; auto. cbn [multipolygon flat_map]. rewrite IH by (intros; apply A; now right).
  destruct (A g (or_introl eq_refl)) as [[p ->]| ->]; reflexivity.
Qed.

Lemma multi_err {P} e (l : list (geometry P)) : (exists g, In g l /\ match g with Several _ | Mixed _ => True | _ => False end) ->
  multipolygon P e l = Err e.
Proof.
  induction l as [|g t IH]; intros [g0 [I T]]; [easy|]. cbn [multipolygon].
  destruct g as [p|l|l|]; auto.
  - destruct I as [<-|I]; [easy|]. rewrite IH; [reflexivity | now exists g0].
  - destruct I as [<-|I]; [easy|]. apply IH. now exists g0.
Qed.

Lemma flat_map_flat_map {A B C} (f : B -> list C) (g : A -> list B) l : flat_map f (flat_map g l) = flat_map (fun a => flat_map f (g a)) l.
Proof. induction l as [|a t IH]; auto. cbn [flat_map]. now rewrite flat_map_app, IH. Qed.

Lemma map_res_Forall2 {A B} (f : A -> res B) l r : map_res f l = Ok r -> Forall2 (fun a b => f a = Ok b) l r.
Proof.
  revert r. induction l as [|a t IH]; intros r E; cbn [map_res] in E; [injection E as <-; constructor|].
  destruct (f a) as [b|] eqn:F; [|discriminate]. cbn [bind] in E. destruct (map_res f t) as [r'|]; [|discriminate].
  cbn [bind] in E. injection E as <-. constructor; auto.
Qed.

Section Library.
Variable P H V : Type.
Variable holes : P -> list H.
Variable hole_centroid : H -> point.
Variable hole_bounds : H -> qbox.
Variable bounds : P -> qbox.
Variable covers : P -> point -> bool.
Variable cut : P -> qbox -> geometry P.
Variable meets : P -> qbox -> bool.
Variable good : P -> Prop.
Variable e : exc.
Variable Lib : PolygonLibrary covers holes hole_centroid hole_bounds bounds cut meets good.
Notation cov := (covered covers).
Notation split_part := (split_part P H holes hole_centroid bounds cut e).
Notation interior_boxes := (interior_boxes P H hole_centroid bounds).

Lemma cov_false p pt : covers p pt = false -> cov [p] pt = 0.
Proof. intro E. unfold covered. cbn [filter]. now rewrite E. Qed.

(** A point off the lines is in one of the four boxes of a hole and beyond the others. *)
Lemma boxes_cover p h pt : good p -> ~ (fst pt == fst (hole_centroid h))%Q -> ~ (snd pt == snd (hole_centroid h))%Q ->
  cov (flat_map polygons (map (cut p) (interior_boxes p h))) pt = cov [p] pt.
Proof.
  intros Gp Nx Ny. destruct (covers p pt) eqn:C.
  - pose proof (pl_bounds _ _ _ _ _ _ _ _ Lib p pt Gp C) as W. unfold PolyModel.interior_boxes.
    destruct (bounds p) as [[[x0 y0] x1] y1] eqn:Eb. destruct (hole_centroid h) as [cx cy] eqn:Ec. destruct pt as [x y].
    unfold Within in W. cbn [fst snd] in *. destruct W as [Wx Wy].
    assert (Bs : (0 < buffer_split)%Q) by reflexivity.
    cbn [map flat_map]. rewrite !covered_app. change (cov [] (x, y)) with 0.
    assert (Lx : (x < cx \/ cx < x)%Q) by (destruct (Q_dec x cx) as [[?|?]|?]; auto; now elim Nx).
    assert (Ly : (y < cy \/ cy < y)%Q) by (destruct (Q_dec y cy) as [[?|?]|?]; auto; now elim Ny).
    assert (I : forall b, Within b (x, y) -> cov (polygons (cut p b)) (x, y) = cov [p] (x, y)) by (intros; now apply (pl_in _ _ _ _ _ _ _ _ Lib)).
    assert (O : forall b, Beyond b (x, y) -> cov (polygons (cut p b)) (x, y) = 0) by (intros; now apply (pl_out _ _ _ _ _ _ _ _ Lib)).
    unfold Within, Beyond in I, O. cbn [fst snd] in I, O.
    destruct Lx as [Lx|Lx], Ly as [Ly|Ly].
    + rewrite (I (_, _, _, _)), (O (cx, _, _, _)), (O (cx, _, _, _)), (O (_, cy, _, _)) by (first [split; split; lra | lra]). lia.
    + rewrite (O (_, _, cx, cy)), (O (cx, _, _, _)), (O (cx, _, _, _)), (I (_, cy, _, _)) by (first [split; split; lra | lra]). lia.
    + rewrite (O (_, _, cx, cy)), (I (cx, _, _, cy)), (O (_, cy, _, _)), (O (_, cy, _, _)) by (first [split; split; lra | lra]). lia.
    + rewrite (O (_, _, cx, cy)), (O (cx, _, _, cy)), (I (cx, cy, _, _)), (O (_, cy, _, _)) by (first [split; split; lra | lra]). lia.
  - rewrite (cov_false p pt C). generalize (interior_boxes p h). intro l. induction l as [|b t IH]; auto.
    cbn [map flat_map]. rewrite covered_app, IH, (pl_only _ _ _ _ _ _ _ _ Lib p b pt Gp C). reflexivity.
Qed.

Lemma part_cover p l pt : good p -> OffHoleLines holes hole_centroid p pt -> split_part p = Ok l -> cov l pt = length (holes p) * cov [p] pt.
Proof.
  intros Gp Off E. unfold PolyModel.split_part in E. apply multi_polygons in E. subst l. unfold OffHoleLines in Off.
  revert Off. generalize (holes p) at 1 2 3. intro hs. induction hs as [|h t IH]; intro Off; auto.
  cbn [flat_map length]. rewrite flat_map_app, covered_app, IH by (intros; apply Off; now right).
  destruct (Off h (or_introl eq_refl)) as [Nx Ny]. rewrite boxes_cover by auto. lia.
Qed.

Lemma part_no_holes p h l q : good p -> holes p = [h] -> split_part p = Ok l -> In q l -> holes q = [].
Proof.
  intros Gp Eh E I. unfold PolyModel.split_part in E. apply multi_polygons in E. rewrite Eh in E. cbn [flat_map] in E. rewrite app_nil_r in E. subst l.
  apply in_flat_map in I as [g [Ig Iq]]. apply in_map_iff in Ig as [b [<- Ib]].
  destruct (holes q) as [|h' t] eqn:Eq; auto. exfalso.
  destruct (pl_holes _ _ _ _ _ _ _ _ Lib p b q h' Gp Iq) as [h0 [I0 In0]]; [rewrite Eq; now left|].
  rewrite Eh in I0. destruct I0 as [<-|[]].
  assert (W : Within (hole_bounds h) (hole_centroid h)) by (apply (pl_centroid _ _ _ _ _ _ _ _ Lib p h Gp); rewrite Eh; now left).
  unfold PolyModel.interior_boxes in Ib. destruct (bounds p) as [[[x0 y0] x1] y1]. destruct (hole_centroid h) as [cx cy].
  destruct (hole_bounds h) as [[[a0 b0] a1] b1]. unfold Within in W. cbn [fst snd] in W. destruct W as [Wx Wy].
  destruct Ib as [<-|[<-|[<-|[<-|[]]]]]; unfold Inside in In0; lra.
Qed.

Lemma split_cover g r pt : (forall p, In p g -> good p /\ OffHoleLines holes hole_centroid p pt) ->
  split P H holes hole_centroid bounds cut e g = Ok r ->
  cov r pt = list_sum (map (fun p => Nat.max 1 (length (holes p)) * cov [p] pt) g).
Proof.
  intros A E. unfold split in E. destruct (interior_count P H holes g =? 0); [discriminate|].
  match type of E with bind ?m _ = _ => destruct m as [rr|] eqn:M; [|discriminate] end. cbn [bind] in E. injection E as <-.
  apply map_res_Forall2 in M. rewrite covered_concat. induction M as [|p l g' rr' F M IH]; auto.
  cbn [map]; rewrite ?sum_cons. rewrite IH by (intros; apply A; now right). f_equal. destruct (A p (or_introl eq_refl)) as [Gp Off].
  destruct (holes p) as [|h t] eqn:Eh.
  - injection F as <-. cbn [length]. lia.
  - rewrite (part_cover p l pt Gp Off F), Eh. cbn [length]. lia.
Qed.

Lemma split_no_holes g r q : (forall p, In p g -> good p /\ length (holes p) <= 1) ->
  split P H holes hole_centroid bounds cut e g = Ok r -> In q r -> holes q = [].
Proof.
  intros A E I. unfold split in E. destruct (interior_count P H holes g =? 0); [discriminate|].
  match type of E with bind ?m _ = _ => destruct m as [rr|] eqn:M; [|discriminate] end. cbn [bind] in E. injection E as <-.
  apply map_res_Forall2 in M. apply in_concat in I as [l [Il Iq]]. revert A. induction M as [|p l' g' rr' F M IH]; intro A; [easy|].
  destruct Il as [->|Il]; [|apply IH; auto; intros; apply A; now right].
  destruct (A p (or_introl eq_refl)) as [Gp Lh]. destruct (holes p) as [|h t] eqn:Eh.
  - injection F as <-. destruct Iq as [<-|[]]. exact Eh.
  - destruct t; [|cbn in Lh; lia]. exact (part_no_holes p h l q Gp Eh F Iq).
Qed.

(** ** Many nodes *)
Variable node_count : P -> Z.
Notation node_splits := (node_splits P bounds cut meets node_count).
Notation by_nodes := (split_by_node_threshold P bounds cut meets node_count e).

Lemma members_polygons (g : geometry P) : flat_map polygons (members P g) = polygons g.
Proof.
  assert (S : forall l : list P, flat_map polygons (map Single l) = l) by (induction l as [|x t IH]; [auto | cbn [map flat_map polygons app]; now rewrite IH]).
  destruct g; cbn [members polygons flat_map app]; auto. rewrite flat_map_app, S. cbn. apply app_nil_r.
Qed.

Lemma sum_exactly {A} (Q : A -> Prop) (f : A -> nat) (l : list A) c :
  ExactlyOne Q l -> (forall a, In a l -> Q a -> f a = c) -> (forall a, In a l -> ~ Q a -> f a = 0) -> list_sum (map f l) = c.
Proof.
  intros [k [x [E [Qx U]]]] Yes No. revert k E U Yes No. induction l as [|a t IH]; intros k E U Yes No; [destruct k; discriminate|].
  cbn [map]; rewrite ?sum_cons. destruct k as [|k]; cbn [nth_error] in E.
  - injection E as ->. rewrite (Yes x) by (auto; now left). assert (Z : list_sum (map f t) = 0); [|lia].
    assert (N : forall b, In b t -> f b = 0).
    { intros b I. apply No; [now right|]. intro Qb. apply In_nth_error in I as [j Ej]. specialize (U (S j) b Ej Qb). discriminate. }
    clear - N. induction t as [|b t IH]; auto. cbn [map]; rewrite ?sum_cons. rewrite (N b) by now left. apply IH. intros; apply N; now right.
  - rewrite (No a); [|now left|].
    + rewrite (IH k); auto; try (intros; first [apply Yes | apply No]; auto; now right).
      intros k' x' E' Q'. specialize (U (S k') x' E' Q'). lia.
    + intro Qa. specialize (U 0 a eq_refl Qa). discriminate.
Qed.

Lemma ceil_sqrt_pos n : (0 < n)%Z -> (0 < ceil_sqrt n)%Z.
Proof. intro Hn. unfold ceil_sqrt. pose proof (Z.sqrt_nonneg n). destruct (Z.eqb_spec (Z.sqrt n * Z.sqrt n) n); lia. Qed.
Lemma split_shape_pos n t : (0 < t)%Z -> (0 < n)%Z -> (0 < split_shape n t)%Z.
Proof.
  intros Ht Hn. unfold split_shape. destruct (ceil_div n t =? 1)%Z; [lia|]. apply ceil_sqrt_pos. unfold ceil_div.
  assert ((- n) / t < 0)%Z by (apply Z.div_lt_upper_bound; lia). lia.
Qed.

Lemma splits_cover p thr pt : good p -> (0 < thr)%Z -> (0 < node_count p)%Z -> OffGridLines (bounds p) (split_shape (node_count p) thr) pt ->
  cov (flat_map polygons (node_splits p thr)) pt = cov [p] pt.
Proof.
  intros Gp Ht Hn Off. unfold PolyModel.node_splits. set (s := split_shape (node_count p) thr) in *.
  assert (Hs : (0 < s)%Z) by (apply split_shape_pos; auto).
  rewrite flat_map_flat_map, flat_map_concat_map, covered_concat, map_map.
  destruct (covers p pt) eqn:C.
  - pose proof (pl_bounds _ _ _ _ _ _ _ _ Lib p pt Gp C) as W. destruct (bounds p) as [[[x0 y0] x1] y1] eqn:Eb. destruct pt as [x y].
    unfold Within in W. cbn [fst snd] in W.
    apply sum_exactly with (Q := InQBox x y).
    + apply split_unique; try exact Hs; lra.
    + intros b I Q. apply In_nth_error in I as [k Ek]. rewrite split_nth in Ek by exact Hs.
      destruct (Z.of_nat k <? s * s)%Z eqn:L; [|discriminate]. cbv zeta in Ek. injection Ek as <-.
      assert (B : (0 <= Z.of_nat k / s < s)%Z) by (split; [apply Z.div_pos; lia|apply Z.div_lt_upper_bound; lia]).
      pose proof (Z.mod_pos_bound (Z.of_nat k) s Hs) as B'. unfold InQBox in Q. unfold OffGridLines in Off. cbn [fst snd] in Off.
      destruct (Off (Z.of_nat k / s)%Z ltac:(lia)) as [_ Oy]. destruct (Off (Z.of_nat k mod s)%Z ltac:(lia)) as [Ox _].
      assert (Wi : Within (edge (x0 + 0) (x1 + 0) s (Z.of_nat k mod s), edge (y0 + 0) (y1 + 0) s (Z.of_nat k / s),
                           edge (x0 + 0) (x1 + 0) s (Z.of_nat k mod s + 1), edge (y0 + 0) (y1 + 0) s (Z.of_nat k / s + 1)) (x, y)).
      { assert (Sx : forall a b i, (edge (a + 0) (b + 0) s i == a + inject_Z i * ((b - a) / inject_Z s))%Q).
        { intros a b i. unfold edge. assert (D : (b + 0 - (a + 0) == b - a)%Q) by ring. rewrite D. ring. }
        unfold Within. cbn [fst snd]. destruct Q as [[Qx Qx'] [Qy Qy']]. split; split; auto.
        - apply Qle_lteq in Qx as [Qx|Qx]; auto. elim Ox. rewrite <- Qx. apply Sx.
        - apply Qle_lteq in Qy as [Qy|Qy]; auto. elim Oy. rewrite <- Qy. apply Sx. }
      rewrite (pl_meets _ _ _ _ _ _ _ _ Lib p _ (x, y) Gp Wi C), members_polygons. now apply (pl_in _ _ _ _ _ _ _ _ Lib).
    + intros b I N. apply In_nth_error in I as [k Ek]. rewrite split_nth in Ek by exact Hs.
      destruct (Z.of_nat k <? s * s)%Z eqn:L; [|discriminate]. cbv zeta in Ek. injection Ek as <-.
      match goal with |- context [meets p ?b] => destruct (meets p b); [|reflexivity] end. rewrite members_polygons.
      apply (pl_out _ _ _ _ _ _ _ _ Lib); auto. 
      assert (B : (0 <= Z.of_nat k / s < s)%Z) by (split; [apply Z.div_pos; lia|apply Z.div_lt_upper_bound; lia]).
      pose proof (Z.mod_pos_bound (Z.of_nat k) s Hs) as B'. unfold OffGridLines in Off. cbn [fst snd] in Off.
      destruct (Off (Z.of_nat k / s + 1)%Z ltac:(lia)) as [_ Oy]. destruct (Off (Z.of_nat k mod s + 1)%Z ltac:(lia)) as [Ox _].
      assert (Sx : forall a b i, (edge (a + 0) (b + 0) s i == a + inject_Z i * ((b - a) / inject_Z s))%Q).
      { intros a b i. unfold edge. assert (D : (b + 0 - (a + 0) == b - a)%Q) by ring. rewrite D. ring. }
      unfold InQBox in N. unfold Beyond. cbn [fst snd]. rewrite <- Sx in Ox, Oy.
      destruct (Qlt_le_dec x (edge (x0 + 0) (x1 + 0) s (Z.of_nat k mod s))) as [?|X1]; auto.
      destruct (Qlt_le_dec (edge (x0 + 0) (x1 + 0) s (Z.of_nat k mod s + 1)) x) as [?|X2]; auto.
      destruct (Qlt_le_dec y (edge (y0 + 0) (y1 + 0) s (Z.of_nat k / s))) as [?|Y1]; auto.
      destruct (Qlt_le_dec (edge (y0 + 0) (y1 + 0) s (Z.of_nat k / s + 1)) y) as [?|Y2]; auto.
      exfalso. apply N. apply Qle_lteq in X2 as [X2|X2]; [|now elim Ox]. apply Qle_lteq in Y2 as [Y2|Y2]; [|now elim Oy]. lra.
  - rewrite (cov_false p pt C). generalize (create_split_polygons (bounds p) (s, s) (0, 0, 0, 0)%Q). intro l. induction l as [|b t IH]; auto.
    cbn [map]; rewrite ?sum_cons. rewrite IH. destruct (meets p b); [|reflexivity]. rewrite members_polygons, (pl_only _ _ _ _ _ _ _ _ Lib p b pt Gp C). reflexivity.
Qed.

Lemma by_nodes_cover g thr r pt : (0 < thr)%Z ->
  (forall p, In p g -> good p /\ ((thr < node_count p)%Z -> OffGridLines (bounds p) (split_shape (node_count p) thr) pt)) ->
  by_nodes g thr = Ok r -> cov r pt = cov g pt.
Proof.
  intros Ht A E. unfold PolyModel.split_by_node_threshold in E. apply multi_polygons in E. subst r.
  induction g as [|p t IH]; auto. cbn [flat_map]. rewrite flat_map_app, covered_app, IH by (intros; apply A; now right).
  destruct (A p (or_introl eq_refl)) as [Gp Off]. change (p :: t) with ([p] ++ t). rewrite covered_app. f_equal.
  destruct (Z.ltb_spec thr (node_count p)) as [L|L]; [|reflexivity]. apply splits_cover; auto; lia.
Qed.

Lemma by_nodes_raises g thr p b : In p g -> (thr < node_count p)%Z ->
  In b (create_split_polygons (bounds p) (split_shape (node_count p) thr, split_shape (node_count p) thr) (0, 0, 0, 0)%Q) -> meets p b = true ->
  (exists l, cut p b = Mixed l) -> by_nodes g thr = Err e.
Proof.
  intros I L Ib M [l C]. unfold PolyModel.split_by_node_threshold. apply multi_err. exists (Mixed []). split; auto.
  apply in_flat_map. exists p. split; auto. assert (thr <? node_count p = true)%Z as -> by lia.
  unfold PolyModel.node_splits. apply in_flat_map. exists b. split; auto. rewrite M, C. cbn [members]. apply in_or_app. right. now left.
Qed.
End Library.
