From Verif Require Import Py Lib Spec PartitionModel NdModel NdSpec NdProofs MaskProofs CoordModel CoordSpec SelectProofs RegridModel RegridProofs EsmfModel EsmfSpec.
Local Close Scope Q_scope.
Local Open Scope Z_scope.

(** ** Two and three dimensions *)
Lemma index2 (m n : Z) idx : IndexOf [m; n] idx -> exists i j, idx = [i; j] /\ 0 <= i < m /\ 0 <= j < n.
Proof.
  intros H. inversion H as [|? i ? l Hi H']; subst. inversion H' as [|? j ? l' Hj H'']; subst. inversion H''; subst. eauto.
Qed.

Lemma turn2 {A} (v : nd A) x nx y ny : x <> y -> 0 <= nx -> 0 <= ny -> nd_shape v = [nx; ny] ->
  exists r, broadcast_variable (mknvar [(x, nx); (y, ny)] v None) [y; x] = Ok (mknvar [(y, ny); (x, nx)] r None) /\ nd_shape r = [ny; nx] /\
    forall i j, 0 <= i < ny -> 0 <= j < nx -> nd_at r [i; j] = nd_at v [j; i].
Proof.
  intros Hne Hx Hy Sh. set (w := mknvar [(x, nx); (y, ny)] v None).
  assert (G : GoodVar w).
  { split; [|split; [|split]]; cbn; auto. repeat constructor; cbn; intuition congruence. }
  assert (Sn : SameNames (nv_names w) [y; x]).
  { split; [apply G|]. split; [repeat constructor; cbn; intuition congruence|]. cbn. intuition congruence. }
  destruct (broadcast_variable_spec w [y; x] G Sn) as [v' [E [Gv [Hd [Hv Hm]]]]].
  assert (Dy : dsize (nv_dims w) y = ny).
  { unfold dsize, w. cbn. destruct (String.eqb y x) eqn:Eb; [apply String.eqb_eq in Eb; congruence|]. rewrite String.eqb_refl. reflexivity. }
  assert (Dx : dsize (nv_dims w) x = nx) by (unfold dsize, w; cbn; rewrite String.eqb_refl; reflexivity).
  cbn [map] in Hd. rewrite Dy, Dx in Hd.
  destruct v' as [d r k]. cbn in Hd. subst d. cbn [nv_mask w] in Hm. destruct k; [destruct Hm|].
  exists r. split; [exact E|]. destruct Gv as [_ [_ [Sr _]]]. cbn in Sr. split; [exact Sr|].
  intros i j Hi Hj. set (f := fun n => if String.eqb n y then i else j).
  assert (Fy : f y = i) by (unfold f; rewrite String.eqb_refl; reflexivity).
  assert (Fx : f x = j) by (unfold f; destruct (String.eqb x y) eqn:Eb; [apply String.eqb_eq in Eb; congruence|reflexivity]).
  specialize (Hv f). cbn [map w nv_names nv_dims fst nv_value] in Hv. rewrite Fy, Fx in Hv. apply Hv.
  cbn [w nv_dims] in Dy, Dx. intros n [<-|[<-|[]]]; rewrite ?Fy, ?Fx, ?Dy, ?Dx; assumption.
Qed.

Lemma turn3 {A} (v : nd A) x nx y ny : x <> y -> x <> CORNERS -> y <> CORNERS -> 0 <= nx -> 0 <= ny -> nd_shape v = [nx; ny; 4] ->
  exists r, broadcast_variable (mknvar [(x, nx); (y, ny); (CORNERS, 4)] v None) [y; x; CORNERS] =
      Ok (mknvar [(y, ny); (x, nx); (CORNERS, 4)] r None) /\ nd_shape r = [ny; nx; 4] /\
    forall i j k, 0 <= i < ny -> 0 <= j < nx -> 0 <= k < 4 -> nd_at r [i; j; k] = nd_at v [j; i; k].
Proof.
  intros Hne Hxc Hyc Hx Hy Sh. set (c := CORNERS) in *. clearbody c. set (w := mknvar [(x, nx); (y, ny); (c, 4)] v None).
  assert (G : GoodVar w).
  { split; [|split; [|split]]; cbn; auto; [repeat constructor; cbn; intuition congruence|]. repeat constructor; lia. }
  assert (Sn : SameNames (nv_names w) [y; x; c]).
  { split; [apply G|]. split; [repeat constructor; cbn; intuition congruence|]. cbn. intuition congruence. }
  destruct (broadcast_variable_spec w [y; x; c] G Sn) as [v' [E [Gv [Hd [Hv Hm]]]]].
  assert (Dx : dsize (nv_dims w) x = nx) by (unfold dsize, w; cbn; rewrite String.eqb_refl; reflexivity).
  assert (Dy : dsize (nv_dims w) y = ny).
  { unfold dsize, w. cbn. destruct (String.eqb_spec y x); [congruence|]. rewrite String.eqb_refl. reflexivity. }
  assert (Dc : dsize (nv_dims w) c = 4).
  { unfold dsize, w. cbn. destruct (String.eqb_spec c x); [congruence|]. destruct (String.eqb_spec c y); [congruence|]. rewrite String.eqb_refl. reflexivity. }
  cbn [map] in Hd. rewrite Dy, Dx, Dc in Hd.
  destruct v' as [d r k]. cbn in Hd. subst d. cbn [nv_mask w] in Hm. destruct k; [destruct Hm|].
  exists r. split; [exact E|]. destruct Gv as [_ [_ [Sr _]]]. cbn in Sr. split; [exact Sr|].
  intros i j k Hi Hj Hk. set (f := fun n => if String.eqb n y then i else if String.eqb n x then j else k).
  assert (Fy : f y = i) by (unfold f; rewrite String.eqb_refl; reflexivity).
  assert (Fx : f x = j) by (unfold f; destruct (String.eqb_spec x y); [congruence|]; rewrite String.eqb_refl; reflexivity).
  assert (Fc : f c = k) by (unfold f; destruct (String.eqb_spec c y); [congruence|]; destruct (String.eqb_spec c x); [congruence|reflexivity]).
  specialize (Hv f). cbn [map w nv_names nv_dims fst nv_value] in Hv. rewrite Fy, Fx, Fc in Hv. apply Hv.
  cbn [w nv_dims] in Dy, Dx, Dc. intros n [<-|[<-|[<-|[]]]]; rewrite ?Fy, ?Fx, ?Fc, ?Dy, ?Dx, ?Dc; assumption.
Qed.

(** ** To ESMF *)
Lemma bmatch_same l : bmatch l l = true.
Proof. induction l as [|a l IH]; [reflexivity|]. cbn. rewrite Z.eqb_refl, IH. reflexivity. Qed.
Lemma assign2 {A} (v : nd A) a b : nd_shape v = [a; b] -> exists r, np_assign v [a; b] = Ok r /\ nd_shape r = [a; b] /\
  forall i j, 0 <= i < a -> 0 <= j < b -> nd_at r [i; j] = nd_at v [i; j].
Proof.
  intros Sh. unfold np_assign. rewrite Sh, bmatch_same. eexists. split; [reflexivity|]. split; [reflexivity|].
  intros i j Hi Hj. cbn. destruct (b =? 1) eqn:Eb, (a =? 1) eqn:Ea; repeat f_equal; lia.
Qed.
Lemma swap2 {A} (v : nd A) a b : nd_shape v = [a; b] -> nd_shape (np_swapaxes 0 1 v) = [b; a] /\
  forall i j, nd_at (np_swapaxes 0 1 v) [i; j] = nd_at v [j; i].
Proof. intros Sh. unfold np_swapaxes. cbn. rewrite Sh. split; reflexivity. Qed.

Section G.
Context {A : Type} (zero : A).

Lemma stacked_ok (g : cgrid A) : GoodGrid g ->
  let '(y, x) := stacked zero (cg_coords g) in
  nd_shape y = [snd (cg_yd g); snd (cg_xd g)] /\ nd_shape x = [snd (cg_yd g); snd (cg_xd g)] /\
  forall i j, (nd_at y [i; j], nd_at x [i; j]) = center zero g i j.
Proof.
  intros G. unfold GoodGrid, center in *. destruct (cg_yd g) as [yn ny], (cg_xd g) as [xn nx]. destruct G as [_ [_ [_ [_ [_ G]]]]].
  destruct (cg_coords g) as [ys xs b|y x c]; cbn.
  - destruct G as [-> [-> _]]. auto.
  - destruct G as [-> [-> _]]. auto.
Qed.

Lemma expand_ok (g : cgrid A) : GoodGrid g -> has_bounds (cg_coords g) = true ->
  exists y x cy cx, expand zero (cg_coords g) = Arrays y x (Some (cy, cx)) /\
    nd_shape y = [snd (cg_yd g); snd (cg_xd g)] /\ nd_shape x = [snd (cg_yd g); snd (cg_xd g)] /\
    nd_shape cy = [snd (cg_yd g); snd (cg_xd g); 4] /\ nd_shape cx = [snd (cg_yd g); snd (cg_xd g); 4] /\
    (forall i j, (nd_at y [i; j], nd_at x [i; j]) = center zero g i j) /\
    forall i j, ring zero g i j = Some (map (fun k => (nd_at cy [i; j; k], nd_at cx [i; j; k])) [0; 1; 2; 3]).
Proof.
  intros G B. unfold GoodGrid, center, ring in *. destruct (cg_yd g) as [yn ny], (cg_xd g) as [xn nx]. destruct G as [_ [_ [_ [_ [_ G]]]]].
  destruct (cg_coords g) as [ys xs [[yb xb]|]|y x [[cy cx]|]]; try discriminate B.
  - destruct G as [Ly [Lx [By Bx]]]. cbn [expand stacked]. do 4 eexists. split; [reflexivity|]. cbn. rewrite Ly, Lx, By, Bx.
    repeat (split; [reflexivity|]). intros i j. destruct (nth (Z.to_nat i) yb (zero, zero)), (nth (Z.to_nat j) xb (zero, zero)). reflexivity.
  - destruct G as [Sy [Sx [S1 S2]]]. exists y, x, cy, cx. cbn. auto 10.
Qed.

Lemma corners_agree (g : cgrid A) (cy cx : nd A) :
  (forall i j, ring zero g i j = Some (map (fun k => (nd_at cy [i; j; k], nd_at cx [i; j; k])) [0; 1; 2; 3])) -> Touching zero g ->
  CornersAgree (snd (cg_yd g)) (snd (cg_xd g)) cy /\ CornersAgree (snd (cg_yd g)) (snd (cg_xd g)) cx.
Proof.
  intros R [T1 T2]. unfold InGrid in *.
  split; (split; [intros i j Hi Hj Hj'; destruct (T1 i j _ _ ltac:(lia) ltac:(lia) (R i j) (R i (j + 1))) as [E1 E2]|
                  intros i j Hi Hi' Hj; destruct (T2 i j _ _ ltac:(lia) ltac:(lia) (R i j) (R (i + 1) j)) as [E1 E2]]);
    cbn in E1, E2; injection E1; injection E2; auto.
Qed.

(** What an ESMF grid made from [g] holds. *)
Definition Nodes (g : cgrid A) (ey ex : nd A) : Prop :=
  nd_shape ey = [snd (cg_xd g) + 1; snd (cg_yd g) + 1] /\ nd_shape ex = [snd (cg_xd g) + 1; snd (cg_yd g) + 1] /\
  forall i j, InGrid g i j ->
    ring zero g i j = Some (map (fun p => (nd_at ey p, nd_at ex p)) [[j; i]; [j + 1; i]; [j + 1; i + 1]; [j; i + 1]]).

Lemma wants_conserve (g : cgrid A) m : (m = Flag Conserve -> has_bounds (cg_coords g) = true) ->
  match m with Auto => has_bounds (cg_coords g) | Flag f => is_conserve f end = wants_corners g m /\
  (wants_corners g m = true -> has_bounds (cg_coords g) = true).
Proof. intros H. destruct m as [|[]]; cbn; split; auto; discriminate. Qed.

Lemma to_esmf_ok (g : cgrid A) m k p : GoodGrid g -> get_mask g = Ok k ->
  match k with Some a => nd_shape a = [snd (cg_yd g); snd (cg_xd g)] | None => True end ->
  (m = Flag Conserve -> has_bounds (cg_coords g) = true) -> Touching zero g ->
  exists e g', to_esmf zero g m None p = Ok (e, g') /\
    ce_names e = [fst (cg_xd g); fst (cg_yd g)] /\ ce_back e = [fst (cg_yd g); fst (cg_xd g)] /\
    ce_nx e = snd (cg_xd g) /\ ce_ny e = snd (cg_yd g) /\ ce_periodic e = p /\ ce_mask_key e = cg_mask_key g /\
    nd_shape (ce_y e) = [snd (cg_xd g); snd (cg_yd g)] /\ nd_shape (ce_x e) = [snd (cg_xd g); snd (cg_yd g)] /\
    (forall i j, InGrid g i j -> (nd_at (ce_y e) [j; i], nd_at (ce_x e) [j; i]) = center zero g i j) /\
    match k with
    | Some a => exists b, ce_mask e = Some b /\ nd_shape b = [snd (cg_xd g); snd (cg_yd g)] /\
                  forall i j, InGrid g i j -> nd_at b [j; i] = negb (nd_at a [i; j])
    | None => ce_mask e = None
    end /\
    (if wants_corners g m
     then exists ey ex, Nodes g ey ex /\ ce_corners e = Some (if p then (drop_column ey, drop_column ex) else (ey, ex))
     else ce_corners e = None) /\
    cg_yd g' = cg_yd g /\ cg_xd g' = cg_xd g /\ cg_mask_key g' = cg_mask_key g /\ cg_masks g' = cg_masks g /\
    (cg_coords g' = if wants_corners g m then expand zero (cg_coords g) else cg_coords g).
Proof.
  intros G Hk Sk Hm T. pose proof (stacked_ok g G) as St. unfold to_esmf. destruct (stacked zero (cg_coords g)) as [oy ox].
  destruct St as [Sy [Sx Ct]]. destruct (swap2 oy _ _ Sy) as [Sy' Ay]. destruct (swap2 ox _ _ Sx) as [Sx' Ax].
  destruct (assign2 _ _ _ Sy') as [ey [Ey [Sey Aey]]]. destruct (assign2 _ _ _ Sx') as [ex [Ex [Sex Aex]]].
  rewrite Ey, Ex, Hk. cbn [bind]. destruct (wants_conserve g m Hm) as [Wc Wb]. rewrite Wc.
  assert (M : exists em, (match k with Some k0 => bind (np_assign (np_swapaxes 0 1 (np_invert k0)) [snd (cg_xd g); snd (cg_yd g)]) (fun r => Ok (Some r)) | None => Ok None end) = Ok em /\
     match k with Some a => exists b, em = Some b /\ nd_shape b = [snd (cg_xd g); snd (cg_yd g)] /\
                  forall i j, InGrid g i j -> nd_at b [j; i] = negb (nd_at a [i; j])
     | None => em = None end).
  { destruct k as [a|]; [|exists None; auto].
    destruct (swap2 (np_invert a) _ _ Sk) as [S1 A1]. destruct (assign2 _ _ _ S1) as [b [Eb [Sb Ab]]]. rewrite Eb. cbn [bind].
    exists (Some b). split; [reflexivity|]. exists b. split; [reflexivity|]. split; [exact Sb|]. intros i j [Hi Hj]. rewrite Ab by lia. rewrite A1. reflexivity. }
  destruct M as [em [Em Hem]]. rewrite Em. cbn [bind].
  assert (Cc : forall i j, InGrid g i j -> (nd_at ey [j; i], nd_at ex [j; i]) = center zero g i j).
  { intros i j [Hi Hj]. rewrite Aey, Aex by lia. rewrite Ay, Ax. apply Ct. }
  destruct (wants_corners g m) eqn:W.
  - destruct (expand_ok g G (Wb eq_refl)) as [y [x [cy [cx [Exp [S1 [S2 [S3 [S4 [C1 R]]]]]]]]]]. rewrite Exp.
    destruct (corners_agree g cy cx R T) as [Gy Gx].
    destruct (esmf_node zero cy _ _ S3 Gy) as [ny [Eny [Sny Nny]]]. destruct (esmf_node zero cx _ _ S4 Gx) as [nx [Enx [Snx Nnx]]].
    rewrite Eny, Enx. cbn [bind]. do 2 eexists. split; [reflexivity|]. cbn [ce_names ce_back ce_nx ce_ny ce_periodic ce_mask_key ce_y ce_x ce_mask ce_corners fst snd cg_yd cg_xd cg_mask_key cg_masks cg_coords].
    repeat (split; [reflexivity|]). split; [exact Sey|]. split; [exact Sex|]. split; [exact Cc|]. split; [exact Hem|].
    split; [|auto 10].
    exists ny, nx. split; [|reflexivity]. split; [exact Sny|]. split; [exact Snx|]. intros i j [Hi Hj]. rewrite R.
    destruct (Nny i j Hi Hj) as [a0 [a1 [a2 a3]]]. destruct (Nnx i j Hi Hj) as [b0 [b1 [b2 b3]]]. cbn [map]. congruence.
  - cbn [bind]. do 2 eexists. split; [reflexivity|]. cbn [ce_names ce_back ce_nx ce_ny ce_periodic ce_mask_key ce_y ce_x ce_mask ce_corners fst snd].
    repeat (split; [reflexivity|]). split; [exact Sey|]. split; [exact Sex|]. split; [exact Cc|]. split; [exact Hem|].
    auto 10.
Qed.

(** ** And back *)
Lemma from_esmf_ok (e : cegrid A) x nx y ny : ce_names e = [x; y] -> ce_back e = [y; x] -> ce_nx e = nx -> ce_ny e = ny ->
  x <> y -> x <> CORNERS -> y <> CORNERS -> 0 < nx -> 0 < ny -> nd_shape (ce_y e) = [nx; ny] -> nd_shape (ce_x e) = [nx; ny] ->
  match ce_corners e with
  | Some (cy, cx) => nd_shape cy = [(if ce_periodic e then nx else nx + 1); ny + 1] /\ nd_shape cx = [(if ce_periodic e then nx else nx + 1); ny + 1]
  | None => True end ->
  exists h, from_esmf zero e = Ok h /\ cg_yd h = (y, ny) /\ cg_xd h = (x, nx) /\ cg_mask_key h = ce_mask_key e /\ GoodGrid h /\
    cg_masks h = match ce_mask e with Some k => [(SPATIAL_MASK, mkmvar [(x, nx); (y, ny)] (np_invert k))] | None => [] end /\
    (forall i j, 0 <= i < ny -> 0 <= j < nx -> center zero h i j = (nd_at (ce_y e) [j; i], nd_at (ce_x e) [j; i])) /\
    forall i j, 0 <= i < ny -> 0 <= j < nx -> ring zero h i j =
      match ce_corners e with
      | Some (cy, cx) => Some (map (fun p : list Z => let q := if ce_periodic e && (nth 0 p 0 =? nx) then 0 :: skipn 1 p else p in (nd_at cy q, nd_at cx q))
                                 [[j; i]; [j; i + 1]; [j + 1; i + 1]; [j + 1; i]])
      | None => None end.
Proof.
  intros Hn Hb Hnx Hny Hxy Hxc Hyc Px Py Sy Sx Sc. unfold from_esmf. rewrite Hn, Hb, Hnx, Hny. cbn [combine].
  assert (Ne : strs_eqb [y; x] [x; y] = false).
  { destruct (strs_eqb [y; x] [x; y]) eqn:E; [|reflexivity]. apply strs_eqb_eq in E. congruence. }
  rewrite Ne. destruct (turn2 (ce_x e) x nx y ny Hxy ltac:(lia) ltac:(lia) Sx) as [rx [Erx [Srx Arx]]].
  destruct (turn2 (ce_y e) x nx y ny Hxy ltac:(lia) ltac:(lia) Sy) as [ry [Ery [Sry Ary]]]. rewrite Erx, Ery. cbn [bind].
  destruct (ce_corners e) as [[cy cx]|].
  - destruct Sc as [Scy Scx].
    assert (Cl : forall c : nd A, nd_shape c = [(if ce_periodic e then nx else nx + 1); ny + 1] ->
       let c' := if ce_periodic e then close_column c else c in nd_shape c' = [nx + 1; ny + 1] /\
       forall p t, nd_at c' (p :: t) = nd_at c (if ce_periodic e && (p =? nx) then 0 :: t else p :: t)).
    { intros c S1. destruct (ce_periodic e); cbn [andb]; [|auto]. unfold close_column. rewrite S1. cbn. split; [reflexivity|].
      intros p t. destruct (p =? nx); reflexivity. }
    destruct (Cl cy Scy) as [S1 A1]. destruct (Cl cx Scx) as [S2 A2].
    destruct (ocgis_cell zero _ _ _ S1) as [oy [Eoy [Soy Noy]]]. destruct (ocgis_cell zero _ _ _ S2) as [ox [Eox [Sox Nox]]].
    replace (nx + 1 - 1) with nx in * by lia. replace (ny + 1 - 1) with ny in * by lia.
    rewrite Eoy, Eox. cbn [bind app].
    destruct (turn3 oy x nx y ny Hxy Hxc Hyc ltac:(lia) ltac:(lia) Soy) as [by_ [Eby [Sby Aby]]].
    destruct (turn3 ox x nx y ny Hxy Hxc Hyc ltac:(lia) ltac:(lia) Sox) as [bx [Ebx [Sbx Abx]]].
    rewrite Eby, Ebx. cbn [bind nv_dims nv_value]. eexists. split; [reflexivity|].
    cbn [cg_yd cg_xd cg_mask_key cg_masks]. repeat (split; [reflexivity|]).
    split; [unfold GoodGrid; cbn; auto 12|]. split; [reflexivity|].
    split; [intros i j Hi Hj; unfold center; cbn [cg_coords]; rewrite Ary, Arx by assumption; reflexivity|].
    intros i j Hi Hj. unfold ring. cbn [cg_coords map]. rewrite !Aby, !Abx by lia.
    destruct (Noy j i Hj Hi) as [a0 [a1 [a2 a3]]]. destruct (Nox j i Hj Hi) as [b0 [b1 [b2 b3]]].
    rewrite a0, a1, a2, a3, b0, b1, b2, b3, !A1, !A2. cbn [nth skipn]. reflexivity.
  - cbn [bind nv_dims nv_value]. eexists. split; [reflexivity|].
    cbn [cg_yd cg_xd cg_mask_key cg_masks]. repeat (split; [reflexivity|]).
    split; [unfold GoodGrid; cbn; auto 12|]. split; [reflexivity|].
    split; [intros i j Hi Hj; unfold center; cbn [cg_coords]; rewrite Ary, Arx by assumption; reflexivity|]. reflexivity.
Qed.
End G.
