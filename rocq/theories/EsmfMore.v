From Verif Require Import Py Lib Spec PartitionModel NdModel NdSpec NdProofs MaskProofs CoordModel CoordSpec SelectProofs RegridModel RegridProofs EsmfModel EsmfSpec EsmfProofs.
Local Close Scope Q_scope.
Local Open Scope Z_scope.

(** ** Grids there and back *)
Section G.
Context {A : Type} (zero : A).

Lemma node_at (ey ex : nd A) i j r : Some r = Some (map (fun p => (nd_at ey p, nd_at ex p)) [[j; i]; [j + 1; i]; [j + 1; i + 1]; [j; i + 1]]) ->
  turned r = map (fun p => (nd_at ey p, nd_at ex p)) [[j; i]; [j; i + 1]; [j + 1; i + 1]; [j + 1; i]].
Proof. intros H. injection H as ->. reflexivity. Qed.

(** Everything about the converted grid. *)
Lemma there_and_back (g : cgrid A) m k p : GoodGrid g -> get_mask g = Ok k -> MaskFits g k ->
  (m = Flag Conserve -> has_bounds (cg_coords g) = true) -> Touching zero g ->
  exists e g' h, to_esmf zero g m None p = Ok (e, g') /\ from_esmf zero e = Ok h /\
    GoodGrid h /\ cg_yd h = cg_yd g /\ cg_xd h = cg_xd g /\ cg_mask_key h = cg_mask_key g /\
    (forall i j, InGrid g i j -> center zero h i j = center zero g i j) /\
    (forall i j, InGrid g i j -> wants_corners g m = false -> ring zero h i j = None) /\
    (wants_corners g m = true -> exists ey ex, Nodes zero g ey ex /\
       forall i j, InGrid g i j -> ring zero h i j =
         Some (map (fun q : list Z => let q := if p && (nth 0 q 0 =? snd (cg_xd g)) then 0 :: skipn 1 q else q in (nd_at ey q, nd_at ex q))
                 [[j; i]; [j; i + 1]; [j + 1; i + 1]; [j + 1; i]])) /\
    match k with
    | None => cg_masks h = []
    | Some a => exists b, cg_masks h = [(SPATIAL_MASK, mkmvar [cg_xd g; cg_yd g] b)] /\ nd_shape b = [snd (cg_xd g); snd (cg_yd g)] /\
                  forall i j, InGrid g i j -> nd_at b [j; i] = nd_at a [i; j]
    end.
Proof.
  intros G Hk Sk Hm T.
  destruct (to_esmf_ok zero g m k p G Hk Sk Hm T) as [e [g' [E [Hn [Hb [Hnx [Hny [Hp [Hkey [Sy [Sx [C [M [Co _]]]]]]]]]]]]]].
  pose proof G as G0. unfold GoodGrid in G0. destruct (cg_yd g) as [y ny] eqn:Ey, (cg_xd g) as [x nx] eqn:Ex. cbn [fst snd] in *.
  destruct G0 as [N1 [N2 [N3 [P1 [P2 _]]]]].
  destruct (from_esmf_ok zero e x nx y ny Hn Hb Hnx Hny (not_eq_sym N1) N3 N2 P2 P1 Sy Sx) as [h [H [Hy [Hx [Hk' [Gh [Hms [Hc Hr]]]]]]]].
  { destruct (wants_corners g m); [|rewrite Co; exact I]. destruct Co as [ey [ex [[S1 [S2 _]] ->]]]. rewrite Hp. rewrite Ey, Ex in S1, S2. cbn [snd] in *.
    destruct p; [|auto]. unfold drop_column. cbn [nd_shape]. rewrite S1, S2. split; f_equal; lia. }
  exists e, g', h. split; [exact E|]. split; [exact H|]. split; [exact Gh|]. split; [exact Hy|]. split; [exact Hx|]. split; [congruence|].
  assert (IG : forall i j, InGrid g i j -> 0 <= i < ny /\ 0 <= j < nx) by (unfold InGrid; rewrite Ey, Ex; auto).
  split; [intros i j Hi; destruct (IG i j Hi); rewrite Hc by assumption; apply C; exact Hi|].
  split; [intros i j Hi W; destruct (IG i j Hi); rewrite Hr by assumption; rewrite W in Co; rewrite Co; reflexivity|].
  split.
  - intros W. rewrite W in Co. destruct Co as [ey [ex [N Ece]]]. exists ey, ex. split; [exact N|].
    intros i j Hi. destruct (IG i j Hi). rewrite Hr by assumption. rewrite Ece, Hp. destruct p; [|reflexivity]. reflexivity.
  - rewrite Hms. destruct k as [a|]; [|rewrite M; reflexivity]. destruct M as [b [-> [Sb Ab]]].
    exists (np_invert b). split; [reflexivity|]. split; [exact Sb|]. intros i j Hi. cbn. rewrite Ab by exact Hi. apply negb_involutive.
Qed.

Theorem grid_roundtrip (g : cgrid A) m k : GoodGrid g -> get_mask g = Ok k -> MaskFits g k ->
  (m = Flag Conserve -> has_bounds (cg_coords g) = true) -> Touching zero g ->
  exists e g' h, to_esmf zero g m None false = Ok (e, g') /\ from_esmf zero e = Ok h /\ GoodGrid h /\ cg_yd h = cg_yd g /\ cg_xd h = cg_xd g /\
    (k = None -> cg_mask_key g = None -> get_mask h = Ok None) /\
    forall i j, InGrid g i j -> center zero h i j = center zero g i j /\
      ring zero h i j = if wants_corners g m then option_map turned (ring zero g i j) else None.
Proof.
  intros G Hk Sk Hm T. destruct (there_and_back g m k false G Hk Sk Hm T) as [e [g' [h [E [H [Gh [Hy [Hx [Hkey [Hc [Hn [Hr _]]]]]]]]]]]].
  exists e, g', h. split; [exact E|]. split; [exact H|]. split; [exact Gh|]. split; [exact Hy|]. split; [exact Hx|].
  split; [intros _ K; unfold get_mask; rewrite Hkey, K; reflexivity|].
  intros i j Hi. split; [apply Hc; exact Hi|]. destruct (wants_corners g m) eqn:W; [|apply Hn; [exact Hi|reflexivity]].
  destruct (Hr eq_refl) as [ey [ex [[_ [_ N]] R]]]. rewrite (R i j Hi). cbn [andb].
  pose proof (N i j Hi) as Nij. rewrite Nij. cbn [option_map]. rewrite (node_at ey ex i j _ eq_refl). reflexivity.
Qed.

Theorem grid_source (g : cgrid A) m k p : GoodGrid g -> get_mask g = Ok k -> MaskFits g k ->
  (m = Flag Conserve -> has_bounds (cg_coords g) = true) -> Touching zero g ->
  exists e g', to_esmf zero g m None p = Ok (e, g') /\ cg_yd g' = cg_yd g /\ cg_xd g' = cg_xd g /\ get_mask g' = Ok k /\
    forall i j, center zero g' i j = center zero g i j /\ ring zero g' i j = ring zero g i j.
Proof.
  intros G Hk Sk Hm T.
  destruct (to_esmf_ok zero g m k p G Hk Sk Hm T) as [e [g' [E [_ [_ [_ [_ [_ [_ [_ [_ [_ [_ [_ [Hy [Hx [Hk' [Hms Hco]]]]]]]]]]]]]]]]]].
  exists e, g'. split; [exact E|]. split; [exact Hy|]. split; [exact Hx|]. split; [unfold get_mask in *; rewrite Hk', Hms; exact Hk|].
  destruct (wants_corners g m) eqn:W; [|intros i j; unfold center, ring; rewrite Hco; auto].
  destruct (wants_conserve g m Hm) as [_ B]. destruct (expand_ok zero g G (B W)) as [y [x [cy [cx [Exp [_ [_ [_ [_ [C R]]]]]]]]]].
  intros i j. rewrite R, <- C. unfold center, ring. rewrite Hco, Exp. auto.
Qed.

Theorem grid_expanded (g : cgrid A) ys xs b k p : cg_coords g = Vectors ys xs (Some b) -> GoodGrid g -> get_mask g = Ok k -> MaskFits g k ->
  Touching zero g -> exists e g' y x c, to_esmf zero g Auto None p = Ok (e, g') /\ cg_coords g' = Arrays y x c.
Proof.
  intros Hc G Hk Sk T. destruct (to_esmf_ok zero g Auto k p G Hk Sk) as [e [g' [E [_ [_ [_ [_ [_ [_ [_ [_ [_ [_ [_ [Hy [Hx [Hk' [Hms Hco]]]]]]]]]]]]]]]]]]; [discriminate|exact T|].
  unfold wants_corners in Hco. rewrite Hc in Hco. cbn in Hco. destruct b as [yb xb].
  exists e, g'. destruct (cg_coords g') as [|y x c] eqn:Eg; [discriminate|]. exists y, x, c. auto.
Qed.

Theorem grid_periodic (g : cgrid A) m k : GoodGrid g -> get_mask g = Ok k -> MaskFits g k ->
  (m = Flag Conserve -> has_bounds (cg_coords g) = true) -> Touching zero g -> wants_corners g m = true ->
  exists e g' h, to_esmf zero g m None true = Ok (e, g') /\ from_esmf zero e = Ok h /\
    (forall i j, InGrid g i j -> j < snd (cg_xd g) - 1 -> ring zero h i j = option_map turned (ring zero g i j)) /\
    forall i a b c d a' b' c' d', InGrid g i 0 -> ring zero g i (snd (cg_xd g) - 1) = Some [a; b; c; d] -> ring zero g i 0 = Some [a'; b'; c'; d'] ->
      ring zero h i (snd (cg_xd g) - 1) = Some [a; d; d'; a'].
Proof.
  intros G Hk Sk Hm T W. destruct (there_and_back g m k true G Hk Sk Hm T) as [e [g' [h [E [H [Gh [Hy [Hx [Hkey [Hc [_ [Hr _]]]]]]]]]]]].
  destruct (Hr W) as [ey [ex [[_ [_ N]] R]]]. exists e, g', h. split; [exact E|]. split; [exact H|]. split.
  - intros i j Hi Hj. rewrite (R i j Hi). rewrite (N i j Hi). cbn [option_map]. rewrite (node_at ey ex i j _ eq_refl). cbn [andb map nth skipn].
    unfold InGrid in Hi. replace (j =? snd (cg_xd g)) with false by lia. replace (j + 1 =? snd (cg_xd g)) with false by lia. reflexivity.
  - intros i a b c d a' b' c' d' Hi H1 H2. assert (Hl : InGrid g i (snd (cg_xd g) - 1)) by (unfold InGrid in *; lia).
    rewrite (R _ _ Hl). rewrite (N _ _ Hl) in H1. rewrite (N _ _ Hi) in H2. cbn [andb map nth skipn] in *.
    injection H1 as <- <- <- <-. injection H2 as <- <- <- <-. replace (snd (cg_xd g) - 1 =? snd (cg_xd g)) with false by lia.
    replace (snd (cg_xd g) - 1 + 1 =? snd (cg_xd g)) with true by lia. reflexivity.
Qed.

Theorem grid_mask (g : cgrid A) m a p : GoodGrid g -> get_mask g = Ok (Some a) -> MaskFits g (Some a) ->
  (m = Flag Conserve -> has_bounds (cg_coords g) = true) -> Touching zero g ->
  exists e g' h, to_esmf zero g m None p = Ok (e, g') /\ from_esmf zero e = Ok h /\
    (cg_mask_key g = Some SPATIAL_MASK -> exists b, get_mask h = Ok (Some b) /\ dget String.eqb (cg_masks h) SPATIAL_MASK = Some (mkmvar [cg_xd g; cg_yd g] b) /\
       nd_shape b = [snd (cg_xd g); snd (cg_yd g)] /\ (forall i j, InGrid g i j -> nd_at b [j; i] = nd_at a [i; j]) /\
       (snd (cg_xd g) <> snd (cg_yd g) -> forall m' p', to_esmf zero h m' None p' = Err ValueError)) /\
    (cg_mask_key g <> Some SPATIAL_MASK -> get_mask h = Err KeyError).
Proof.
  intros G Hk Sk Hm T. destruct (there_and_back g m (Some a) p G Hk Sk Hm T) as [e [g' [h [E [H [Gh [Hy [Hx [Hkey [_ [_ [_ [b [Mb [Sb Ab]]]]]]]]]]]]]]].
  exists e, g', h. split; [exact E|]. split; [exact H|]. split.
  - intros K. exists b. unfold get_mask at 1. rewrite Hkey, K, Mb. cbn [dget]. rewrite String.eqb_refl. cbn [mv_mask].
    split; [reflexivity|]. split; [reflexivity|]. split; [exact Sb|]. split; [exact Ab|].
    intros Hne m' p'. unfold to_esmf. pose proof (stacked_ok zero h Gh) as St. destruct (stacked zero (cg_coords h)) as [oy ox].
    destruct St as [Sy [Sx _]]. destruct (swap2 oy _ _ Sy) as [Sy' _]. destruct (swap2 ox _ _ Sx) as [Sx' _].
    destruct (assign2 _ _ _ Sy') as [ey [Ey _]]. destruct (assign2 _ _ _ Sx') as [ex [Ex _]]. rewrite Ey, Ex. cbn [bind].
    unfold get_mask. rewrite Hkey, K, Mb. cbn [dget]. rewrite String.eqb_refl. cbn [mv_mask bind].
    destruct (swap2 (np_invert b) _ _ Sb) as [S1 _]. unfold np_assign. rewrite S1. rewrite Hx, Hy. cbn [rev app bmatch].
    destruct ((snd (cg_xd g) =? snd (cg_yd g)) || (snd (cg_xd g) =? 1)) eqn:B1; [|reflexivity].
    destruct ((snd (cg_yd g) =? snd (cg_xd g)) || (snd (cg_yd g) =? 1)) eqn:B2; [|reflexivity]. exfalso. lia.
  - intros K. unfold get_mask in *. rewrite Hkey, Mb. destruct (cg_mask_key g) as [n|]; [|discriminate]. cbn [dget].
    destruct (String.eqb_spec n SPATIAL_MASK); [congruence|reflexivity].
Qed.

Theorem grid_value_mask (g : cgrid A) m v p e g' : cg_mask_key g = None -> to_esmf zero g m (Some v) p = Ok (e, g') ->
  (exists a, get_mask g' = Ok (Some a) /\ forall i j, nd_at a [i; j] = false) /\ (exists a, ce_mask e = Some a) /\ forall h, from_esmf zero e = Ok h -> get_mask h = Ok None.
Proof.
  intros K H. unfold to_esmf in H. destruct (stacked zero (cg_coords g)) as [oy ox].
  destruct (np_assign _ _) as [ey|]; [cbn [bind] in H|discriminate]. destruct (np_assign _ _) as [ex|]; [cbn [bind] in H|discriminate].
  unfold get_or_create_mask, get_mask at 1 in H. rewrite K in H. cbn [bind fst snd] in H.
  destruct (np_lor _ _) as [r|]; [cbn [bind] in H|discriminate].
  destruct (np_assign _ _) as [em|]; [cbn [bind] in H|discriminate].
  set (g1 := mkcgrid _ _ _ _ _) in H.
  assert (M1 : forall c : gcoords A, exists a, get_mask (mkcgrid (cg_yd g1) (cg_xd g1) c (cg_mask_key g1) (cg_masks g1)) = Ok (Some a) /\ forall i j, nd_at a [i; j] = false).
  { intros c. unfold get_mask. cbn [cg_mask_key cg_masks g1]. rewrite dget_dset_same by apply String.eqb_spec. eexists. split; [reflexivity|]. reflexivity. }
  assert (Back : forall e0 : cegrid A, ce_mask_key e0 = None -> forall h, from_esmf zero e0 = Ok h -> get_mask h = Ok None).
  { intros e0 Ke h Hh. unfold from_esmf in Hh.
    destruct (if strs_eqb (ce_back e0) (ce_names e0) then _ else _) as [vx|]; [cbn [bind] in Hh|discriminate].
    destruct (if strs_eqb (ce_back e0) (ce_names e0) then _ else _) as [vy|]; [cbn [bind] in Hh|discriminate].
    destruct (match ce_corners e0 with Some _ => _ | None => _ end) as [co|]; [cbn [bind] in Hh|discriminate].
    destruct (nv_dims vy) as [|yd [|xd [|]]]; try discriminate. injection Hh as <-. unfold get_mask. cbn. rewrite Ke. reflexivity. }
  destruct (match m with Auto => has_bounds (cg_coords g) | Flag f => is_conserve f end).
  - destruct (expand zero (cg_coords g1)) as [|y x [[cy cx]|]] eqn:Ee; try discriminate H.
    destruct (esmf_from_ocgis zero cy); [cbn [bind] in H|discriminate]. destruct (esmf_from_ocgis zero cx); [cbn [bind] in H|discriminate].
    injection H as <- <-. cbn [fst]. split; [apply M1|]. split; [eexists; reflexivity|]. apply Back. reflexivity.
  - cbn [bind] in H. injection H as <- <-. cbn [fst]. split; [apply (M1 (cg_coords g1))|]. split; [eexists; reflexivity|]. apply Back. reflexivity.
Qed.
End G.
