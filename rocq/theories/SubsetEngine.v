From Verif Require Import Py Lib SubsetModel SubsetSpec SubsetProofs.

Section Engine.
Variable reproject : crs -> crs -> Z -> Z -> Z * Z.
Variable e : request.

Definition turn (w : bool) : Z -> Z := if w then wrap_x else unwrap_x.
Definition goal (w : bool) : wstate := if w then Wrapped else Unwrapped.
Definition geographic (c : crs) : bool := match c with Sph | Geo => true | _ => false end.

(** The ways in which a turn of the loop leaves the longitudes [x] as [x] or [h x]. *)
Definition Mode (f0 : field) (h : Z -> Z) : Prop :=
  (e_output e <> None /\ h = fun x => x) \/
  (e_output e = None /\ h = (fun x => x) /\
     forall w, e_wrapping e = Some w -> geographic (f_crs f0) = true ->
       forall j i, (j < f_ny f0)%nat -> (i < f_nx f0)%nat -> turn w (f_lon f0 j i) = f_lon f0 j i) \/
  (e_output e = None /\ h = wrap_x /\ e_wrapping e = Some true /\ f_crs f0 = Sph /\ InRange f0).

Definition Calm (f0 : field) : Prop :=
  e_allow_empty e = false /\ f_crs f0 <> Rot /\ (f_loaded f0 = false \/ f_mask f0 = None).

Definition Inv (f0 : field) (h : Z -> Z) (f : field) : Prop :=
  f_crs f = f_crs f0 /\ f_ny f = f_ny f0 /\ f_nx f = f_nx f0 /\ f_vec f = f_vec f0 /\ f_lat f = f_lat f0 /\
  f_loaded f = f_loaded f0 /\ f_mask f = f_mask f0 /\
  forall j i, (j < f_ny f0)%nat -> (i < f_nx f0)%nat -> f_lon f j i = f_lon f0 j i \/ f_lon f j i = h (f_lon f0 j i).

(** Longitudes that are as they should be stay so. *)
Definition Prog (f0 : field) (h : Z -> Z) (f f' : field) : Prop :=
  forall j i, (j < f_ny f0)%nat -> (i < f_nx f0)%nat -> f_lon f j i = h (f_lon f0 j i) -> f_lon f' j i = h (f_lon f0 j i).

Definition base_lon (f0 : field) (c : crs) (r : result) (j i : nat) : Z :=
  fst (reproject (f_crs f0) c (f_lon f0 (r_j0 r + j) (r_i0 r + i)) (f_lat f0 (r_j0 r + j) (r_i0 r + i)))%nat.
Definition base_lat (f0 : field) (c : crs) (r : result) (j i : nat) : Z :=
  snd (reproject (f_crs f0) c (f_lon f0 (r_j0 r + j) (r_i0 r + i)) (f_lat f0 (r_j0 r + j) (r_i0 r + i)))%nat.

Definition own_lon (f0 : field) (c : crs) (r : result) (j i : nat) : Z :=
  match e_wrapping e with
  | None => base_lon f0 c r j i
  | Some w => if geographic c && negb (wstate_eqb (state_of c (height r) (width r) (base_lon f0 c r)) (goal w))
              then turn w (base_lon f0 c r j i) else base_lon f0 c r j i
  end.

Definition View (f0 : field) (h : Z -> Z) (g : Z -> Z -> bool) (r : result) : Prop :=
  Win (f_ny f0) (f_nx f0) (chosen f0 g) r /\
  r_crs r = match e_output e with Some c => c | None => f_crs f0 end /\
  (forall j i, (j < height r)%nat -> (i < width r)%nat -> r_smask r j i = negb (chosen f0 g (r_j0 r + j) (r_i0 r + i)%nat)) /\
  ((exists d, r_dmask r = Some d /\ forall t j i, (j < height r)%nat -> (i < width r)%nat -> d t j i = base_mask f0 r t j i || r_smask r j i) \/
   r_dmask r = None /\ forall j i, (j < height r)%nat -> (i < width r)%nat -> r_smask r j i = false) /\
  match e_output e, r_own r with
  | None, None => True
  | Some c, Some (x, y) => forall j i, (j < height r)%nat -> (i < width r)%nat -> x j i = own_lon f0 c r j i /\ y j i = base_lat f0 c r j i
  | _, _ => False
  end.

(** The longitudes of the window are as they should be. *)
Definition Done (f0 : field) (h : Z -> Z) (r : result) (m : field) : Prop :=
  forall j i, (r_j0 r <= j < r_j1 r)%nat -> (r_i0 r <= i < r_i1 r)%nat -> f_lon m j i = h (f_lon f0 j i).

Lemma inv_range f0 f : InRange f0 -> f_crs f0 = Sph -> Inv f0 wrap_x f -> InRange f.
Proof.
  intros R C (I1 & I2 & I3 & I4 & I5 & I6 & I7 & I8). unfold InRange in *. rewrite I1, C in *. rewrite I2, I3.
  intros j i L M. specialize (R j i L M). destruct (I8 j i L M) as [->| ->]; [lia|].
  unfold wrap_x. destruct (180 <? f_lon f0 j i) eqn:K; lia.
Qed.

Lemma inv_chosen f0 h f g j i : Mode f0 h -> f_crs f0 <> Rot -> Inv f0 h f -> (j < f_ny f0)%nat -> (i < f_nx f0)%nat ->
  chosen f g j i = chosen f0 g j i.
Proof.
  intros Mo NR Iv L M. pose proof Iv as (I1 & I2 & I3 & I4 & I5 & I6 & I7 & I8).
  assert (Id : (forall j i, (j < f_ny f0)%nat -> (i < f_nx f0)%nat -> f_lon f j i = f_lon f0 j i) -> chosen f g j i = chosen f0 g j i).
  { intro E. unfold chosen. assert (S : field_state f = field_state f0).
    { unfold field_state. rewrite I1, I2, I3. apply state_ext. exact E. }
    rewrite S, I1, I5, (E j i L M). reflexivity. }
  destruct Mo as [[_ ->]|[(_ & -> & _)|(_ & -> & _ & C & R)]].
  - apply Id. intros j' i' L' M'. destruct (I8 j' i' L' M'); assumption.
  - apply Id. intros j' i' L' M'. destruct (I8 j' i' L' M'); assumption.
  - pose proof (inv_range _ _ R C Iv) as R'.
    rewrite !chosen_place; try congruence; try (rewrite ?I2, ?I3; assumption).
    rewrite I1, I5, C. f_equal. unfold InRange in R. rewrite C in R. specialize (R j i L M).
    destruct (I8 j i L M) as [->| ->]; [reflexivity|]. apply wrap_idem. lia.
Qed.

Lemma outcome_inv f0 h f g f2 r : Mode f0 h -> Calm f0 -> Inv f0 h f -> Outcome f g f2 r ->
  (forall j i, f_lon f2 j i = f_lon f j i) /\ Inv f0 h f2 /\ Win (f_ny f0) (f_nx f0) (chosen f0 g) r /\ r_crs r = f_crs f0 /\ r_own r = None /\
  (forall j i, (j < height r)%nat -> (i < width r)%nat -> r_smask r j i = negb (chosen f0 g (r_j0 r + j) (r_i0 r + i)%nat)) /\
  ((exists d, r_dmask r = Some d /\ forall t j i, (j < height r)%nat -> (i < width r)%nat -> d t j i = base_mask f0 r t j i || r_smask r j i) \/
   r_dmask r = None /\ forall j i, (j < height r)%nat -> (i < width r)%nat -> r_smask r j i = false).
Proof.
  intros Mo (_ & NR & U) Iv O. pose proof Iv as (I1 & I2 & I3 & I4 & I5 & I6 & I7 & I8).
  destruct O as (W & O2 & O3 & O4 & O5 & O6 & O7 & O8 & O9 & O10 & O11 & O12 & O13).
  assert (Fm : f_mask f2 = f_mask f).
  { destruct O12 as [O12|[Lo (d & d' & D & _)]]; [exact O12|]. destruct U; congruence. }
  split; [exact O9|]. split.
  { unfold Inv. rewrite O5, O6, O7, O8, O10, O11, Fm. repeat (split; [assumption|]).
    intros j i L M. rewrite O9. auto. }
  rewrite I2, I3 in W.
  assert (W' : Win (f_ny f0) (f_nx f0) (chosen f0 g) r).
  { destruct W as (A & B & C & D & E & (a & La & Sa) & (b & Lb & Sb) & (c & Lc & Sc) & (d & Ld & Sd)).
    rewrite (inv_chosen f0 h f) in Sa, Sb, Sc, Sd by (auto; lia).
    unfold Win. repeat (split; [assumption|]). split.
    - intros j i L M S. apply E; auto. rewrite (inv_chosen f0 h f); auto.
    - split; [now exists a|]. split; [now exists b|]. split; [now exists c | now exists d]. }
  split; [exact W'|]. split; [congruence|]. split; [exact O3|]. split.
  - intros j i L M. rewrite (O4 j i L M). destruct W as (A & B & _). unfold height, width in *.
    rewrite (inv_chosen f0 h f); auto; lia.
  - destruct O13 as [(d & D & E)|(D & _ & E)]; [left | right; auto].
    exists d. split; [exact D|]. intros t j i L M. rewrite (E t j i L M). unfold base_mask. now rewrite I7.
Qed.

Lemma crs_eqb_true a b : crs_eqb a b = true -> a = b.
Proof. destruct a, b; cbn; congruence. Qed.

Lemma step f0 h f g : Mode f0 h -> Calm f0 -> Inv f0 h f ->
  match process_geometry reproject e f g with
  | (Ok (Some r), f') => Inv f0 h f' /\ Prog f0 h f f' /\ View f0 h g r /\ (e_output e = None -> Done f0 h r f')
  | (Ok None, _) => False
  | (Err x, _) => x = ExtentError /\ forall j i, (j < f_ny f0)%nat -> (i < f_nx f0)%nat -> chosen f0 g j i = false
  end.
Proof.
  intros Mo Ca Iv. pose proof Ca as (Ae & NR & U). pose proof Iv as (I1 & I2 & I3 & I4 & I5 & I6 & I7 & I8).
  unfold process_geometry. rewrite I1. destruct (crs_eqb (f_crs f0) Rot) eqn:C; [apply crs_eqb_true in C; congruence|].
  assert (NR' : f_crs f <> Rot) by congruence.
  pose proof (subset_spec reproject f g NR') as S.
  destruct (get_spatial_subset reproject (new_operation false None) f g) as [[[r|x] o] f2].
  2: { destruct S as [-> (F & _)]. rewrite Ae. split; [reflexivity|]. intros j i L M.
       rewrite <- (inv_chosen f0 h f) by auto. apply F; congruence. }
  apply (outcome_inv f0 h) in S; auto. destruct S as (Lo & Iv2 & W & Rc & Ro & Sm & Dm).
  rewrite Ae. unfold update_result. cbv zeta.
  pose proof W as (A & B & _).
  pose proof Iv2 as (J1 & J2 & J3 & J4 & J5 & J6 & J7 & J8).
  destruct (e_output e) as [c|] eqn:Out.
  - (* the result gets arrays of its own *)
    assert (Hid : h = fun x => x).
    { destruct Mo as [[_ Mo]|[(Mo & _)|(Mo & _)]]; [exact Mo|congruence|congruence]. }
    assert (E2 : forall j i, (j < height r)%nat -> (i < width r)%nat ->
      read_lon f2 r j i = f_lon f0 (r_j0 r + j) (r_i0 r + i) /\ read_lat f2 r j i = f_lat f0 (r_j0 r + j) (r_i0 r + i)).
    { intros j i L M. unfold read_lon, read_lat. rewrite Ro, J5. split; [|reflexivity].
      unfold height, width in *. subst h. destruct (J8 (r_j0 r + j)%nat (r_i0 r + i)%nat); try lia. }
    set (r2 := update_crs_result reproject f2 r c).
    assert (K : let q := update_wrapping e f2 r2 in snd q = f2 /\
       r_crs (fst q) = c /\ r_j0 (fst q) = r_j0 r /\ r_j1 (fst q) = r_j1 r /\ r_i0 (fst q) = r_i0 r /\ r_i1 (fst q) = r_i1 r /\
       r_smask (fst q) = r_smask r /\ r_dmask (fst q) = r_dmask r /\
       exists x y, r_own (fst q) = Some (x, y) /\
         forall j i, (j < height r)%nat -> (i < width r)%nat -> x j i = own_lon f0 c r j i /\ y j i = base_lat f0 c r j i).
    { assert (X : forall j i, (j < height r)%nat -> (i < width r)%nat -> read_lon f2 r2 j i = base_lon f0 c r j i).
      { intros j i L M. unfold read_lon at 1. cbn [r2 update_crs_result r_own]. destruct (E2 j i L M) as [-> ->].
        rewrite Rc. reflexivity. }
      assert (Y : forall j i, (j < height r)%nat -> (i < width r)%nat ->
                 snd (reproject (r_crs r) c (read_lon f2 r j i) (read_lat f2 r j i)) = base_lat f0 c r j i).
      { intros j i L M. destruct (E2 j i L M) as [-> ->]. rewrite Rc. reflexivity. }
      assert (St : result_state f2 r2 = state_of c (height r) (width r) (base_lon f0 c r)).
      { unfold result_state. cbn [r2 update_crs_result r_crs]. apply state_ext. exact X. }
      assert (Plain : let q := (r2, f2) in snd q = f2 /\
       r_crs (fst q) = c /\ r_j0 (fst q) = r_j0 r /\ r_j1 (fst q) = r_j1 r /\ r_i0 (fst q) = r_i0 r /\ r_i1 (fst q) = r_i1 r /\
       r_smask (fst q) = r_smask r /\ r_dmask (fst q) = r_dmask r /\
       exists x y, r_own (fst q) = Some (x, y) /\
         forall j i, (j < height r)%nat -> (i < width r)%nat -> x j i = base_lon f0 c r j i /\ y j i = base_lat f0 c r j i).
      { cbn [fst snd r2 update_crs_result r_crs r_j0 r_j1 r_i0 r_i1 r_smask r_dmask r_own]. do 8 (split; [reflexivity|]).
        eexists _, _. split; [reflexivity|]. intros j i L M. split; [apply (X j i L M) | apply (Y j i L M)]. }
      unfold update_wrapping, own_lon. destruct (e_wrapping e) as [w|]; [|exact Plain].
      cbn [r_crs r2 update_crs_result]. fold r2. rewrite St. fold (goal w). fold (turn w).
      destruct (geographic c) eqn:Gc.
      - assert (Body : (match c with Sph | Geo =>
            if wstate_eqb (state_of c (height r) (width r) (base_lon f0 c r)) (goal w) then (r2, f2) else write_lon f2 r2 (turn w)
            | _ => (r2, f2) end) =
            if wstate_eqb (state_of c (height r) (width r) (base_lon f0 c r)) (goal w) then (r2, f2) else write_lon f2 r2 (turn w))
          by (destruct c; try discriminate; reflexivity).
        rewrite Body. clear Body. cbn [andb].
        destruct (wstate_eqb (state_of c (height r) (width r) (base_lon f0 c r)) (goal w)); cbn [negb]; [exact Plain|].
        unfold write_lon. cbn [r2 update_crs_result r_own fst snd r_crs r_j0 r_j1 r_i0 r_i1 r_smask r_dmask].
        do 8 (split; [reflexivity|]). eexists _, _. split; [reflexivity|]. intros j i L M. cbv beta.
        split; [f_equal; apply (X j i L M) | apply (Y j i L M)].
      - assert (Body : (match c with Sph | Geo =>
            if wstate_eqb (state_of c (height r) (width r) (base_lon f0 c r)) (goal w) then (r2, f2) else write_lon f2 r2 (turn w)
            | _ => (r2, f2) end) = (r2, f2)) by (destruct c; try discriminate; reflexivity).
        rewrite Body. exact Plain. }
    destruct (update_wrapping e f2 r2) as [r' f3] eqn:Q. cbv zeta in K. cbn [fst snd] in K.
    destruct K as (-> & K1 & K2 & K3 & K4 & K5 & K6 & K7 & x & y & K8 & K9).
    split; [exact Iv2|]. split; [intros j i L M; rewrite Lo; auto|]. split; [|congruence].
    assert (Hh : height r' = height r) by (unfold height; congruence).
    assert (Hw : width r' = width r) by (unfold width; congruence).
    unfold View, Win. rewrite Out, K1, K2, K3, K4, K5, K6, K7, K8, Hh, Hw. split; [exact W|]. split; [reflexivity|]. split; [exact Sm|]. split.
    + destruct Dm as [(d & D & E)|D]; [left | right; exact D]. exists d. split; [exact D|]. intros t j i L M.
      rewrite (E t j i L M). unfold base_mask. now rewrite K2, K4.
    + intros j i L M. destruct (K9 j i L M) as [-> ->].
      unfold own_lon, base_lat. assert (Bl : forall j i, base_lon f0 c r' j i = base_lon f0 c r j i)
        by (intros; unfold base_lon; now rewrite K2, K4).
      rewrite !Bl, Hh, Hw, K2, K4. rewrite (state_ext c (height r) (width r) (base_lon f0 c r') (base_lon f0 c r)) by (intros; apply Bl).
      split; reflexivity.
  - (* the result stays a view *)
    assert (Vw : View f0 h g r).
    { unfold View. rewrite Out, Ro. auto. }
    assert (Keep : (forall j i, (r_j0 r <= j < r_j1 r)%nat -> (r_i0 r <= i < r_i1 r)%nat -> f_lon f2 j i = h (f_lon f0 j i)) ->
      Inv f0 h f2 /\ Prog f0 h f f2 /\ View f0 h g r /\ (None = None :> option crs -> Done f0 h r f2)).
    { intro D. split; [exact Iv2|]. split; [intros j i L M; rewrite Lo; auto|]. split; [exact Vw|]. intros _. exact D. }
    unfold update_wrapping. destruct (e_wrapping e) as [w|] eqn:Wr.
    2: { apply Keep. destruct Mo as [[Mo _]|[(_ & -> & _)|(_ & _ & Mo & _)]]; try congruence.
         intros j i L M. destruct (J8 j i); auto; lia. }
    fold (goal w). fold (turn w). rewrite Rc.
    destruct (geographic (f_crs f0)) eqn:Gc.
    2: { assert (Body : (match f_crs f0 with Sph | Geo =>
            if wstate_eqb (result_state f2 r) (goal w) then (r, f2) else write_lon f2 r (turn w)
            | _ => (r, f2) end) = (r, f2)) by (destruct (f_crs f0); try discriminate; reflexivity).
         rewrite Body. apply Keep. destruct Mo as [[Mo _]|[(_ & -> & _)|(_ & _ & _ & Mo & _)]]; try congruence.
         - intros j i L M. destruct (J8 j i); auto; lia.
         - rewrite Mo in Gc. discriminate. }
    assert (Body : (match f_crs f0 with Sph | Geo =>
            if wstate_eqb (result_state f2 r) (goal w) then (r, f2) else write_lon f2 r (turn w)
            | _ => (r, f2) end) =
            if wstate_eqb (result_state f2 r) (goal w) then (r, f2) else write_lon f2 r (turn w))
      by (destruct (f_crs f0); try discriminate; reflexivity).
    rewrite Body. clear Body.
    assert (Tw : forall j i, (j < f_ny f0)%nat -> (i < f_nx f0)%nat -> turn w (f_lon f2 j i) = h (f_lon f0 j i)).
    { intros j i L M. destruct Mo as [[Mo _]|[(_ & -> & Mo)|(_ & -> & Mo & Cs & R)]]; try congruence.
      - assert (E : f_lon f2 j i = f_lon f0 j i) by (destruct (J8 j i L M); assumption). rewrite E. now apply Mo.
      - assert (w = true) by congruence. subst w. cbn [turn]. unfold InRange in R. rewrite Cs in R. specialize (R j i L M).
        destruct (J8 j i L M) as [->| ->]; [reflexivity|]. apply wrap_idem. lia. }
    destruct (wstate_eqb (result_state f2 r) (goal w)) eqn:St.
    + apply Keep. intros j i L M. destruct Mo as [[Mo _]|[(_ & -> & Mo)|(_ & -> & Mo & Cs & R)]]; try congruence.
      * destruct (J8 j i); auto; lia.
      * assert (w = true) by congruence. subst w. cbn [goal] in St.
        rewrite <- Tw by lia. cbn [turn]. unfold wrap_x. destruct (180 <? f_lon f2 j i) eqn:K; [exfalso|reflexivity].
        unfold result_state in St. rewrite Rc in St.
        pose proof (state_cases (f_crs f0) (height r) (width r) (read_lon f2 r)) as Sc.
        destruct (state_of (f_crs f0) (height r) (width r) (read_lon f2 r)); try discriminate.
        destruct Sc as (_ & Sc & _). specialize (Sc (j - r_j0 r)%nat (i - r_i0 r)%nat). unfold read_lon in Sc. rewrite Ro in Sc.
        unfold height, width in Sc.
        replace (r_j0 r + (j - r_j0 r))%nat with j in Sc by lia. replace (r_i0 r + (i - r_i0 r))%nat with i in Sc by lia.
        assert (f_lon f2 j i <= 180) by (apply Sc; lia). lia.
    + unfold write_lon. rewrite Ro.
      set (m := set_lon f2 _).
      assert (Ml : forall j i, (j < f_ny f0)%nat -> (i < f_nx f0)%nat -> f_lon m j i = f_lon f2 j i \/ f_lon m j i = h (f_lon f0 j i)).
      { intros j i L M. unfold m. cbn [set_lon f_lon].
        destruct ((f_vec f2 || (r_j0 r <=? j)%nat && (j <? r_j1 r)%nat) && ((r_i0 r <=? i)%nat && (i <? r_i1 r)%nat));
          [right; now apply Tw | now left]. }
      assert (Iv3 : Inv f0 h m).
      { unfold Inv. unfold m at 1 2 3 4 5 6 7. cbn [set_lon f_crs f_ny f_nx f_vec f_lat f_loaded f_mask].
        do 7 (split; [assumption|]). intros j i L M. destruct (Ml j i L M) as [->| ->]; auto. }
      split; [exact Iv3|]. split.
      { intros j i L M E. destruct (Ml j i L M) as [->|X]; [now rewrite Lo | exact X]. }
      split; [exact Vw|]. intros _ j i L M. unfold m. cbn [set_lon f_lon].
      replace ((f_vec f2 || (r_j0 r <=? j)%nat && (j <? r_j1 r)%nat) && ((r_i0 r <=? i)%nat && (i <? r_i1 r)%nat)) with true;
        [apply Tw; lia|].
      symmetry. apply andb_true_iff. split; [apply orb_true_iff; right|]; apply andb_true_iff; split;
        first [apply Nat.leb_le; lia | apply Nat.ltb_lt; lia].
Qed.
Lemma inv_refl f0 h : Inv f0 h f0.
Proof. unfold Inv. do 7 (split; [reflexivity|]). auto. Qed.

Lemma prog_trans f0 h a b c : Prog f0 h a b -> Prog f0 h b c -> Prog f0 h a c.
Proof. unfold Prog. auto. Qed.

Lemma done_prog f0 h r a b : (r_j1 r <= f_ny f0)%nat -> (r_i1 r <= f_nx f0)%nat -> Done f0 h r a -> Prog f0 h a b -> Done f0 h r b.
Proof. intros A B D P j i L M. apply P; [lia | lia |]. now apply D. Qed.

Lemma views_same f0 h g r r' m m' : View f0 h g r -> View f0 h g r' -> Inv f0 h m -> Inv f0 h m' ->
  (e_output e = None -> Done f0 h r m) -> (e_output e = None -> Done f0 h r' m') -> SameResult m r m' r'.
Proof.
  intros (W & C & Sm & Dm & Ow) (W' & C' & Sm' & Dm' & Ow') Iv Iv' D D'.
  destruct (win_unique _ _ _ _ _ _ (fun _ _ _ _ => eq_refl) W W') as (E1 & E2 & E3 & E4).
  assert (Hh : height r' = height r) by (unfold height; congruence).
  assert (Hw : width r' = width r) by (unfold width; congruence).
  unfold SameResult. split; [congruence|]. do 4 (split; [congruence|]). intros j i L M.
  pose proof Iv as (_ & _ & _ & _ & I5 & _ & I7 & _). pose proof Iv' as (_ & _ & _ & _ & J5 & _ & J7 & _).
  assert (Es : r_smask r j i = r_smask r' j i) by (rewrite Sm, Sm' by congruence; congruence).
  split; [exact Es|]. split; [|split].
  - unfold read_lon. destruct (e_output e) as [c|], (r_own r) as [[x y]|], (r_own r') as [[x' y']|]; try contradiction.
    + destruct (Ow j i L M) as [-> _]. destruct (Ow' j i) as [-> _]; [congruence|congruence|].
      unfold own_lon. assert (Bl : forall j i, base_lon f0 c r' j i = base_lon f0 c r j i)
        by (intros; unfold base_lon; now rewrite <- E1, <- E3).
      rewrite !Bl, Hh, Hw, (state_ext c (height r) (width r) (base_lon f0 c r') (base_lon f0 c r)) by (intros; apply Bl).
      reflexivity.
    + rewrite D, D' by (auto; unfold height, width in *; lia). congruence.
  - unfold read_lat. destruct (e_output e) as [c|], (r_own r) as [[x y]|], (r_own r') as [[x' y']|]; try contradiction.
    + destruct (Ow j i L M) as [_ ->]. destruct (Ow' j i) as [_ ->]; [congruence|congruence|].
      unfold base_lat. now rewrite E1, E3.
    + rewrite I5, J5. congruence.
  - intro t. assert (Eb : base_mask f0 r t j i = base_mask f0 r' t j i) by (unfold base_mask; now rewrite E1, E3).
    assert (Val : forall m r, Inv f0 h m -> (j < height r)%nat -> (i < width r)%nat ->
      ((exists d, r_dmask r = Some d /\ forall t j i, (j < height r)%nat -> (i < width r)%nat -> d t j i = base_mask f0 r t j i || r_smask r j i) \/
       r_dmask r = None /\ forall j i, (j < height r)%nat -> (i < width r)%nat -> r_smask r j i = false) ->
      read_mask m r t j i = base_mask f0 r t j i || r_smask r j i).
    { intros m0 r0 (_ & _ & _ & _ & _ & _ & K & _) L0 M0 [(d & Dd & Ed)|[Dd Ed]]; unfold read_mask; rewrite Dd.
      - now apply Ed.
      - rewrite K, Ed, orb_false_r by assumption. reflexivity. }
    rewrite (Val m r), (Val m' r') by (auto; congruence). congruence.
Qed.

Lemma run f0 h gs : Mode f0 h -> Calm f0 -> forall f, Inv f0 h f ->
  let '(rs, stop, m) := process_geometries reproject e f gs in
  match stop with
  | None => length rs = length gs /\ Inv f0 h m /\ Prog f0 h f m /\
      forall k g o, nth_error gs k = Some g -> nth_error rs k = Some o ->
        exists r, o = Some r /\ View f0 h g r /\ (e_output e = None -> Done f0 h r m)
  | Some x => x = ExtentError /\ exists g, nth_error gs (length rs) = Some g /\
      forall j i, (j < f_ny f0)%nat -> (i < f_nx f0)%nat -> chosen f0 g j i = false
  end.
Proof.
  intros Mo Ca. induction gs as [|g t IH]; intros f Iv; cbn [process_geometries].
  - split; [reflexivity|]. split; [exact Iv|]. split; [unfold Prog; auto|]. intros [|k] g o; discriminate.
  - pose proof (step f0 h f g Mo Ca Iv) as S. destruct (process_geometry reproject e f g) as [[[r|]|x] f'].
    + destruct S as (Iv' & P & V & D). specialize (IH f' Iv').
      destruct (process_geometries reproject e f' t) as [[rs [x|]] m].
      * destruct IH as (-> & g' & N & C). split; [reflexivity|]. exists g'. split; [exact N | exact C].
      * destruct IH as (L & Im & Pm & IH). split; [cbn [length]; congruence|]. split; [exact Im|].
        split; [eapply prog_trans; eassumption|].
        intros [|k] g' o Ng No; cbn [nth_error] in Ng, No.
        -- injection Ng as <-. injection No as <-. exists r. split; [reflexivity|]. split; [exact V|].
           intro O. pose proof V as ((A & B & _) & _). eapply done_prog; [exact A|exact B|auto|exact Pm].
        -- now apply (IH k).
    + contradiction.
    + destruct S as [-> C]. split; [reflexivity|]. exists g. split; [reflexivity | exact C].
Qed.

Lemma single f0 h g : Mode f0 h -> Calm f0 ->
  (forall j i, (j < f_ny f0)%nat -> (i < f_nx f0)%nat -> chosen f0 g j i = false) ->
  exists m, process_geometries reproject e f0 [g] = ([], Some ExtentError, m).
Proof.
  intros Mo Ca N. pose proof (step f0 h f0 g Mo Ca (inv_refl f0 h)) as S. cbn [process_geometries].
  destruct (process_geometry reproject e f0 g) as [[[r|]|x] f'].
  - exfalso. destruct S as (_ & _ & ((A & B & C & D & E & (i & Li & Si) & _) & _) & _).
    rewrite N in Si; [discriminate | lia | lia].
  - contradiction.
  - destruct S as [-> _]. now exists f'.
Qed.

Lemma single_ok f0 h g m r : Mode f0 h -> Calm f0 -> View f0 h g r -> Inv f0 h m -> (e_output e = None -> Done f0 h r m) ->
  exists r1 m1, process_geometries reproject e f0 [g] = ([Some r1], None, m1) /\ SameResult m r m1 r1.
Proof.
  intros Mo Ca V Iv D. pose proof (step f0 h f0 g Mo Ca (inv_refl f0 h)) as S. cbn [process_geometries].
  destruct (process_geometry reproject e f0 g) as [[[r1|]|x] f'].
  - destruct S as (Iv' & _ & V' & D'). exists r1, f'. split; [reflexivity|]. eapply views_same; eauto.
  - contradiction.
  - exfalso. destruct S as [_ N]. destruct V as ((A & B & C & E & _ & (i & Li & Si) & _) & _).
    rewrite N in Si; [discriminate | lia | lia].
Qed.

Lemma each0 f0 h gs rs m : Mode f0 h -> Calm f0 -> process_geometries reproject e f0 gs = (rs, None, m) ->
  length rs = length gs /\
  forall k g r, nth_error gs k = Some g -> nth_error rs k = Some r ->
    exists r1 m1, process_geometries reproject e f0 [g] = ([r1], None, m1) /\ SameOutcome m r m1 r1.
Proof.
  intros Mo Ca E. pose proof (run f0 h gs Mo Ca f0 (inv_refl f0 h)) as R. rewrite E in R.
  destruct R as (L & Iv & _ & R). split; [exact L|]. intros k g o Ng No.
  destruct (R k g o Ng No) as (r & -> & V & D). destruct (single_ok f0 h g m r Mo Ca V Iv D) as (r1 & m1 & E1 & S1).
  exists (Some r1), m1. split; [exact E1 | exact S1].
Qed.

Lemma stop0 f0 h gs rs x m : Mode f0 h -> Calm f0 -> process_geometries reproject e f0 gs = (rs, Some x, m) ->
  exists g m1, nth_error gs (length rs) = Some g /\ process_geometries reproject e f0 [g] = ([], Some x, m1).
Proof.
  intros Mo Ca E. pose proof (run f0 h gs Mo Ca f0 (inv_refl f0 h)) as R. rewrite E in R.
  destruct R as (-> & g & N & C). destruct (single f0 h g Mo Ca C) as (m1 & E1). now exists g, m1.
Qed.

Lemma rot_first f g t : f_crs f = Rot -> e_output e = Some Sph \/ e_output e = Some Geo ->
  process_geometries reproject e f (g :: t) = process_geometries reproject e (update_crs reproject f Sph) (g :: t).
Proof.
  intros C O. cbn [process_geometries].
  assert (E : process_geometry reproject e f g = process_geometry reproject e (update_crs reproject f Sph) g).
  { unfold process_geometry. rewrite C. replace (f_crs (update_crs reproject f Sph)) with Sph by reflexivity. cbn [crs_eqb].
    destruct (get_spatial_subset reproject (new_operation false None) (update_crs reproject f Sph) g) as [[[r|[]] o] f2]; try reflexivity.
    unfold update_result. destruct O as [-> | ->]; reflexivity. }
  now rewrite E.
Qed.

Lemma rotated_partial f f' g t : f_crs f = Rot -> e_output e = Some Sph \/ e_output e = Some Geo ->
  f' = mkF Sph (f_ny f) (f_nx f) false
         (fun j i => let (x, _) := reproject Rot Sph (f_lon f j i) (f_lat f j i) in x)
         (fun j i => let (_, y) := reproject Rot Sph (f_lon f j i) (f_lat f j i) in y) (f_mask f) (f_loaded f) ->
  process_geometries reproject e f (g :: t) = process_geometries reproject e f' (g :: t).
Proof. intros C O ->. rewrite (rot_first f g t C O). unfold update_crs. rewrite C. reflexivity. Qed.

Lemma apart_mode f : Apart e f -> f_crs f <> Rot -> Calm f /\ exists h, Mode f h.
Proof.
  intros (A & B & C) NR. split; [split; [exact A|]; split; [exact NR | exact B]|].
  unfold Mode. destruct (e_output e) as [c|].
  - exists (fun x => x). left. split; congruence.
  - destruct C as [_ C]. destruct (e_wrapping e) as [w|].
    + destruct C as [C|[(-> & C & R)|C]].
      * exists (fun x => x). right. left. do 2 (split; [reflexivity|]). intros w' _ Gc. rewrite C in Gc. discriminate.
      * exists wrap_x. right. right. auto.
      * exists (fun x => x). right. left. do 2 (split; [reflexivity|]). intros w' Ew _ j i L M. injection Ew as <-.
        specialize (C j i L M). destruct w; cbn [turn]; unfold wrap_x, unwrap_x.
        -- destruct (180 <? f_lon f j i) eqn:K; lia.
        -- destruct (f_lon f j i <? 0) eqn:K; lia.
    + exists (fun x => x). right. left. do 2 (split; [reflexivity|]). discriminate.
Qed.

Lemma rot_apart f : Apart e f -> f_crs f = Rot ->
  (e_output e = Some Sph \/ e_output e = Some Geo) /\ Apart e (update_crs reproject f Sph).
Proof.
  intros (A & B & C) R. unfold Apart. destruct (e_output e) as [c|].
  - split; [destruct (C R) as [-> | ->]; auto|]. split; [exact A|]. split; [exact B|]. intros K. discriminate.
  - destruct C as [C _]. congruence.
Qed.

Lemma crs_dec f : f_crs f = Rot \/ f_crs f <> Rot.
Proof. destruct (f_crs f); auto; right; discriminate. Qed.

Lemma each_partial f gs rs m : Apart e f -> process_geometries reproject e f gs = (rs, None, m) ->
  length rs = length gs /\
  forall k g r, nth_error gs k = Some g -> nth_error rs k = Some r ->
    exists r1 m1, process_geometries reproject e f [g] = ([r1], None, m1) /\ SameOutcome m r m1 r1.
Proof.
  intros A E. destruct (crs_dec f) as [R|NR].
  - destruct (rot_apart f A R) as [O A']. destruct gs as [|g0 t].
    + cbn in E. injection E as <- <-. split; [reflexivity|]. intros [|k]; discriminate.
    + rewrite rot_first in E by assumption.
      destruct (apart_mode _ A') as [Ca [h Mo]]; [discriminate|].
      destruct (each0 _ h _ _ _ Mo Ca E) as [L K]. split; [exact L|]. intros k g r Ng Nr.
      rewrite rot_first by assumption. now apply (K k).
  - destruct (apart_mode _ A NR) as [Ca [h Mo]]. now apply (each0 _ h).
Qed.

Lemma stop_partial f gs rs x m : Apart e f -> process_geometries reproject e f gs = (rs, Some x, m) ->
  exists g m1, nth_error gs (length rs) = Some g /\ process_geometries reproject e f [g] = ([], Some x, m1).
Proof.
  intros A E. destruct (crs_dec f) as [R|NR].
  - destruct (rot_apart f A R) as [O A']. destruct gs as [|g0 t]; [discriminate|].
    rewrite rot_first in E by assumption.
    destruct (apart_mode _ A') as [Ca [h Mo]]; [discriminate|].
    destruct (stop0 _ h _ _ _ _ Mo Ca E) as (g & m1 & N & K). exists g, m1. split; [exact N|]. now rewrite rot_first.
  - destruct (apart_mode _ A NR) as [Ca [h Mo]]. now apply (stop0 _ h gs rs x m).
Qed.

(** What the results hold. *)
Lemma view_subset f0 h (L : Z -> Z -> Prop) g r m : InRange f0 -> f_crs f0 <> Rot -> e_output e = None ->
  (forall j i, (j < f_ny f0)%nat -> (i < f_nx f0)%nat -> L (f_lon f0 j i) (h (f_lon f0 j i))) ->
  View f0 h g r -> Inv f0 h m -> Done f0 h r m -> SubsetWith L f0 g m r.
Proof.
  intros R NR Out HL (W & C & Sm & Dm & Ow) (_ & _ & _ & _ & I5 & _ & I7 & _) D.
  rewrite Out in *. destruct (r_own r) as [[x y]|] eqn:Ro; [contradiction|].
  destruct W as (A & B & J & I & E & (a & La & Sa) & (b & Lb & Sb) & (c & Lc & Sc) & (d & Ld & Sd)).
  unfold SubsetWith. split; [exact C|]. split; [exact A|]. split; [exact B|]. split.
  { intros j i In. pose proof In as (Lj & Li & _). apply chosen_inside in In; auto. }
  split; [exists a; apply chosen_inside; auto; lia|]. split; [exists b; apply chosen_inside; auto; lia|].
  split; [exists c; apply chosen_inside; auto; lia|]. split; [exists d; apply chosen_inside; auto; lia|].
  intros j i Lj Li. assert (Bj : (r_j0 r + j < f_ny f0)%nat) by (unfold height in Lj; lia).
  assert (Bi : (r_i0 r + i < f_nx f0)%nat) by (unfold width in Li; lia).
  assert (Es : r_smask r j i = true <-> ~ Inside f0 g (r_j0 r + j) (r_i0 r + i)).
  { rewrite Sm by assumption. apply not_inside; assumption. }
  split; [exact Es|]. unfold read_lon, read_lat. rewrite Ro, I5. split.
  { rewrite D by (unfold height, width in *; lia). now apply HL. }
  split; [reflexivity|]. intro t. rewrite <- Es, <- base_masked.
  unfold read_mask. destruct Dm as [(d' & Dd & Ed)|[Dd Ed]]; rewrite Dd.
  - rewrite Ed by assumption. apply orb_true_iff.
  - rewrite I7, Ed by assumption. fold (base_mask f0 r t j i). intuition discriminate.
Qed.

Lemma cells_partial f gs rs m : Apart e f -> InRange f -> e_output e = None ->
  process_geometries reproject e f gs = (rs, None, m) ->
  forall k g o, nth_error gs k = Some g -> nth_error rs k = Some o ->
    exists r, o = Some r /\
      SubsetWith (match e_wrapping e with
                  | Some true => PlaceOf (f_crs f)
                  | Some false => fun x y => y = x
                  | None => fun x y => y = x end) f g m r.
Proof.
  intros A R Out E k g o Ng No. pose proof A as (A1 & A2 & A3). rewrite Out in A3. destruct A3 as [NR A3].
  assert (K : exists h, Mode f h /\ forall j i, (j < f_ny f)%nat -> (i < f_nx f)%nat ->
     (match e_wrapping e with
                  | Some true => PlaceOf (f_crs f)
                  | Some false => fun x y => y = x
                  | None => fun x y => y = x end) (f_lon f j i) (h (f_lon f j i))).
  { destruct (e_wrapping e) as [w|] eqn:Ew.
    - destruct A3 as [Fl|[(-> & Sp & _)|G]].
      + exists (fun x => x). split.
        * right. left. split; [exact Out|]. split; [reflexivity|]. intros w' _ Gc. rewrite Fl in Gc. discriminate.
        * intros j i L M. rewrite Fl. destruct w; reflexivity.
      + exists wrap_x. split.
        * right. right. auto.
        * intros j i L M. unfold InRange in R. rewrite Sp in *. specialize (R j i L M). apply place_wrap; [auto | lia | reflexivity].
      + exists (fun x => x). split.
        * right. left. split; [exact Out|]. split; [reflexivity|]. intros w' Ew' _ j i L M.
          assert (w' = w) by congruence. subst w'.
          specialize (G j i L M). destruct w; cbn [turn]; unfold wrap_x, unwrap_x.
          -- destruct (180 <? f_lon f j i) eqn:K; lia.
          -- destruct (f_lon f j i <? 0) eqn:K; lia.
        * intros j i L M. specialize (G j i L M). destruct w; [|reflexivity].
          pose proof (range_place f j i R NR L M) as P.
          assert (Wx : wrap_x (f_lon f j i) = f_lon f j i) by (unfold wrap_x; destruct (180 <? f_lon f j i) eqn:K; lia).
          destruct (f_crs f) eqn:Cf; try reflexivity; unfold InRange in R; rewrite Cf in R.
          -- specialize (R j i L M). apply place_wrap; [auto | lia | congruence].
          -- destruct R as [R|R]; specialize (R j i L M); (apply place_wrap; [auto | lia | congruence]).
    - exists (fun x => x). split; [|reflexivity]. right. left. split; [exact Out|]. split; [reflexivity|]. congruence. }
  destruct K as (h & Mo & HL).
  assert (Ca : Calm f) by (split; [exact A1|]; split; [exact NR | exact A2]).
  pose proof (run f h gs Mo Ca f (inv_refl f h)) as Rn. rewrite E in Rn. destruct Rn as (_ & Iv & _ & Rn).
  destruct (Rn k g o Ng No) as (r & -> & V & D). exists r. split; [reflexivity|].
  eapply view_subset; eauto.
Qed.

Lemma output_partial f c gs rs m : Apart e f -> f_crs f <> Rot -> e_output e = Some c ->
  process_geometries reproject e f gs = (rs, None, m) ->
  forall k o, nth_error rs k = Some o -> exists r, o = Some r /\ r_crs r = c /\
    forall j i, (j < height r)%nat -> (i < width r)%nat ->
      let q := reproject (f_crs f) c (f_lon f (r_j0 r + j) (r_i0 r + i)) (f_lat f (r_j0 r + j) (r_i0 r + i)) in
      read_lat m r j i = snd q /\
      match e_wrapping e with
      | None => read_lon m r j i = fst q
      | Some w => w = true -> -180 < fst q <= 360 -> PlaceOf c (fst q) (read_lon m r j i)
      end.
Proof.
  intros A NR Out E k o No. destruct (apart_mode _ A NR) as [Ca [h Mo]].
  pose proof (run f h gs Mo Ca f (inv_refl f h)) as Rn. rewrite E in Rn. destruct Rn as (Le & Iv & _ & Rn).
  destruct (nth_error gs k) as [g|] eqn:Ng.
  2: { apply nth_error_None in Ng. assert (k < length rs)%nat by (apply nth_error_Some; congruence). lia. }
  destruct (Rn k g o Ng No) as (r & -> & (W & C & Sm & Dm & Ow) & _). exists r. split; [reflexivity|].
  rewrite Out in *. split; [exact C|]. intros j i L M. cbv zeta.
  destruct (r_own r) as [[x y]|] eqn:Ro; [|contradiction].
  destruct (Ow j i L M) as [Ex Ey]. unfold read_lat, read_lon. rewrite Ro. split; [exact Ey|].
  rewrite Ex. fold (base_lon f c r j i). unfold own_lon. destruct (e_wrapping e) as [w|]; [|reflexivity].
  intros -> B. destruct c; cbn [geographic andb PlaceOf]; try reflexivity.
  all: match goal with |- context [wstate_eqb ?s _] => destruct (wstate_eqb s (goal true)) eqn:St end; cbn [negb turn].
  all: try (apply (place_wrap Sph); [auto | lia | reflexivity]).
  all: apply (place_wrap Sph); [auto | lia |].
  all: match type of St with wstate_eqb (state_of ?c ?a ?b ?l) _ = true =>
         pose proof (state_cases c a b l) as Sc; destruct (state_of c a b l); try discriminate;
         destruct Sc as (_ & Sc & _); specialize (Sc j i L M); unfold wrap_x;
         destruct (180 <? base_lon f _ r j i) eqn:K; lia end.
Qed.

(** Each dataset on its own. *)
Lemma datasets_each fs gs out : process_datasets reproject e fs gs = (out, None) ->
  length out = length fs /\
  forall k f, nth_error fs k = Some f ->
    exists rs m, nth_error out k = Some (rs, m) /\ process_geometries reproject e f gs = (rs, None, m).
Proof.
  revert out. induction fs as [|f t IH]; intros out E; cbn [process_datasets] in E.
  - injection E as <-. split; [reflexivity|]. intros [|k]; discriminate.
  - destruct (process_geometries reproject e f gs) as [[rs [x|]] m] eqn:P; [discriminate|].
    destruct (process_datasets reproject e t gs) as [out' stop'] eqn:Q. injection E as <- ->.
    destruct (IH _ eq_refl) as [L K]. split; [cbn [length]; congruence|].
    intros [|k] f' N; cbn [nth_error] in N |- *; [|now apply K].
    injection N as <-. now exists rs, m.
Qed.

Lemma datasets_stop fs gs out x : process_datasets reproject e fs gs = (out, Some x) ->
  exists done rs m f, out = done ++ [(rs, m)] /\ nth_error fs (length done) = Some f /\
    process_geometries reproject e f gs = (rs, Some x, m) /\
    forall k f', (k < length done)%nat -> nth_error fs k = Some f' ->
      exists rs' m', nth_error done k = Some (rs', m') /\ process_geometries reproject e f' gs = (rs', None, m').
Proof.
  revert out. induction fs as [|f t IH]; intros out E; cbn [process_datasets] in E; [discriminate|].
  destruct (process_geometries reproject e f gs) as [[rs [y|]] m] eqn:P.
  - injection E as <- ->. exists [], rs, m, f. split; [reflexivity|]. split; [reflexivity|]. split; [exact P|].
    intros k f' K. cbn in K. lia.
  - destruct (process_datasets reproject e t gs) as [out' stop'] eqn:Q. injection E as <- ->.
    destruct (IH _ eq_refl) as (dn & rs' & m' & f' & -> & N & P' & K). exists ((rs, m) :: dn), rs', m', f'.
    split; [reflexivity|]. split; [exact N|]. split; [exact P'|].
    intros [|k] f2 Lk Nk; cbn [nth_error length] in *.
    + injection Nk as <-. now exists rs, m.
    + apply K; [lia | exact Nk].
Qed.
End Engine.

(** Slices by standard name. *)
Lemma slice_all names d : (forall kv, In kv d -> In (fst kv) names) -> slice_names names d = d.
Proof.
  intro H. unfold slice_names. induction d as [|kv t IH]; [reflexivity|]. cbn [filter].
  replace (existsb (String.eqb (fst kv)) names) with true.
  - f_equal. apply IH. intros; apply H; now right.
  - symmetry. apply existsb_exists. exists (fst kv). split; [apply H; now left | apply String.eqb_refl].
Qed.

Lemma slice_partial d dss : (forall names, In names dss -> forall kv, In kv d -> In (fst kv) names) ->
  slice_datasets d dss = flat_map (fun names => slice_datasets d [names]) dss.
Proof.
  induction dss as [|names t IH]; intro H; [reflexivity|]. cbn [slice_datasets flat_map app].
  rewrite slice_all by (apply H; now left). f_equal. apply IH. intros; apply H; auto. now right.
Qed.
