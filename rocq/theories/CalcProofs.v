From Verif Require Import Py Lib Spec PicksLib NdModel TimeModel TimeProofs SeasonProofs CalcModel CalcSpec.
From Coq Require Import Sorted.

(** ** C27 *)
Lemma set_nth_length {A} : forall (l : list A) n x, List.length (set_nth l n x) = List.length l.
Proof. induction l; destruct n; cbn; intros; auto. Qed.
Lemma nth_error_set_nth {A} : forall (l : list A) n x k, (n < List.length l)%nat ->
  nth_error (set_nth l n x) k = if Nat.eqb k n then Some x else nth_error l k.
Proof.
  induction l as [|a l IH]; intros n x k H; cbn in H; [lia|].
  destruct n, k; cbn; auto. apply IH. lia.
Qed.

Lemma kernels_valid_fold {S} shift n (body : S -> Z -> pyslice -> res S) : 0 <= shift -> forall fuel origin s,
  0 <= origin -> Z.max shift (n - shift) - origin < Z.of_nat fuel -> origin <= Z.max shift (n - shift) ->
  kernels_valid fuel shift n origin body s =
  fold_res (fun s o => body s o (slice_of (o - shift) (o + shift + 1))) (zrange (Z.max origin shift) (n - shift)) s.
Proof.
  intros Hs. induction fuel as [|f IH]; intros origin s H0 Hf Hm; [lia|].
  cbn [kernels_valid]. destruct (Z.ltb_spec (origin - shift) 0).
  - rewrite IH by lia. f_equal. f_equal. lia.
  - destruct (Z.ltb_spec n (origin + shift + 1)).
    + rewrite zrange_nil by lia. reflexivity.
    + rewrite (zrange_cons (Z.max origin shift)) by lia. rewrite Z.max_l by lia. cbn [fold_res].
      destruct (body s origin _) as [s'|e]; cbn [bind]; [|reflexivity].
      rewrite IH by lia. f_equal. f_equal. lia.
Qed.

Lemma kernels_same_fold {S} shift n (body : S -> Z -> pyslice -> res S) : forall fuel origin s,
  0 <= origin < n -> n - origin <= Z.of_nat fuel ->
  kernels_same fuel shift n origin body s =
  fold_res (fun s o => body s o (slice_of (if o - shift <? 0 then 0 else o - shift) (o + shift + 1))) (zrange origin n) s.
Proof.
  induction fuel as [|f IH]; intros origin s H0 Hf; [lia|].
  cbn [kernels_same]. rewrite (zrange_cons origin) by lia. cbn [fold_res].
  destruct (body s origin _) as [s'|e]; cbn [bind]; [|reflexivity].
  destruct (Z.eqb_spec (origin + 1) n) as [<-|].
  - rewrite zrange_nil by lia. reflexivity.
  - apply IH; lia.
Qed.

Definition wbody {R} (op : list R -> R) (values : list R) (st : list R * option (Z * Z)) (origin : Z) (slc : pyslice)
  : res (list R * option (Z * Z)) :=
  let '(fill, b) := st in
  let b' := match b with None => (origin, origin) | Some (s, _) => (s, origin) end in
  do fill' <- py_setitem fill origin (op (py_slice values slc));
  Ok (fill', Some b').

Lemma wfold {R} (op : list R -> R) (values : list R) (sl : Z -> pyslice) : forall m a fill bo,
  0 <= a -> a + Z.of_nat m <= zlen fill ->
  exists fill', fold_res (fun s o => wbody op values s o (sl o)) (zrange a (a + Z.of_nat m)) (fill, bo) =
    Ok (fill', match m with O => bo | Datatypes.S _ => Some (match bo with None => a | Some (s, _) => s end, a + Z.of_nat m - 1) end) /\
    List.length fill' = List.length fill /\
    forall t, nth_error fill' t = if (a <=? Z.of_nat t) && (Z.of_nat t <? a + Z.of_nat m)
                                  then Some (op (py_slice values (sl (Z.of_nat t)))) else nth_error fill t.
Proof.
  induction m as [|m IH]; intros a fill bo Ha Hm.
  - rewrite zrange_nil by lia. exists fill. cbn [fold_res]. split; [reflexivity|]. split; [reflexivity|].
    intros t. replace ((a <=? Z.of_nat t) && (Z.of_nat t <? a + Z.of_nat 0)) with false by lia. reflexivity.
  - rewrite zrange_cons by lia. cbn [fold_res].
    unfold wbody at 1. unfold py_setitem. unfold zlen in *.
    replace ((a <? 0) || (Z.of_nat (List.length fill) <=? a)) with false by lia. cbn [bind].
    replace (a + Z.of_nat (Datatypes.S m)) with (a + 1 + Z.of_nat m) by lia.
    destruct (IH (a + 1) (set_nth fill (Z.to_nat a) (op (py_slice values (sl a))))
      (Some match bo with Some (s, _) => (s, a) | None => (a, a) end)) as (fill' & E & L & N);
      [lia|rewrite set_nth_length; lia|].
    exists fill'. rewrite E. split.
    + f_equal. f_equal. destruct m; destruct bo as [[? ?]|]; cbn [fst]; f_equal; f_equal; lia.
    + rewrite L, set_nth_length. split; [reflexivity|]. intros t. rewrite N.
      destruct (Z.eq_dec (Z.of_nat t) a) as [<-|Hne].
      * replace ((Z.of_nat t + 1 <=? Z.of_nat t) && _) with false by lia.
        replace ((Z.of_nat t <=? Z.of_nat t) && _) with true by lia.
        rewrite nth_error_set_nth by lia. rewrite Nat2Z.id, Nat.eqb_refl. reflexivity.
      * replace ((a + 1 <=? Z.of_nat t) && (Z.of_nat t <? a + 1 + Z.of_nat m))
          with ((a <=? Z.of_nat t) && (Z.of_nat t <? a + 1 + Z.of_nat m)) by lia.
        destruct ((a <=? Z.of_nat t) && (Z.of_nat t <? a + 1 + Z.of_nat m)); [reflexivity|].
        rewrite nth_error_set_nth by lia. destruct (Nat.eqb_spec t (Z.to_nat a)); [lia|reflexivity].
Qed.

(** A slice picks the positions between its ends. *)
Lemma nth_error_firstn' {A} : forall (l : list A) n k, nth_error (firstn n l) k = if (k <? n)%nat then nth_error l k else None.
Proof.
  induction l as [|x l IH]; intros n k.
  - rewrite firstn_nil. replace (nth_error (@nil A) k) with (@None A) by (destruct k; reflexivity). destruct (k <? n)%nat; reflexivity.
  - destruct n as [|n]; [destruct k; reflexivity|]. destruct k as [|k]; [reflexivity|]. cbn [firstn nth_error]. rewrite IH. reflexivity.
Qed.
Lemma nth_error_skipn' {A} : forall n (l : list A) k, nth_error (skipn n l) k = nth_error l (n + k).
Proof. induction n; intros [|x l] k; cbn; auto. destruct k; reflexivity. Qed.

Lemma nth_error_ext' {A} : forall a b : list A, (forall k, nth_error a k = nth_error b k) -> a = b.
Proof.
  induction a as [|x a IH]; intros [|y b] H; [reflexivity|specialize (H 0%nat); discriminate|specialize (H 0%nat); discriminate|].
  pose proof (H 0%nat) as H0. cbn in H0. injection H0 as ->. f_equal. apply IH. intros k. apply (H (S k)).
Qed.

Lemma picks_cut {A} (l : list A) (a b : nat) : (a <= b <= List.length l)%nat ->
  Picks (fun j => (a <= j < b)%nat) l (firstn (b - a) (skipn a l)).
Proof.
  intros H. exists (seq a (b - a)). split; [apply sorted_seq|]. split.
  - intros k. rewrite in_seq. lia.
  - apply nth_error_ext'. intros k. rewrite !nth_error_map, nth_error_firstn', nth_error_skipn'.
    destruct (Nat.ltb_spec k (b - a)).
    + rewrite (nth_error_nth' _ 0%nat) by (rewrite seq_length; lia). rewrite seq_nth by lia. cbn.
      destruct (nth_error l (a + k)) eqn:E; [reflexivity|]. apply nth_error_None in E. lia.
    + destruct (nth_error (seq a (b - a)) k) eqn:E; [|reflexivity].
      assert (k < List.length (seq a (b - a)))%nat by (apply nth_error_Some; congruence). rewrite seq_length in *. lia.
Qed.

Lemma picks_py_slice {A} (l : list A) s e : 0 <= s <= e ->
  Picks (fun j => s <= Z.of_nat j < e) l (py_slice l (slice_of s e)).
Proof.
  intros Hs. unfold py_slice, slice_bounds, slice_of, clip_end. cbn [sl_start sl_stop].
  destruct (Z.ltb_spec s 0); [lia|]. destruct (Z.ltb_spec e 0); [lia|].
  unfold zlen. set (n := List.length l).
  replace (Z.to_nat (Z.min e (Z.of_nat n) - Z.min s (Z.of_nat n))) with
    (Z.to_nat (Z.min e (Z.of_nat n)) - Z.to_nat (Z.min s (Z.of_nat n)))%nat by lia.
  eapply picks_ext; [apply picks_cut; fold n; lia|]. cbn beta. fold n. intros. lia.
Qed.

Lemma window_shift h : ((2 * h + 1) - 1) / 2 = h.
Proof. lia. Qed.
Lemma window_checks h : 1 <= h -> ((2 * h + 1) mod 2 =? 0) || (2 * h + 1 <? 3) = false.
Proof. lia. Qed.

Lemma window_profile_valid {R} (op : list R -> R) h (values : list R) : 1 <= h -> 2 * h + 1 <= zlen values ->
  exists fill, window_profile op (2 * h + 1) Valid values = Ok (fill, Some (h, zlen values - h - 1)) /\
    List.length fill = List.length values /\
    forall t, nth_error fill t = if (h <=? Z.of_nat t) && (Z.of_nat t <? zlen values - h)
      then Some (op (py_slice values (slice_of (Z.of_nat t - h) (Z.of_nat t + h + 1)))) else nth_error values t.
Proof.
  intros Hh Hn. unfold window_profile. rewrite window_checks by lia. rewrite window_shift.
  fold (wbody op values). rewrite kernels_valid_fold by lia. rewrite Z.max_r by lia.
  destruct (wfold op values (fun o => slice_of (o - h) (o + h + 1)) (Z.to_nat (zlen values - h - h)) h values None)
    as (fill & E & L & N); [lia|lia|].
  exists fill. split.
  - replace (h + Z.of_nat (Z.to_nat (zlen values - h - h))) with (zlen values - h) in E by lia.
    etransitivity; [exact E|].
    destruct (Z.to_nat (zlen values - h - h)) eqn:Em; [lia|]. f_equal.
  - split; [exact L|]. intros t. rewrite N. replace (h + Z.of_nat (Z.to_nat (zlen values - h - h))) with (zlen values - h) by lia.
    reflexivity.
Qed.

Lemma window_profile_short {R} (op : list R -> R) h (values : list R) : 1 <= h -> zlen values < 2 * h + 1 ->
  window_profile op (2 * h + 1) Valid values = Ok (values, None).
Proof.
  intros Hh Hn. unfold window_profile. rewrite window_checks by lia. rewrite window_shift.
  pose proof (zlen_nonneg values). fold (wbody op values). rewrite kernels_valid_fold by lia.
  rewrite zrange_nil by lia. reflexivity.
Qed.

Lemma window_profile_same {R} (op : list R -> R) h (values : list R) : 1 <= h -> 1 <= zlen values ->
  exists fill b, window_profile op (2 * h + 1) Same values = Ok (fill, b) /\
    List.length fill = List.length values /\
    forall t, (t < List.length values)%nat -> nth_error fill t =
      Some (op (py_slice values (slice_of (if Z.of_nat t - h <? 0 then 0 else Z.of_nat t - h) (Z.of_nat t + h + 1)))).
Proof.
  intros Hh Hn. unfold window_profile. rewrite window_checks by lia. rewrite window_shift.
  fold (wbody op values). rewrite kernels_same_fold by lia.
  destruct (wfold op values (fun o => slice_of (if o - h <? 0 then 0 else o - h) (o + h + 1)) (Z.to_nat (zlen values)) 0 values None)
    as (fill & E & L & N); [lia|lia|].
  replace (0 + Z.of_nat (Z.to_nat (zlen values))) with (zlen values) in E by lia.
  eexists fill, _. split; [exact E|]. split; [exact L|]. intros t Ht. rewrite N. unfold zlen.
  replace ((0 <=? Z.of_nat t) && _) with true by lia. reflexivity.
Qed.

Lemma picks_same_window {R} (values : list R) h t w : 0 <= h -> Picks (NearStep h t) values w ->
  w = py_slice values (slice_of (if Z.of_nat t - h <? 0 then 0 else Z.of_nat t - h) (Z.of_nat t + h + 1)).
Proof.
  intros Hh P. eapply picks_unique; [exact P|].
  eapply picks_ext; [apply picks_py_slice|]; [destruct (Z.ltb_spec (Z.of_nat t - h) 0); lia|].
  cbn beta. unfold NearStep. intros. destruct (Z.ltb_spec (Z.of_nat t - h) 0); lia.
Qed.

Lemma moving_window_fold {A} (op : list (list (mcell A)) -> list (mcell A)) k mode : forall profiles acc b,
  fold_res (fun st values =>
             let '(acc, b) := st in
             do r <- window_profile op k mode values;
             let '(fill, b') := r in
             Ok (acc ++ [fill], match b' with Some _ => b' | None => b end)) profiles (acc, b) =
  do rs <- map_res (window_profile op k mode) profiles;
  Ok (acc ++ map fst rs, fold_left (fun b r => match snd r with Some _ => snd r | None => b end) rs b).
Proof.
  induction profiles as [|v profiles IH]; intros acc b; cbn [fold_res map_res bind].
  - cbn. rewrite app_nil_r. reflexivity.
  - destruct (window_profile op k mode v) as [[fill b']|e]; cbn [bind]; [|reflexivity].
    rewrite IH. destruct (map_res _ profiles) as [rs|]; cbn [bind]; [|reflexivity].
    cbn [map fold_left fst snd]. rewrite <- app_assoc. reflexivity.
Qed.

Theorem moving_window_same : forall A (op : list (list (mcell A)) -> list (mcell A)) h profiles,
  1 <= h -> (forall p, In p profiles -> p <> []) ->
  exists out, moving_window op (2 * h + 1) Same profiles = Ok out /\
    Forall2 (fun values result => List.length result = List.length values /\
      forall t w, (t < List.length values)%nat -> Picks (NearStep h t) values w -> nth_error result t = Some (op w)) profiles out.
Proof.
  intros A op h profiles Hh Hne. unfold moving_window. rewrite moving_window_fold.
  assert (Hm : exists rs, map_res (window_profile op (2 * h + 1) Same) profiles = Ok rs).
  { apply map_res_exists. intros v Hv. destruct (window_profile_same op h v) as (f & b & E & _); [lia| |eauto].
    pose proof (Hne v Hv). destruct v; [congruence|rewrite zlen_cons; pose proof (zlen_nonneg v); lia]. }
  destruct Hm as [rs Hrs]. rewrite Hrs. cbn [bind app]. eexists. split; [reflexivity|].
  apply map_res_ok in Hrs. rewrite <- (map_id profiles). 
  revert rs Hrs Hne. induction profiles as [|v profiles IH]; intros rs Hrs Hne; inversion Hrs; subst; cbn [map]; constructor.
  - destruct (window_profile_same op h v) as (f & b & E & L & N); [lia| |].
    { pose proof (Hne v (or_introl eq_refl)). destruct v; [congruence|rewrite zlen_cons; pose proof (zlen_nonneg v); lia]. }
    match goal with H : window_profile _ _ _ v = Ok _ |- _ => rewrite E in H; injection H as <- end. cbn [fst].
    split; [exact L|]. intros t w Ht P. rewrite N by exact Ht. f_equal. f_equal. symmetry. apply picks_same_window; [lia|exact P].
  - apply IH; [assumption|]. intros p Hp. apply Hne. right. exact Hp.
Qed.


Lemma mask_outside_nth {A} a b (p : list (list (mcell A))) t :
  nth_error (mask_outside a b p) t =
  option_map (map (fun c => (negb ((a <=? Z.of_nat t) && (Z.of_nat t <? b)), snd c))) (nth_error p t).
Proof.
  unfold mask_outside. rewrite nth_error_map.
  destruct (nth_error p t) as [row|] eqn:E.
  - assert (t < List.length p)%nat by (apply nth_error_Some; congruence).
    rewrite (nth_error_combine _ _ _ (Z.of_nat t) row); [reflexivity| |exact E].
    rewrite nth_error_zrange by (unfold zlen; lia). f_equal.
  - apply nth_error_None in E. assert (En : nth_error (combine (zrange 0 (zlen p)) p) t = None).
    { apply nth_error_None. rewrite combine_length. lia. }
    rewrite En. reflexivity.
Qed.
Lemma mask_outside_length {A} a b (p : list (list (mcell A))) : List.length (mask_outside a b p) = List.length p.
Proof. unfold mask_outside. rewrite map_length, combine_length, zrange_length. unfold zlen. lia. Qed.

Lemma picks_full_window {R} (values : list R) h t w : 0 <= h <= Z.of_nat t -> Picks (NearStep h t) values w ->
  w = py_slice values (slice_of (Z.of_nat t - h) (Z.of_nat t + h + 1)).
Proof.
  intros Hh P. rewrite (picks_same_window values h t w) by (lia || exact P).
  destruct (Z.ltb_spec (Z.of_nat t - h) 0); [lia|reflexivity].
Qed.

Theorem moving_window_valid : forall A (op : list (list (mcell A)) -> list (mcell A)) h n profiles,
  1 <= h -> 2 * h + 1 <= n -> profiles <> [] -> (forall p, In p profiles -> zlen p = n) ->
  exists out, moving_window op (2 * h + 1) Valid profiles = Ok out /\
    Forall2 (fun values result => List.length result = List.length values /\
      forall t row, nth_error values t = Some row ->
        (h <= Z.of_nat t < n - h -> forall w, Picks (NearStep h t) values w ->
           nth_error result t = Some (map (fun c => (false, snd c)) (op w))) /\
        (~ (h <= Z.of_nat t < n - h) -> nth_error result t = Some (map (fun c => (true, snd c)) row))) profiles out.
Proof.
  intros A op h n profiles Hh Hn Hne Hall. unfold moving_window. rewrite moving_window_fold.
  assert (Hm : exists rs, map_res (window_profile op (2 * h + 1) Valid) profiles = Ok rs).
  { apply map_res_exists. intros v Hv. destruct (window_profile_valid op h v) as (f & E & _); [lia| |eauto].
    rewrite (Hall v Hv). lia. }
  destruct Hm as [rs Hrs]. rewrite Hrs. cbn [bind app].
  apply map_res_ok in Hrs.
  assert (Hb : forall r, In r rs -> snd r = Some (h, n - h - 1)).
  { clear Hne. revert profiles Hrs Hall. induction rs as [|r rs IH]; intros profiles Hrs Hall r' [].
    - subst r'. inversion Hrs; subst. destruct (window_profile_valid op h x) as (f & E & _); [lia| |].
      + rewrite (Hall x (or_introl eq_refl)). lia.
      + match goal with H : window_profile _ _ _ x = Ok _ |- _ => rewrite E in H; injection H as <- end.
        cbn. rewrite (Hall x (or_introl eq_refl)). reflexivity.
    - inversion Hrs; subst. eapply IH; [eassumption| |assumption]. intros p Hp. apply Hall. right. exact Hp. }
  assert (Hfl : forall b, rs <> [] -> fold_left (fun b r => match snd r with Some _ => snd r | None => b end) rs b = Some (h, n - h - 1)).
  { clear Hrs. induction rs as [|r rs IH]; intros b Hr; [congruence|]. cbn [fold_left].
    rewrite (Hb r (or_introl eq_refl)). destruct rs as [|r' rs]; [reflexivity|]. apply IH; [|discriminate].
    intros x Hx. apply Hb. right. exact Hx. }
  rewrite Hfl; [|intros ->; inversion Hrs; congruence].
  eexists. split; [reflexivity|]. clear Hfl Hb Hne.
  revert profiles Hrs Hall. induction rs as [|r rs IH]; intros profiles Hrs Hall; inversion Hrs; subst; cbn [map]; constructor.
  - destruct (window_profile_valid op h x) as (f & E & L & N); [lia| |].
    { rewrite (Hall x (or_introl eq_refl)). lia. }
    match goal with H : window_profile _ _ _ x = Ok _ |- _ => rewrite E in H; injection H as <- end. cbn [fst].
    rewrite mask_outside_length. split; [exact L|]. intros t row Ht. rewrite mask_outside_nth, N.
    rewrite (Hall x (or_introl eq_refl)). split.
    + intros Hr w P. replace ((h <=? Z.of_nat t) && (Z.of_nat t <? n - h)) with true by lia. cbn [option_map].
      replace ((h <=? Z.of_nat t) && (Z.of_nat t <? n - h - 1 + 1)) with true by lia.
      rewrite (picks_full_window x h t w) by (lia || exact P). reflexivity.
    + intros Hr. replace ((h <=? Z.of_nat t) && (Z.of_nat t <? n - h)) with false by lia. rewrite Ht. cbn [option_map].
      replace ((h <=? Z.of_nat t) && (Z.of_nat t <? n - h - 1 + 1)) with false by lia. reflexivity.
  - apply IH; [assumption|]. intros p Hp. apply Hall. right. exact Hp.
Qed.

Theorem moving_window_short : forall A (op : list (list (mcell A)) -> list (mcell A)) h profiles,
  1 <= h -> (forall p, In p profiles -> zlen p < 2 * h + 1) -> moving_window op (2 * h + 1) Valid profiles = Err NameError.
Proof.
  intros A op h profiles Hh Hall. unfold moving_window. rewrite moving_window_fold.
  assert (E : map_res (window_profile op (2 * h + 1) Valid) profiles = Ok (map (fun p => (p, None)) profiles)).
  { apply map_res_all. intros p Hp. apply window_profile_short; [lia|auto]. }
  rewrite E. cbn [bind]. clear E Hall.
  replace (fold_left _ (map (fun p => (p, None)) profiles) None) with (@None (Z * Z)); [reflexivity|].
  induction profiles; cbn; auto.
Qed.

Theorem moving_window_bad_width : forall A (op : list (list (mcell A)) -> list (mcell A)) k mode profiles,
  profiles <> [] -> k mod 2 = 0 \/ k < 3 -> moving_window op k mode profiles = Err AssertionError.
Proof.
  intros A op k mode profiles Hne Hk. unfold moving_window. rewrite moving_window_fold.
  destruct profiles as [|p profiles]; [congruence|]. cbn [map_res]. unfold window_profile at 1.
  replace ((k mod 2 =? 0) || (k <? 3)) with true by lia. reflexivity.
Qed.
