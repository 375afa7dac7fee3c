(** Combined statements and witnesses for CoordProperties.v. *)
From Verif Require Import Py Lib Spec NdModel NdSpec TimeProofs AggSpec CoordModel CoordSpec FloatModel CoordProofs SelectProofs BoundsProofs.
From Coq Require Import Floats.SpecFloat Lqa.
Local Open Scope Z_scope.

Lemma arrays_spec arr :
  (Forall (Within 0 360) arr ->
     Forall2 (fun x y => (-(180) < y <= 180)%Q /\ (y == x \/ y == x - 360)%Q) arr (wrap_array 180 arr) /\
     Forall2 (fun x z => (z == x \/ x == 360 /\ z == 0)%Q) arr (unwrap_array 0 (wrap_array 180 arr)) /\
     wrap_array 180 (wrap_array 180 arr) = wrap_array 180 arr) /\
  (Forall (Within (-(180)) 180) arr ->
     Forall2 (fun x y => (0 <= y < 360)%Q /\ (y == x \/ y == x + 360)%Q) arr (unwrap_array 0 arr) /\
     Forall2 (fun x z => (z == x \/ x == -(180) /\ z == 180)%Q) arr (wrap_array 180 (unwrap_array 0 arr)) /\
     unwrap_array 0 (unwrap_array 0 arr) = unwrap_array 0 arr).
Proof.
  split; intros H.
  - split; [apply wrap_range, H|]. split; [apply unwrap_wrap, H | apply wrap_idem, H].
  - split; [apply unwrap_range, H|]. split; [apply wrap_unwrap, H | apply unwrap_idem, H].
Qed.
Lemma geometries_spec g g' :
  match g with GPolygon _ holes => holes = [] | _ => True end ->
  ((forall p, In p (points_of g) -> Within 0 360 (fst p)) -> wrap_geom 180 g = Ok g' ->
     Forall2 (fun p q => snd q = snd p /\ (-(180) < fst q <= 180)%Q /\ (fst q == fst p \/ fst q == fst p - 360)%Q) (points_of g) (points_of g')) /\
  ((forall p, In p (points_of g) -> Within (-(180)) 180 (fst p)) -> unwrap_geom 0 g = Ok g' ->
     Forall2 (fun p q => snd q = snd p /\ (0 <= fst q < 360)%Q /\ (fst q == fst p \/ fst q == fst p + 360)%Q) (points_of g) (points_of g')).
Proof. intros Hh. split; intros H E; [apply wrap_geom_points | apply unwrap_geom_points]; assumption. Qed.
Lemma holes_lost : exists ext hole g', wrap_geom 180 (GPolygon ext [hole]) = Ok g' /\
  (forall p, In p (ext ++ hole)%list -> Within 0 360 (fst p)) /\ List.length (points_of g') <> List.length (points_of (GPolygon ext [hole])).
Proof.
  exists [(200, 0); (210, 0); (210, 10)]%Q, [(205, 2); (206, 2); (206, 3)]%Q. eexists. split; [vm_compute; reflexivity|]. split; [|discriminate].
  intros p Hp. cbn in Hp. repeat (destruct Hp as [<-|Hp]; [split; vm_compute; discriminate|]). contradiction.
Qed.
Lemma rounding :
  (exists x, SFltb (fl (-180) 0) x = true /\ SFltb x (fl 180 0) = true /\ unwrap_float [x] = [fl 360 0]) /\
  (exists x, SFltb (fl (-180) 0) x = true /\ SFltb x (fl 180 0) = true /\ wrap_float (unwrap_float [x]) <> [x]).
Proof.
  split; [exists (fl (-1) (-60)) | exists (fl (-7205759403792794) (-56))]; (split; [reflexivity|]; split; [reflexivity|]); vm_compute; [reflexivity | discriminate].
Qed.
Lemma bounds_defined t c : ((2 <= List.length c)%nat -> exists b, get_bounds_from_1d t c = Ok b) /\ ((List.length c < 2)%nat -> get_bounds_from_1d t c = Err ValueError).
Proof. split; intros H; [destruct (bounds_closed t c H) as (D & b & E & _); exists b; exact E | apply bounds_short, H]. Qed.
Lemma outer_cell : exists c b cell, Ascending c /\ get_bounds_from_1d Float c = Ok b /\ nth_error b 0 = Some cell /\ (exists x, nth_error c 0 = Some x /\ ~ InCell cell x).
Proof.
  exists [0; 100; 101; 102]%Q. eexists. eexists. split; [|split; [vm_compute; reflexivity|split; [reflexivity|]]].
  - intros i j x y Hij Hx Hy. destruct i as [|[|[|[|i]]]], j as [|[|[|[|j]]]]; try lia; cbn in Hx, Hy; try discriminate; try (destruct i; discriminate); try (destruct j; discriminate);
      injection Hx as <-; injection Hy as <-; reflexivity.
  - exists 0%Q. split; [reflexivity|]. unfold InCell. cbn. intros [[H _]|[H _]]; vm_compute in H; apply H; reflexivity.
Qed.
Lemma integer_midpoint : exists b cell, get_bounds_from_1d Int [1; 2; 3]%Q = Ok b /\ nth_error b 1 = Some cell /\ ~ ((fst cell + snd cell) / 2 == 2)%Q.
Proof. eexists. eexists. split; [vm_compute; reflexivity|]. split; [reflexivity|]. vm_compute. discriminate. Qed.
Lemma composed_swaps : exists (c e o : nd Z), nd_shape c = [1; 2; 4] /\ CornersAgree 1 2 c /\ esmf_from_ocgis 0 c = Ok e /\ ocgis_from_esmf 0 e = Ok o /\ nd_shape o <> nd_shape c.
Proof.
  exists (mknd [1; 2; 4] (fun idx => match idx with [_; j; k] => j + (if k =? 1 then 1 else if k =? 2 then 11 else if k =? 3 then 10 else 0) | _ => 0 end)).
  eexists. eexists. split; [reflexivity|]. split; [|split; [reflexivity|split; [reflexivity|]]].
  - split; intros; cbn; try lia.
  - cbn. discriminate.
Qed.
Lemma bounds_select arr lower upper keep :
  ((lower <= upper)%Q -> exists sel, arr_intersects_bounds arr lower upper keep = Ok sel /\ Forall2 (fun x b => b = true <-> Selected keep lower upper x) arr sel) /\
  ((upper < lower)%Q -> arr_intersects_bounds arr lower upper keep = Err AssertionError).
Proof. split; intros H; [apply intersects_spec, H | apply intersects_rejects, H]. Qed.
Lemma hint_inverted : exists xs ys sel, hint_mask_vectorized xs ys 3 0 1 9 false false = Ok sel /\ xs <> [] /\ ys <> [].
Proof. exists [2%Q], [2%Q]. eexists. split; [reflexivity|]. split; discriminate. Qed.

Lemma nth_error_combine_both {A B} : forall (l : list A) (l' : list B) k x y,
  nth_error (combine l l') k = Some (x, y) <-> nth_error l k = Some x /\ nth_error l' k = Some y.
Proof.
  induction l as [|a l IH]; intros [|b l'] k x y; destruct k; cbn; try (split; [discriminate | intros [? ?]; discriminate]).
  - split; [intros E; assert (a = x /\ b = y) as [-> ->] by (split; congruence); auto | intros [E F]; congruence].
  - apply IH.
Qed.
Lemma hint_2d_touch xs ys minx miny maxx maxy invert : Forall2 (fun a b => List.length a = List.length b) xs ys ->
  (hint_mask_2d xs ys minx miny maxx maxy invert true = Err NoTouching <->
   exists i j rx ry x y, nth_error xs i = Some rx /\ nth_error ys i = Some ry /\ nth_error rx j = Some x /\ nth_error ry j = Some y /\
     (x == minx \/ x == maxx)%Q /\ (y == miny \/ y == maxy)%Q).
Proof.
  intros F. unfold hint_mask_2d. cbn [andb].
  set (touch := fun p : Q * Q => (qeq (fst p) minx || qeq (fst p) maxx) && (qeq (snd p) miny || qeq (snd p) maxy)).
  set (cells := map (fun rows : list Q * list Q => combine (fst rows) (snd rows)) (combine xs ys)).
  assert (T : forall p, touch p = true <-> ((fst p == minx \/ fst p == maxx) /\ (snd p == miny \/ snd p == maxy))%Q).
  { intros p. unfold touch. rewrite andb_true_iff, !orb_true_iff. destruct (qeq_spec (fst p) minx), (qeq_spec (fst p) maxx), (qeq_spec (snd p) miny), (qeq_spec (snd p) maxy); intuition congruence. }
  assert (X : existsb (existsb touch) cells = true <-> exists i j rx ry x y, nth_error xs i = Some rx /\ nth_error ys i = Some ry /\ nth_error rx j = Some x /\ nth_error ry j = Some y /\
     (x == minx \/ x == maxx)%Q /\ (y == miny \/ y == maxy)%Q).
  { split.
    - intros E. apply existsb_exists in E. destruct E as [row [Hr E]]. apply existsb_exists in E. destruct E as [[x y] [Hp E]]. apply T in E.
      unfold cells in Hr. apply in_map_iff in Hr. destruct Hr as [[rx ry] [<- Hr]]. cbn in Hp. apply In_nth_error in Hr. destruct Hr as [i Hi]. apply In_nth_error in Hp. destruct Hp as [j Hj].
      apply nth_error_combine_both in Hi. apply nth_error_combine_both in Hj. exists i, j, rx, ry, x, y. cbn in *. tauto.
    - intros (i & j & rx & ry & x & y & Hx & Hy & Jx & Jy & E). apply existsb_exists. exists (combine rx ry). split.
      + unfold cells. apply in_map_iff. exists (rx, ry). split; [reflexivity|]. apply (nth_error_In _ i). apply nth_error_combine_both. auto.
      + apply existsb_exists. exists (x, y). split; [apply (nth_error_In _ j); apply nth_error_combine_both; auto|]. apply T. exact E. }
  rewrite <- X. destruct (existsb (existsb touch) cells); split; intros H; congruence.
Qed.
Lemma hint_edge : exists xs ys sel, hint_mask_2d xs ys 0 0 2 2 false true = Ok sel /\ xs = [[0%Q]] /\ ys = [[1%Q]].
Proof. eexists. eexists. eexists. split; [|split; reflexivity]. vm_compute. reflexivity. Qed.
Lemma hint_vectorized_touch :
  (exists xs ys sel, hint_mask_vectorized xs ys 0 0 2 2 false true = Ok sel /\ In 0%Q xs /\ In 0%Q ys) /\
  (exists xs ys, hint_mask_vectorized xs ys 0 0 2 2 false true = Err IndexError).
Proof.
  split.
  - exists [0; 1]%Q, [0; 1]%Q. eexists. split; [vm_compute; reflexivity|]. split; left; reflexivity.
  - exists [1%Q], [5; 6]%Q. vm_compute. reflexivity.
Qed.
Lemma and2_any a b : List.length a = List.length b -> (existsb (fun x => x) (and2 a b) = true <-> exists k, nth_error a k = Some true /\ nth_error b k = Some true).
Proof.
  intros L. rewrite existsb_exists. split.
  - intros [x [Hx ->]]. apply In_nth_error in Hx. destruct Hx as [k Hk]. exists k. apply and2_nth, Hk.
  - intros [k H]. exists true. split; [|reflexivity]. apply (nth_error_In _ k). apply and2_nth, H.
Qed.
Lemma eq_nth l v k : nth_error (map (fun x => qeq x v) l) k = Some true <-> exists x, nth_error l k = Some x /\ (x == v)%Q.
Proof.
  rewrite nth_error_map. destruct (nth_error l k) as [x|]; cbn.
  - split; [intros E; exists x; split; [reflexivity|]; destruct (qeq_spec x v); [assumption | congruence]|]. intros [y [E H]]. assert (x = y) by congruence. subst y.
    destruct (qeq_spec x v); [reflexivity | contradiction].
  - split; [discriminate | intros [y [E _]]; discriminate].
Qed.
Lemma xyz_touch x y z minx miny maxx maxy invert keep : (minx <= maxx)%Q -> (miny <= maxy)%Q -> List.length y = List.length x ->
  (get_xyz_select x y minx miny maxx maxy z None invert keep true = Err NoTouching <->
   exists k vx vy, nth_error x k = Some vx /\ nth_error y k = Some vy /\ ((vx == minx /\ vy == miny) \/ (vx == maxx /\ vy == maxy))%Q).
Proof.
  intros Hx Hy L. unfold get_xyz_select. destruct (intersects_spec x minx maxx keep Hx) as [sx [-> _]]. destruct (intersects_spec y miny maxy keep Hy) as [sy [-> _]].
  cbn [bind]. unfold arr_touches. cbn [andb].
  set (b0 := existsb (fun b => b) (and2 (map (fun x0 => qeq x0 minx) x) (map (fun x0 => qeq x0 miny) y))).
  set (b1 := existsb (fun b => b) (and2 (map (fun x0 => qeq x0 maxx) x) (map (fun x0 => qeq x0 maxy) y))).
  assert (B : (b0 || b1 = true) <-> exists k vx vy, nth_error x k = Some vx /\ nth_error y k = Some vy /\ ((vx == minx /\ vy == miny) \/ (vx == maxx /\ vy == maxy))%Q).
  { rewrite orb_true_iff. unfold b0, b1. rewrite !and2_any by (rewrite !map_length; congruence). split.
    - intros [[k [A B]]|[k [A B]]]; apply eq_nth in A; apply eq_nth in B; destruct A as [vx [A A']]; destruct B as [vy [B B']]; exists k, vx, vy; tauto.
    - intros (k & vx & vy & A & B & [[C D]|[C D]]); [left|right]; exists k; split; apply eq_nth; eauto. }
  rewrite <- B. destruct (b0 || b1); split; intros H; congruence.
Qed.
Lemma xyz_corner : exists sel, get_xyz_select [0%Q] [2%Q] 0 0 2 2 [] None false true true = Ok sel.
Proof. eexists. vm_compute. reflexivity. Qed.
