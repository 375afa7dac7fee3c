From Verif Require Import Py Lib ExtentModel ExtentSpec ExtentProofs.
From Coq Require Import QArith Lia Lqa.
Local Notation length := List.length.
Local Open Scope Q_scope.

(** ** C163: weights and extents *)

(** Masked geometries have masked weights; every other has its area over the largest, which is above
    0 and at most 1. *)
Theorem C163_weights : forall {G} (area_of : G -> Q) g, (forall y, 0 <= area_of y) ->
  length (weights area_of g) = length g /\
  forall i masked y, nth_error g i = Some (masked, y) ->
    if masked then nth_error (weights area_of g) i = Some None
    else exists m w, LargestOf (CountedAreas area_of g) m /\ nth_error (weights area_of g) i = Some (Some w) /\
           w == CountedArea (area_of y) / m /\ 0 < w /\ w <= 1.
Proof.
  intros G area_of g Hp. unfold weights. rewrite counted_eq.
  assert (forall x, In x (compressed (counted area_of g)) -> 0 < x) as Pos.
  { intros x H. apply counted_in in H as [y [_ ->]]. unfold CountedArea. destruct (Qeq_bool (area_of y) 0) eqn:E; [reflexivity|].
    apply Qeq_bool_neq in E. specialize (Hp y). apply Qle_lteq in Hp as [H|H]; [exact H|]. exfalso. apply E. symmetry. exact H. }
  destruct (compressed (counted area_of g)) as [|x t] eqn:E.
  - unfold counted. rewrite map_map. split; [apply map_length|]. intros i masked y Hi.
    destruct masked; [rewrite nth_error_map, Hi; reflexivity|]. exfalso.
    assert (In (CountedArea (area_of y)) (compressed (counted area_of g))) as C by (apply counted_in; exists y; split; [eapply nth_error_In; exact Hi|reflexivity]).
    rewrite E in C. exact C.
  - split; [rewrite map_length; apply map_length|]. intros i masked y Hi.
    destruct (largest_spec t x) as [L1 L2]. rewrite <- E in L1, L2, Pos. pose proof (Pos _ L1) as Pm.
    destruct masked; [unfold counted; rewrite map_map, nth_error_map, Hi; reflexivity|].
    exists (largest x t), (CountedArea (area_of y) / largest x t).
    assert (In (CountedArea (area_of y)) (compressed (counted area_of g))) as C by (apply counted_in; exists y; split; [eapply nth_error_In; exact Hi|reflexivity]).
    split; [|split; [unfold counted; rewrite map_map, nth_error_map, Hi; reflexivity|split; [reflexivity|split]]].
    + split; [apply counted_in; exact L1|]. intros z Hz. apply L2. apply counted_in. exact Hz.
    + apply Qlt_shift_div_l; [exact Pm|]. rewrite Qmult_0_l. apply Pos. exact C.
    + apply Qle_shift_div_r; [exact Pm|]. rewrite Qmult_1_l. apply L2. exact C.
Qed.
Print Assumptions C163_weights.

(** The largest geometry has weight 1. *)
Theorem C163_one : forall {G} (area_of : G -> Q) g y, (forall z, 0 <= area_of z) -> In (false, y) g ->
  exists w, In (Some w) (weights area_of g) /\ w == 1.
Proof.
  intros G area_of g y Hp Hy. destruct (C163_weights area_of g Hp) as [_ H].
  destruct (In_nth_error _ _ Hy) as [i Hi]. destruct (H i false y Hi) as [m [w [[[z [Hz ->]] Hl] [_ [_ _]]]]].
  destruct (In_nth_error _ _ Hz) as [j Hj]. destruct (H j false z Hj) as [m [v [[[u [Hu Em]] Hm] [N [Ev [Hv _]]]]]].
  exists v. split; [eapply nth_error_In; exact N|].
  assert (m == CountedArea (area_of z)) as Eq by (apply Qle_antisym; [apply Hl; exists u; auto|apply Hm; exists z; auto]).
  rewrite Ev, <- Eq. rewrite <- Eq in Ev. field. intros C. rewrite C in Ev. rewrite Ev in Hv. vm_compute in Hv. discriminate.
Qed.
Print Assumptions C163_one.

Example C163_weights_case : weights (fun a => a) [(false, 2#1); (true, 9#1); (false, 4#1)] = [Some (2#4); None; Some (4#4)].
Proof. reflexivity. Qed.

(** A point beside polygons of less than a unit of area outweighs them all. *)
Theorem C163_point_refuted : forall a, 0 < a -> a < 1 ->
  exists w0 w, weights (fun x => x) [(false, 0); (false, a)] = [Some w0; Some w] /\ w < w0.
Proof.
  intros a H0 H1. unfold weights. cbn [area map fst snd option_map compressed].
  assert (Qeq_bool a 0 = false) as E by (apply not_true_is_false; intros C; apply Qeq_bool_eq in C; rewrite C in H0; discriminate).
  rewrite E. cbn [Qeq_bool Qnum Qden Z.mul Zeq_bool Z.compare compressed]. unfold largest. cbn [fold_left].
  assert (Qle_bool 1 a = false) as L by (apply not_true_is_false; intros C; apply Qle_bool_iff in C; lra).
  change (Qeq_bool 0 0) with true. cbn [compressed fold_left]. rewrite L. eexists. eexists. split; [reflexivity|].
  unfold Qdiv. change (/ 1) with 1. rewrite !Qmult_1_r. exact H1.
Qed.
Print Assumptions C163_point_refuted.
Example C163_point_case : weights (fun x => x) [(false, 0); (false, 1#2)] = [Some (1 / 1); Some ((1#2) / 1)].
Proof. reflexivity. Qed.

(** The extent: the smallest and the largest of the values that are not masked, or of the bounds. *)
Theorem C163_extent : forall value bounds,
  let target := match bounds with Some b => b | None => value end in
  (exists x, In (Some x) target) ->
  exists lower upper, extent value bounds = Ok (lower, upper) /\
    SmallestOf (fun x => In (Some x) target) lower /\ LargestOf (fun x => In (Some x) target) upper.
Proof.
  intros value bounds target [x0 H]. unfold extent, masked_array in *. apply compressed_in in H. unfold target in *. clear target. cbv zeta.
  destruct (compressed match bounds with Some b => b | None => value end) as [|x t] eqn:E; [destruct H|]. exists (smallest x t), (largest x t). split; [reflexivity|].
  destruct (smallest_spec t x) as [S1 S2]. destruct (largest_spec t x) as [L1 L2]. rewrite <- E in *.
  split; (split; [apply compressed_in; assumption|]); intros y Hy; [apply S2|apply L2]; apply compressed_in; exact Hy.
Qed.
Print Assumptions C163_extent.
Example C163_extent_case : extent [Some 3; Some 1; None; Some 2] None = Ok (1, 3) /\ extent [Some 3] (Some [Some (5#2); Some (7#2)]) = Ok (5#2, 7#2).
Proof. split; reflexivity. Qed.

(** Masked everywhere, there is no extent; the error is that of an empty list. *)
Theorem C163_masked : forall value bounds,
  (forall x, ~ In (Some x) match bounds with Some b => b | None => value end) -> extent value bounds = Err ValueError.
Proof.
  intros value bounds H. unfold extent, masked_array in *. destruct (compressed match bounds with Some b => b | None => value end) as [|x t] eqn:E; [reflexivity|].
  exfalso. apply (H x). apply compressed_in. rewrite E. left. reflexivity.
Qed.
Print Assumptions C163_masked.
Example C163_masked_case : extent [None; None] None = Err ValueError.
Proof. reflexivity. Qed.

(** ** C164: index arrays *)

(** For a vector: the index array has the place of every value, so that it recreates the vector. *)
Theorem C164_index_partial : forall {A} eqb (spec : forall x y : A, Bool.reflect (x = y) (eqb x y)) src dst,
  (forall x, In x src -> In x dst) ->
  exists idx, create_index_array eqb None src dst = Ok idx /\
    Forall2 (fun i x => (0 <= i)%Z /\ nth_error dst (Z.to_nat i) = Some x /\ forall j, (j < Z.to_nat i)%nat -> nth_error dst j <> Some x) idx src.
Proof.
  intros A eqb spec src dst. induction src as [|x t IH]; intros H; [exists []; split; [reflexivity|constructor]|].
  destruct IH as [r [Er Fr]]; [intros y Hy; apply H; right; exact Hy|].
  destruct (first_index_in eqb spec x dst (H x (or_introl eq_refl))) as [i [E [E2 F]]].
  exists (Z.of_nat i :: r). cbn [create_index_array]. unfold index_of. rewrite E. cbn [bind]. rewrite Er. split; [reflexivity|].
  constructor; [|exact Fr]. rewrite Nat2Z.id. split; [lia|]. split; assumption.
Qed.
Print Assumptions C164_index_partial.

(** With indices: the element of them at that place. *)
Theorem C164_indices : forall {A} eqb (spec : forall x y : A, Bool.reflect (x = y) (eqb x y)) src dst indices,
  (forall x, In x src -> In x dst) -> length indices = length dst ->
  exists idx, create_index_array eqb (Some indices) src dst = Ok idx /\
    Forall2 (fun i x => In (i, x) (combine indices dst)) idx src.
Proof.
  intros A eqb spec src dst indices H L. induction src as [|x t IH]; [exists []; split; [reflexivity|constructor]|].
  destruct IH as [r [Er Fr]]; [intros y Hy; apply H; right; exact Hy|].
  destruct (first_index_in eqb spec x dst (H x (or_introl eq_refl))) as [i [E [E2 _]]].
  destruct (nth_error indices i) as [a|] eqn:Ea.
  - exists (a :: r). cbn [create_index_array]. unfold index_of. rewrite E. cbn [bind]. rewrite Ea. cbn [bind]. rewrite Er. split; [reflexivity|].
    constructor; [|exact Fr]. clear -Ea E2. revert dst i E2 Ea. induction indices as [|b s IH]; intros [|y dst] [|i] E2 Ea; try discriminate.
    + injection E2 as ->. injection Ea as ->. left. reflexivity.
    + right. eapply IH; eassumption.
  - apply nth_error_None in Ea. assert (i < length dst)%nat by (apply nth_error_Some; congruence). lia.
Qed.
Print Assumptions C164_indices.

(** A value that is not there is refused. *)
Theorem C164_missing : forall {A} eqb (spec : forall x y : A, Bool.reflect (x = y) (eqb x y)) src dst x,
  In x src -> ~ In x dst -> create_index_array eqb None src dst = Err IndexError.
Proof.
  intros A eqb spec src dst x Hx Hn. induction src as [|y t IH]; [contradiction|]. cbn [create_index_array]. unfold index_of.
  destruct (first_index eqb y dst) as [i|e] eqn:E; cbn [bind].
  - destruct Hx as [->|Hx]; [rewrite first_index_out in E by assumption; discriminate|]. rewrite (IH Hx). reflexivity.
  - assert (forall l, first_index eqb y l = Err e -> e = IndexError) as G.
    { induction l as [|z l IHl]; cbn [first_index]; [congruence|]. destruct (eqb y z); [discriminate|]. destruct (first_index eqb y l); [discriminate|]. intros [= <-]. apply IHl. reflexivity. }
    rewrite (G _ E). reflexivity.
Qed.
Print Assumptions C164_missing.
Example C164_index_case : create_index_array Z.eqb None [30; 10; 30]%Z [10; 20; 30]%Z = Ok [2; 0; 2]%Z /\
  create_index_array Z.eqb (Some [7; 8; 9]%Z) [30; 10]%Z [10; 20; 30]%Z = Ok [9; 7]%Z /\ create_index_array Z.eqb None [5]%Z [10]%Z = Err IndexError.
Proof. repeat split. Qed.

(** For rows of two or more values, which are accepted as documented, the call always fails. *)
Theorem C164_rows_refuted : forall {A} eqb (spec : forall x y : A, Bool.reflect (x = y) (eqb x y)) src dst n,
  src <> [] -> (2 <= n)%nat -> (forall row, In row src -> length row = n) -> (forall row x, In row src -> In x row -> In x dst) ->
  create_index_rows eqb None src dst = Err IndexError.
Proof.
  intros A eqb spec src dst n Hs Hn Hr Hx. unfold create_index_rows. apply set_rows_over; [exact spec| |lia|].
  - intros x H. apply in_concat in H as [row [H1 H2]]. eapply Hx; eassumption.
  - rewrite map_length. cbn [Nat.add]. destruct src as [|r t]; [congruence|]. clear -Hr Hn.
    assert (forall l : list (list A), (forall row, In row l -> length row = n) -> (length l <= length (concat l))%nat) as G.
    { induction l as [|a l IH]; intros H; [reflexivity|]. cbn [concat length]. rewrite app_length, (H a (or_introl eq_refl)).
      specialize (IH (fun row Hrow => H row (or_intror Hrow))). lia. }
    cbn [concat length]. rewrite app_length, (Hr r (or_introl eq_refl)). specialize (G t (fun row Hrow => Hr row (or_intror Hrow))). lia.
Qed.
Print Assumptions C164_rows_refuted.
Example C164_rows_case : create_index_rows Z.eqb None [[1; 2]; [3; 1]]%Z [1; 2; 3]%Z = Err IndexError /\ create_index_rows Z.eqb None [[3]; [1]]%Z [1; 2; 3]%Z = Ok [[2]; [0]]%Z.
Proof. split; reflexivity. Qed.

(** A boolean array becomes the places that are true, and these select the same elements. *)
Theorem C164_places_partial : forall {A} (d : A) arr l, length l = length arr ->
  (forall start n, In n (arange_from_bool_ndarray arr start) <-> exists k, nth_error arr k = Some true /\ n = (start + Z.of_nat k)%Z) /\
  map (fun n => nth (Z.to_nat n) l d) (arange_from_bool_ndarray arr 0) = map snd (filter fst (combine arr l)).
Proof.
  intros A d arr l L. split.
  - intros start n. unfold arange_from_bool_ndarray. rewrite in_map_iff. split.
    + intros [i [<- H]]. apply where_true_in in H as [k [H ->]]. exists k. split; [exact H|lia].
    + intros [k [H ->]]. exists (0 + Z.of_nat k)%Z. split; [lia|]. apply where_true_in. exists k. auto.
  - unfold arange_from_bool_ndarray. rewrite map_map. rewrite <- (where_true_filter d arr [] l L). cbn [app]. unfold zlen. cbn [length Z.of_nat].
    apply map_ext. intros n. f_equal. lia.
Qed.
Print Assumptions C164_places_partial.

(** It is not the collapsed range of the documentation. *)
Theorem C164_range_refuted : forall arr start, arange_from_bool_ndarray (false :: true :: arr) start <> map (fun k => (start + Z.of_nat k)%Z) (seq 0 (length (where_true 0 (false :: true :: arr)))).
Proof. intros arr start. unfold arange_from_bool_ndarray. cbn [where_true length seq map]. intros H. apply (f_equal (hd 0%Z)) in H. cbn [hd Z.of_nat] in H. lia. Qed.
Print Assumptions C164_range_refuted.
Example C164_places_case : arange_from_bool_ndarray [false; true; true; false; true] 0 = [1; 2; 4]%Z.
Proof. reflexivity. Qed.
