(** Proofs about regridding by chunks. *)
From Verif Require Import Py Lib PartitionModel NdModel DistModel ChunkModel ChunkSpec ChunkProofs CoordModel CoordSpec CoordProofs GeomModel GeomSpec GeomSlice TileModel TileSpec.
From Coq Require Import QArith Qabs Qminmax Lqa Lia.
Local Close Scope Q_scope.
Local Open Scope nat_scope.

(** * Slices of lists *)
Lemma slice_list_length {A} (s : nat * nat) (l : list A) : snd s <= length l -> length (slice_list s l) = snd s - fst s.
Proof. intros H. unfold slice_list. rewrite firstn_length, skipn_length. lia. Qed.

Lemma nth_firstn_lt {A} (l : list A) n i d : i < n -> nth i (firstn n l) d = nth i l d.
Proof. revert n i. induction l as [|a l IH]; intros [|n] [|i] H; cbn; try lia; auto. apply IH. lia. Qed.
Lemma nth_skipn_add {A} (l : list A) n i d : nth i (skipn n l) d = nth (n + i) l d.
Proof. revert n. induction l as [|a l IH]; intros [|n]; cbn; auto. now destruct i. Qed.
Lemma nth_slice {A} (s : nat * nat) (l : list A) i d : i < snd s - fst s -> nth i (slice_list s l) d = nth (fst s + i) l d.
Proof. intros H. unfold slice_list. rewrite nth_firstn_lt by auto. apply nth_skipn_add. Qed.

Lemma in_slice {A} (s : nat * nat) (l : list A) j d : fst s <= j < snd s -> j < length l -> In (nth j l d) (slice_list s l).
Proof.
  intros H L. replace j with (fst s + (j - fst s)) by lia. rewrite <- nth_slice by lia. apply nth_In.
  unfold slice_list. rewrite firstn_length, skipn_length. lia.
Qed.

(** * Products of ranges *)
Lemma filter_map' {A B} (f : A -> B) (p : B -> bool) l : filter p (map f l) = map f (filter (fun a => p (f a)) l).
Proof. induction l as [|a l IH]; cbn; auto. destruct (p (f a)); cbn; now rewrite IH. Qed.

Lemma filter_filter {A} (p q : A -> bool) l : filter p (filter q l) = filter (fun a => q a && p a) l.
Proof. induction l as [|a l IH]; cbn; auto. destruct (q a); cbn; [destruct (p a)|]; cbn; now rewrite IH. Qed.

Lemma filter_none {A} (p : A -> bool) l : (forall a, In a l -> p a = false) -> filter p l = [].
Proof. induction l as [|a l IH]; cbn; auto. intros H. rewrite (H a) by auto. apply IH. auto. Qed.
Lemma filter_all {A} (p : A -> bool) l : (forall a, In a l -> p a = true) -> filter p l = l.
Proof. induction l as [|a l IH]; cbn; auto. intros H. rewrite (H a) by auto. f_equal. apply IH. auto. Qed.

Definition within (s : nat * nat) (j : nat) : bool := (fst s <=? j) && (j <? snd s).

Lemma seq_window (s : nat * nat) n : fst s <= snd s <= n -> seq (fst s) (snd s - fst s) = filter (within s) (seq 0 n).
Proof.
  intros H. replace n with (fst s + ((snd s - fst s) + (n - snd s))) at 1 by lia. rewrite !seq_app, !filter_app. cbn [Nat.add].
  rewrite (filter_none _ (seq 0 (fst s))), (filter_all _ (seq (fst s) _)), (filter_none _ (seq (fst s + _) _)).
  - cbn. now rewrite app_nil_r.
  - intros a Ha. apply in_seq in Ha. unfold within. lia.
  - intros a Ha. apply in_seq in Ha. unfold within. lia.
  - intros a Ha. apply in_seq in Ha. unfold within. lia.
Qed.

Lemma prod_filter {A B} (p : A -> bool) (q : B -> bool) l m :
  list_prod (filter p l) (filter q m) = filter (fun ab => p (fst ab) && q (snd ab)) (list_prod l m).
Proof.
  induction l as [|a l IH]; cbn; auto. rewrite filter_app, <- IH. destruct (p a) eqn:P; cbn.
  - f_equal. rewrite filter_map'. cbn. rewrite P. f_equal.
  - rewrite (filter_none _ (map _ m)); [reflexivity|]. intros ab H. apply in_map_iff in H. destruct H as [b [<- _]]. cbn. now rewrite P.
Qed.

Lemma prod_shift a b n m : list_prod (seq a n) (seq b m) = map (fun ji => (a + fst ji, b + snd ji)) (list_prod (seq 0 n) (seq 0 m)).
Proof.
  assert (S' : forall k n, seq k n = map (fun i => k + i) (seq 0 n)).
  { intros k. induction k as [|k IH]; intros c; [now rewrite map_id|]. rewrite <- seq_shift, IH, map_map. apply map_ext. intros; lia. }
  rewrite (S' a), (S' b). induction (seq 0 n) as [|x l IH]; cbn; auto. rewrite map_app, IH, !map_map. f_equal.
Qed.

(** * The hint *)
Definition in_box (box : Q * Q * Q * Q) (y x : Q) : bool :=
  let '(minx, miny, maxx, maxy) := box in (qle minx x && qle x maxx) && (qle miny y && qle y maxy).
Definition hint_of (src : tgrid) (box : Q * Q * Q * Q) : list (list bool) :=
  map (fun y => map (fun x => negb (in_box box y x)) (tg_xs src)) (tg_ys src).

Lemma hint_is src a b c d : hint_mask_vectorized (tg_xs src) (tg_ys src) a b c d true false = Ok (hint_of src (a, b, c, d)).
Proof.
  unfold hint_mask_vectorized, hint_of, in_box. cbn [bind]. f_equal. rewrite map_map. apply map_ext. intros y. now rewrite map_map.
Qed.

Lemma hint_at src box j i : j < length (tg_ys src) -> i < length (tg_xs src) ->
  nth i (nth j (hint_of src box) []) false = negb (in_box box (nth j (tg_ys src) 0%Q) (nth i (tg_xs src) 0%Q)).
Proof.
  intros J I'. unfold hint_of. rewrite (nth_indep _ [] (map (fun x => negb (in_box box 0%Q x)) (tg_xs src))) by now rewrite map_length.
  rewrite (map_nth (fun y => map (fun x => negb (in_box box y x)) (tg_xs src))).
  rewrite (nth_indep _ false (negb (in_box box (nth j (tg_ys src) 0%Q) 0%Q))) by now rewrite map_length.
  now rewrite (map_nth (fun x => negb (in_box box (nth j (tg_ys src) 0%Q) x))).
Qed.

Lemma nth_some {A} (l : list A) i d : i < length l -> nth_error l i = Some (nth i l d).
Proof. revert i. induction l as [|a l IH]; intros [|i] H; cbn in *; try lia; auto. apply IH. lia. Qed.

Lemma hint_regular src box : Forall (fun r => length r = length (tg_xs src)) (hint_of src box).
Proof. apply Forall_forall. intros r H. apply in_map_iff in H. destruct H as [y [<- _]]. now rewrite map_length. Qed.

Lemma chosen_hint src box idx : Held [([0; 0], Some (A2 (length (tg_xs src)) (hint_of src box)))] idx <->
  exists j i, idx = [j; i] /\ j < length (tg_ys src) /\ i < length (tg_xs src) /\
              in_box box (nth j (tg_ys src) 0%Q) (nth i (tg_xs src) 0%Q) = true.
Proof.
  split.
  - intros [off [m [loc [[H|[]] [A ->]]]]]. injection H as <- <-.
    destruct loc as [|j [|i [|]]]; cbn in A; try discriminate A.
    destruct (nth_error (hint_of src box) j) as [row|] eqn:R; [|discriminate A].
    assert (J : j < length (tg_ys src)). { assert (j < length (hint_of src box)) by (apply nth_error_Some; congruence). unfold hint_of in H. now rewrite map_length in H. }
    assert (Rr : length row = length (tg_xs src)). { pose proof (hint_regular src box) as F. rewrite Forall_forall in F. apply F. eapply nth_error_In, R. }
    assert (I' : i < length (tg_xs src)). { rewrite <- Rr. apply nth_error_Some. congruence. }
    exists j, i. cbn. repeat split; auto. pose proof (hint_at src box j i J I') as H.
    rewrite (nth_error_nth _ _ [] R), (nth_error_nth _ _ false A) in H. now destruct (in_box _ _ _).
  - intros [j [i [-> [J [I' B]]]]]. exists [0; 0], (A2 (length (tg_xs src)) (hint_of src box)), [j; i]. split; [now left|]. split; [|reflexivity].
    cbn [at_]. assert (L : length (hint_of src box) = length (tg_ys src)) by (unfold hint_of; now rewrite map_length).
    rewrite (nth_some _ j []) by (rewrite L; auto). rewrite (nth_some _ i false).
    + rewrite hint_at, B by auto. reflexivity.
    + pose proof (hint_regular src box) as F. rewrite Forall_forall in F. rewrite F; auto. apply nth_In. rewrite L. auto.
Qed.

Lemma any2_false m j i : any2 m = false -> nth i (nth j m []) false = false.
Proof.
  intros H. destruct (nth i (nth j m []) false) eqn:E; auto. exfalso.
  assert (J : j < length m) by (destruct (Nat.lt_ge_cases j (length m)); auto; rewrite (nth_overflow m) in E by auto; now destruct i).
  assert (I' : i < length (nth j m [])) by (destruct (Nat.lt_ge_cases i (length (nth j m []))); auto; rewrite (nth_overflow (nth j m [])) in E by auto; discriminate).
  unfold any2 in H. rewrite <- Bool.not_true_iff_false in H. apply H. apply existsb_exists. exists (nth j m []). split; [now apply nth_In|].
  apply existsb_exists. exists true. split; auto. rewrite <- E. now apply nth_In.
Qed.

Lemma nth_slice_mask ys xs m j i : j < snd ys - fst ys -> i < snd xs - fst xs ->
  nth i (nth j (slice_mask ys xs m) []) false = nth (fst xs + i) (nth (fst ys + j) m []) false.
Proof.
  intros J I'. unfold slice_mask. change (@nil bool) with (slice_list xs (@nil bool)) at 1 || idtac.
  assert (E : slice_list xs (@nil bool) = []) by (unfold slice_list; now rewrite skipn_nil, firstn_nil).
  rewrite <- E at 1. rewrite map_nth, nth_slice by auto. now rewrite nth_slice.
Qed.

(** What a subset by a box is. *)
Lemma box_subset_spec src box :
  match box_subset src box with
  | Ok (part, (ys, xs)) =>
      fst ys < snd ys <= length (tg_ys src) /\ fst xs < snd xs <= length (tg_xs src) /\
      tg_ys part = slice_list ys (tg_ys src) /\ tg_xs part = slice_list xs (tg_xs src) /\
      (forall j i, j < length (tg_ys src) -> i < length (tg_xs src) ->
         in_box box (nth j (tg_ys src) 0%Q) (nth i (tg_xs src) 0%Q) = true -> within ys j = true /\ within xs i = true) /\
      (forall j i, j < snd ys - fst ys -> i < snd xs - fst xs ->
         masked_at (tg_mask part) j i =
           if any2 (hint_of src box) then negb (in_box box (nth (fst ys + j) (tg_ys src) 0%Q) (nth (fst xs + i) (tg_xs src) 0%Q))
           else masked_at (tg_mask src) (fst ys + j) (fst xs + i))
  | Err e => e = EmptySubsetError /\ forall j i, j < length (tg_ys src) -> i < length (tg_xs src) ->
         in_box box (nth j (tg_ys src) 0%Q) (nth i (tg_xs src) 0%Q) = false
  end.
Proof.
  unfold box_subset. destruct box as [[[a b] c] d]. rewrite hint_is. cbn [bind].
  set (box := (a, b, c, d)). set (ranks := [([0; 0], Some (A2 (length (tg_xs src)) (hint_of src box)))]).
  pose proof (global_slice_spec 2 ranks) as G. unfold bind. destruct (global_slice ranks) as [s|e].
  - destruct G as [L [F [[T1 T2] X]]].
    { intros off m [H|[]]. injection H as <- <-. split; [apply hint_regular|]. split; reflexivity. }
    { intros off m [H|[]]. injection H as <- <-. intros []. }
    destruct s as [|ys [|xs [|]]]; try discriminate L.
    inversion F as [|? ? F1 F']; subst. inversion F' as [|? ? F2 _]; subst.
    assert (B1 : snd ys <= length (tg_ys src)).
    { destruct (T2 0 ys eq_refl) as [_ [idx [H N]]]. apply chosen_hint in H. destruct H as [j [i [-> [J _]]]]. injection N as N. lia. }
    assert (B2 : snd xs <= length (tg_xs src)).
    { destruct (T2 1 xs eq_refl) as [_ [idx [H N]]]. apply chosen_hint in H. destruct H as [j [i [-> [_ [J _]]]]]. injection N as N. lia. }
    split; [lia|]. split; [lia|].
    assert (Y : tg_ys (slice_tgrid ys xs (if any2 (hint_of src box) then mktgrid (tg_ys src) (tg_xs src) (tg_bounds src) (Some (hint_of src box)) else src)) = slice_list ys (tg_ys src))
      by (destruct (any2 _); reflexivity).
    assert (X' : tg_xs (slice_tgrid ys xs (if any2 (hint_of src box) then mktgrid (tg_ys src) (tg_xs src) (tg_bounds src) (Some (hint_of src box)) else src)) = slice_list xs (tg_xs src))
      by (destruct (any2 _); reflexivity).
    split; [exact Y|]. split; [exact X'|]. split.
    + intros j i J I' B. assert (H : InSlices [ys; xs] [j; i]). { apply T1. apply chosen_hint. exists j, i. auto. }
      inversion H as [|? ? ? ? P1 P']; subst. inversion P' as [|? ? ? ? P2 _]; subst. unfold within. lia.
    + intros j i J I'. cbn [tg_mask].
      assert (Z' : masked_at (match tg_mask src, tg_mask (slice_tgrid ys xs (if any2 (hint_of src box) then mktgrid (tg_ys src) (tg_xs src) (tg_bounds src) (Some (hint_of src box)) else src)) with
                   | None, Some m => if any2 m then Some m else None | _, m => m end) j i
              = masked_at (tg_mask (slice_tgrid ys xs (if any2 (hint_of src box) then mktgrid (tg_ys src) (tg_xs src) (tg_bounds src) (Some (hint_of src box)) else src))) j i).
      { destruct (tg_mask src) as [m0|]; auto. destruct (tg_mask (slice_tgrid _ _ _)) as [m|]; auto. destruct (any2 m) eqn:A; auto. symmetry. now apply any2_false. }
      rewrite Z'. destruct (any2 (hint_of src box)).
      * cbn [tg_mask slice_tgrid masked_at]. rewrite nth_slice_mask by auto. apply hint_at; lia.
      * unfold slice_tgrid. cbn [tg_mask]. destruct (tg_mask src) as [m|]; [|reflexivity]. cbn [masked_at]. now rewrite nth_slice_mask.
  - destruct G as [-> G].
    { intros off m [H|[]]. injection H as <- <-. split; [apply hint_regular|]. split; reflexivity. }
    { intros off m [H|[]]. injection H as <- <-. intros []. }
    split; auto. intros j i J I'. destruct (in_box _ _ _) eqn:B; auto. exfalso. apply (G [j; i]). apply chosen_hint. exists j, i. auto.
Qed.

(** * The points of a part *)
Lemma part_points {V} src box part ys xs (value : nat -> nat -> V) (near' : Q * Q * V -> bool) :
  box_subset src box = Ok (part, (ys, xs)) -> tg_mask src = None ->
  (forall y x v, near' (y, x, v) = true -> in_box box y x = true) ->
  filter near' (points part (fun j i => value (fst ys + j) (fst xs + i))) = filter near' (points src value).
Proof.
  intros E M N. pose proof (box_subset_spec src box) as H. rewrite E in H. destruct H as [[Y1 Y2] [[X1 X2] [Py [Px [W K]]]]].
  unfold points at 2. rewrite M. cbn [masked_at negb]. rewrite (filter_all (fun _ => true)) by auto.
  unfold points. rewrite Py, Px, !slice_list_length by auto.
  rewrite !filter_map', filter_filter.
  set (f := fun ji : nat * nat => (nth (fst ji) (tg_ys src) 0%Q, nth (snd ji) (tg_xs src) 0%Q, value (fst ji) (snd ji))).
  set (L := list_prod (seq 0 (length (tg_ys src))) (seq 0 (length (tg_xs src)))).
  set (S' := list_prod (seq 0 (snd ys - fst ys)) (seq 0 (snd xs - fst xs))).
  set (sh := fun ji : nat * nat => (fst ys + fst ji, fst xs + snd ji)).
  assert (In' : forall ji, In ji S' -> fst ji < snd ys - fst ys /\ snd ji < snd xs - fst xs).
  { intros [j i] H. apply in_prod_iff in H. rewrite !in_seq in H. cbn. lia. }
  transitivity (map (fun ji => f (sh ji)) (filter (fun ji => near' (f (sh ji))) S')).
  - assert (Q1 : filter (fun a => negb (masked_at (tg_mask part) (fst a) (snd a)) &&
             near' (nth (fst a) (slice_list ys (tg_ys src)) 0%Q, nth (snd a) (slice_list xs (tg_xs src)) 0%Q, value (fst ys + fst a) (fst xs + snd a))) S'
           = filter (fun ji => near' (f (sh ji))) S').
    { apply filter_ext_in. intros ji H. destruct (In' _ H) as [J I']. rewrite !nth_slice by auto. unfold f, sh. cbn [fst snd].
      destruct (near' (nth (fst ys + fst ji) (tg_ys src) 0%Q, nth (fst xs + snd ji) (tg_xs src) 0%Q, value (fst ys + fst ji) (fst xs + snd ji))) eqn:N';
        [|now rewrite Bool.andb_false_r].
      rewrite Bool.andb_true_r, K by auto. apply N in N'. destruct (any2 (hint_of src box)).
      - now rewrite N'.
      - rewrite M. reflexivity. }
    fold S'. rewrite Q1. apply map_ext_in. intros ji H. apply filter_In in H. destruct H as [H _]. destruct (In' _ H) as [J I'].
    rewrite !nth_slice by auto. reflexivity.
  - rewrite <- (map_map sh f), <- (filter_map' sh (fun ji => near' (f ji))). f_equal.
    unfold S', sh. rewrite <- prod_shift.
    rewrite (seq_window ys (length (tg_ys src))), (seq_window xs (length (tg_xs src))), prod_filter, filter_filter by lia.
    fold L. apply filter_ext_in. intros [j i] H. apply in_prod_iff in H. rewrite !in_seq in H. cbn [fst snd].
    destruct (near' (f (j, i))) eqn:N'; [|now rewrite Bool.andb_false_r]. unfold f in N' |- *. cbn [fst snd] in N' |- *. rewrite N'. apply N in N'.
    destruct (W j i) as [-> ->]; auto; lia.
Qed.

(** * The box of a chunk *)
Lemma near_in_box {V} reach buffer cell (box : Q * Q * Q * Q) (y x : Q) (v : V) :
  (reach <= buffer)%Q ->
  (let '(minx, miny, maxx, maxy) := box in
    (miny <= fst (fst cell) /\ miny <= snd (fst cell) /\ fst (fst cell) <= maxy /\ snd (fst cell) <= maxy /\
     minx <= fst (snd cell) /\ minx <= snd (snd cell) /\ fst (snd cell) <= maxx /\ snd (snd cell) <= maxx)%Q) ->
  near reach cell (y, x, v) = true -> in_box (expand buffer box) y x = true.
Proof.
  destruct box as [[[a b] c] d]. intros R [H1 [H2 [H3 [H4 [H5 [H6 [H7 H8]]]]]]]. unfold near, near1, in_box, expand, qle. cbn [fst snd].
  rewrite !Bool.andb_true_iff, !Qle_bool_iff. intros [[A B] [C D]].
  pose proof (Q.min_glb _ _ _ H1 H2). pose proof (Q.max_lub _ _ _ H3 H4). pose proof (Q.min_glb _ _ _ H5 H6). pose proof (Q.max_lub _ _ _ H7 H8).
  repeat split; lra.
Qed.

Lemma corner_in g (axis : bool) s k e : GoodGrid g ->
  let l := if axis then tg_ys g else tg_xs g in
  let b := if axis then option_map fst (tg_bounds g) else option_map snd (tg_bounds g) in
  fst s <= k < snd s -> snd s <= length l ->
  In e (match b with Some b => [fst (nth k b (0, 0)%Q); snd (nth k b (0, 0)%Q)] | None => [nth k l 0%Q] end) ->
  In e (corner_values (slice_list s l) (match b with Some b => Some (slice_list s b) | None => None end)).
Proof.
  intros [_ [_ [B _]]] l b K L H. unfold corner_values. destruct b as [bb|] eqn:E.
  - apply in_flat_map. exists (nth k bb (0, 0)%Q). split.
    + apply in_slice; auto. unfold b, l in *. destruct axis; destruct (tg_bounds g) as [[yb xb]|]; try discriminate E; cbn in E; injection E as <-; lia.
    + destruct H as [<-|[<-|[]]]; cbn; auto.
  - destruct H as [<-|[]]. apply in_slice; auto. lia.
Qed.

Lemma slice_nonempty {A} (s : nat * nat) (l : list A) : fst s < snd s -> snd s <= length l -> slice_list s l <> [].
Proof. intros H L E. pose proof (slice_list_length s l L) as H'. rewrite E in H'. cbn in H'. lia. Qed.

Lemma nat_pair_in (p : Z * Z) n : (0 <= fst p < snd p)%Z -> (snd p <= n)%Z -> fst (nat_pair p) < snd (nat_pair p) /\ (snd (nat_pair p) <= Z.to_nat n).
Proof. destruct p. unfold nat_pair. cbn. lia. Qed.

Lemma zlen_nat {A} (l : list A) : Z.to_nat (zlen l) = length l.
Proof. unfold zlen. lia. Qed.

Lemma chunk_extent dst cell : GoodGrid dst -> InGrid dst cell ->
  exists e, grid_extent (slice_tgrid (nat_pair (fst cell)) (nat_pair (snd cell)) dst) = Ok e /\
    forall j i, InChunk cell j i ->
      let c := dst_cell dst j i in
      let '(minx, miny, maxx, maxy) := e in
      (miny <= fst (fst c) /\ miny <= snd (fst c) /\ fst (fst c) <= maxy /\ snd (fst c) <= maxy /\
       minx <= fst (snd c) /\ minx <= snd (snd c) /\ fst (snd c) <= maxx /\ snd (snd c) <= maxx)%Q.
Proof.
  intros G [P1 [P2 [P3 P4]]]. pose proof (nat_pair_in _ _ P1 P2) as [A1 A2]. pose proof (nat_pair_in _ _ P3 P4) as [B1 B2]. rewrite zlen_nat in A2, B2.
  set (ys := nat_pair (fst cell)) in *. set (xs := nat_pair (snd cell)) in *.
  set (cy := corner_values (slice_list ys (tg_ys dst)) (match option_map fst (tg_bounds dst) with Some b => Some (slice_list ys b) | None => None end)).
  set (cx := corner_values (slice_list xs (tg_xs dst)) (match option_map snd (tg_bounds dst) with Some b => Some (slice_list xs b) | None => None end)).
  assert (EQ : grid_extent (slice_tgrid ys xs dst) = extent_of cx cy).
  { unfold grid_extent, cx, cy, slice_tgrid. cbn [tg_ys tg_xs tg_bounds]. destruct (tg_bounds dst) as [[yb xb]|]; reflexivity. }
  rewrite EQ.
  assert (CY := fun k e => corner_in dst true ys k e G). assert (CX := fun k e => corner_in dst false xs k e G). cbn zeta iota in CY, CX. fold cy in CY. fold cx in CX.
  assert (Ny : cy <> []).
  { intros Z'. specialize (CY (fst ys)). rewrite Z' in CY. destruct (option_map fst (tg_bounds dst)) as [b|]; refine (CY _ _ _ (or_introl eq_refl)); lia. }
  assert (Nx : cx <> []).
  { intros Z'. specialize (CX (fst xs)). rewrite Z' in CX. destruct (option_map snd (tg_bounds dst)) as [b|]; refine (CX _ _ _ (or_introl eq_refl)); lia. }
  destruct (np_min_ok _ Nx) as [a Ea]. destruct (np_min_ok _ Ny) as [b Eb]. destruct (np_max_ok _ Nx) as [c Ec]. destruct (np_max_ok _ Ny) as [d Ed].
  exists (a, b, c, d). split. { unfold extent_of, bind. now rewrite Ea, Eb, Ec, Ed. }
  apply np_min_spec in Ea, Eb. apply np_max_spec in Ec, Ed. destruct Ea as [_ Ea], Eb as [_ Eb], Ec as [_ Ec], Ed as [_ Ed].
  intros j i [J I']. cbn zeta.
  assert (J' : fst ys <= j < snd ys) by (unfold ys, nat_pair; destruct (fst cell); cbn in *; lia).
  assert (I'' : fst xs <= i < snd xs) by (unfold xs, nat_pair; destruct (snd cell); cbn in *; lia).
  specialize (fun e => CY j e J' A2). specialize (fun e => CX i e I'' B2).
  unfold dst_cell. destruct (tg_bounds dst) as [[yb xb]|]; cbn [option_map fst snd] in *; repeat split;
    (apply Eb || apply Ed || apply Ea || apply Ec); (apply CY || apply CX); cbn; auto.
Qed.

(** * C143 *)
Lemma src_subset_ok buffer allow src dst cell r : src_subset buffer allow src dst cell = Ok r ->
  exists e, grid_extent (slice_tgrid (nat_pair (fst cell)) (nat_pair (snd cell)) dst) = Ok e /\ box_subset src (expand buffer e) = Ok r.
Proof.
  unfold src_subset. destruct (match tg_mask _ with Some m => all2 m && any2 m | None => false end); [discriminate|]. unfold bind.
  destruct (grid_extent _) as [e|] eqn:E; [|discriminate]. destruct (box_subset src (expand buffer e)) as [r'|] eqn:B; [|discriminate].
  destruct (_ && _); [discriminate|]. intros H. injection H as <-. eauto.
Qed.

Lemma chunk_enough {V W} (regrid : list (Q * Q * V) -> (Q * Q) * (Q * Q) -> W) reach buffer allow src dst value cell part ys xs :
  Local reach regrid -> (reach <= buffer)%Q -> GoodGrid dst -> tg_mask src = None -> InGrid dst cell ->
  src_subset buffer allow src dst cell = Ok (part, (ys, xs)) ->
  forall j i, InChunk cell j i ->
    regrid (points part (fun j' i' => value (fst ys + j') (fst xs + i'))) (dst_cell dst j i) = regrid (points src value) (dst_cell dst j i).
Proof.
  intros Lc R G M IG E j i IC. apply src_subset_ok in E. destruct E as [e [E B]].
  destruct (chunk_extent dst cell G IG) as [e' [E' H]]. rewrite E in E'. injection E' as <-. specialize (H j i IC). cbn zeta in H.
  rewrite (Lc (points part _)), (Lc (points src value)).
  rewrite (part_points src (expand buffer e) part ys xs value (near reach (dst_cell dst j i))); auto.
  intros y x v. apply near_in_box; auto.
Qed.

Lemma chunk_found buffer src dst cell reach j i : (reach <= buffer)%Q -> GoodGrid dst -> tg_mask dst = None -> InGrid dst cell -> InChunk cell j i ->
  Reached reach src (dst_cell dst j i) -> exists r, src_subset buffer true src dst cell = Ok r.
Proof.
  intros R G M IG IC [y [x [Hy [Hx N]]]]. destruct (chunk_extent dst cell G IG) as [e [E H]]. specialize (H j i IC). cbn zeta in H.
  pose proof (near_in_box reach buffer _ e y x tt R H N) as B.
  unfold src_subset. replace (tg_mask (slice_tgrid _ _ dst)) with (@None (list (list bool))) by (unfold slice_tgrid; now rewrite M).
  rewrite E. cbn [bind]. pose proof (box_subset_spec src (expand buffer e)) as S'.
  destruct (box_subset src (expand buffer e)) as [r|x'].
  - exists r. reflexivity.
  - exfalso. destruct S' as [_ S']. apply (In_nth _ _ 0%Q) in Hy, Hx. destruct Hy as [j' [J' <-]], Hx as [i' [I' <-]].
    rewrite S' in B by auto. discriminate.
Qed.


Lemma chunk_missing buffer allow src dst cell e : tg_mask dst = None ->
  grid_extent (slice_tgrid (nat_pair (fst cell)) (nat_pair (snd cell)) dst) = Ok e ->
  (forall y x, In y (tg_ys src) -> In x (tg_xs src) -> in_box (expand buffer e) y x = false) ->
  src_subset buffer allow src dst cell = Err EmptySubsetError.
Proof.
  intros M E N. unfold src_subset. replace (tg_mask (slice_tgrid _ _ dst)) with (@None (list (list bool))) by (unfold slice_tgrid; now rewrite M).
  rewrite E. cbn [bind]. unfold box_subset. destruct (expand buffer e) as [[[a b] c] d]. rewrite hint_is. cbn [bind].
  pose proof (global_slice_spec 2 [([0; 0], Some (A2 (length (tg_xs src)) (hint_of src (a, b, c, d))))]) as G. unfold bind.
  destruct (global_slice _) as [s|x].
  - exfalso. destruct G as [_ [_ [_ [idx H]]]].
    { intros off m [H|[]]. injection H as <- <-. split; [apply hint_regular|]. split; reflexivity. }
    { intros off m [H|[]]. injection H as <- <-. intros []. }
    apply chosen_hint in H. destruct H as [j [i [_ [J [I' B]]]]]. rewrite N in B; [discriminate| |]; now apply nth_In.
  - destruct G as [-> _]; [| |reflexivity].
    { intros off m [H|[]]. injection H as <- <-. split; [apply hint_regular|]. split; reflexivity. }
    { intros off m [H|[]]. injection H as <- <-. intros []. }
Qed.

(** * C144 *)
Lemma dst_cell_slice dst ys xs j i : j < snd ys - fst ys -> i < snd xs - fst xs ->
  dst_cell (slice_tgrid ys xs dst) j i = dst_cell dst (fst ys + j) (fst xs + i).
Proof.
  intros J I'. unfold dst_cell, slice_tgrid. cbn [tg_bounds tg_ys tg_xs]. destruct (tg_bounds dst) as [[yb xb]|]; now rewrite !nth_slice.
Qed.

Lemma map_res_each {A B} (f : A -> res B) l : (forall a, In a l -> exists b, f a = Ok b) -> exists bs, map_res f l = Ok bs /\ Forall2 (fun a b => f a = Ok b) l bs.
Proof.
  induction l as [|a l IH]; intros H; [exists []; split; auto|]. destruct (H a) as [b Eb]; [now left|]. destruct IH as [bs [E F]]; [intros; apply H; now right|].
  exists (b :: bs). cbn. rewrite Eb. cbn. rewrite E. cbn. split; auto.
Qed.

Lemma chunk_holds {V W} (regrid : list (Q * Q * V) -> (Q * Q) * (Q * Q) -> W) reach buffer allow src dst value cell part ys xs :
  Local reach regrid -> (reach <= buffer)%Q -> GoodGrid dst -> tg_mask src = None -> InGrid dst cell ->
  src_subset buffer allow src dst cell = Ok (part, (ys, xs)) ->
  Holds (regrid_whole regrid part (slice_tgrid (nat_pair (fst cell)) (nat_pair (snd cell)) dst) (fun j i => value (fst ys + j) (fst xs + i)))
        (b_at (regrid_whole regrid src dst value)) (fst cell) (snd cell).
Proof.
  intros Lc R G M IG E. destruct IG as [P1 [P2 [P3 P4]]]. pose proof (nat_pair_in _ _ P1 P2) as [A1 A2]. pose proof (nat_pair_in _ _ P3 P4) as [B1 B2]. rewrite zlen_nat in A2, B2.
  unfold Holds, regrid_whole. cbn [b_rows b_cols b_at]. unfold slice_tgrid at 1 3. cbn [tg_ys tg_xs].
  assert (Ly : zlen (slice_list (nat_pair (fst cell)) (tg_ys dst)) = (snd (fst cell) - fst (fst cell))%Z).
  { unfold zlen. rewrite slice_list_length by auto. unfold nat_pair. destruct (fst cell). cbn in *. lia. }
  assert (Lx : zlen (slice_list (nat_pair (snd cell)) (tg_xs dst)) = (snd (snd cell) - fst (snd cell))%Z).
  { unfold zlen. rewrite slice_list_length by auto. unfold nat_pair. destruct (snd cell). cbn in *. lia. }
  split; [exact Ly|]. split; [exact Lx|]. intros y x Hy Hx. change (0 <= y < zlen (slice_list (nat_pair (fst cell)) (tg_ys dst)))%Z in Hy. change (0 <= x < zlen (slice_list (nat_pair (snd cell)) (tg_xs dst)))%Z in Hx. rewrite Ly in Hy. rewrite Lx in Hx.
  rewrite dst_cell_slice by (unfold nat_pair; destruct (fst cell), (snd cell); cbn in *; lia).
  rewrite (chunk_enough regrid reach buffer allow src dst value cell part ys xs); auto.
  - f_equal. f_equal; unfold nat_pair; cbn [fst snd]; destruct (fst cell), (snd cell); cbn in *; lia.
  - repeat split; lia.
  - unfold InChunk, nat_pair. destruct (fst cell), (snd cell). cbn in *. lia.
Qed.

Theorem chunks_whole {V W} (regrid : list (Q * Q * V) -> (Q * Q) * (Q * Q) -> W) reach buffer src dst value sy sx master :
  Local reach regrid -> (reach <= buffer)%Q -> GoodGrid src -> GoodGrid dst -> tg_mask src = None -> tg_mask dst = None ->
  (~ (sy = 1 /\ sx = 1))%Z -> (forall cells, iter_dst_grid_slices (zlen (tg_ys dst)) (zlen (tg_xs dst)) sy sx None = Ok cells -> Forall (InGrid dst) cells) ->
  (1 <= sy)%Z -> (sy = 1 \/ 2 <= zlen (tg_ys dst))%Z -> (1 <= sx)%Z -> (sx = 1 \/ 2 <= zlen (tg_xs dst))%Z ->
  b_rows master = zlen (tg_ys dst) -> b_cols master = zlen (tg_xs dst) ->
  (forall j i, j < length (tg_ys dst) -> i < length (tg_xs dst) -> Reached reach src (dst_cell dst j i)) ->
  exists m, regrid_by_chunks regrid buffer true src dst value sy sx master = Ok m /\ b_rows m = zlen (tg_ys dst) /\ b_cols m = zlen (tg_xs dst) /\
    forall y x, (0 <= y < zlen (tg_ys dst))%Z -> (0 <= x < zlen (tg_xs dst))%Z -> b_at m y x = b_at (regrid_whole regrid src dst value) y x.
Proof.
  intros Lc R Gs Gd Ms Md One T S1 S2 S3 S4 Mr Mc Re.
  assert (Ny : (1 <= zlen (tg_ys dst))%Z). { destruct Gd as [N _]. destruct (tg_ys dst); [now elim N|]. unfold zlen. cbn [length]. lia. }
  assert (Nx : (1 <= zlen (tg_xs dst))%Z). { destruct Gd as [_ [N _]]. destruct (tg_xs dst); [now elim N|]. unfold zlen. cbn [length]. lia. }
  destruct (reassembled (b_at (regrid_whole regrid src dst value)) _ _ sy sx master Ny S1 S2 Nx S3 S4 Mr Mc) as [cells [E H]].
  specialize (T cells E). assert (IG : forall c, In c cells -> InGrid dst c) by now apply Forall_forall.
  destruct (map_res_each (src_subset buffer true src dst) cells) as [srcs [Es F]].
  { intros c Hc. pose proof (IG c Hc) as Ic. apply (chunk_found buffer src dst c reach (Z.to_nat (fst (fst c))) (Z.to_nat (fst (snd c)))); auto.
    - unfold InChunk. destruct Ic as [? [? [? ?]]]. lia.
    - apply Re; destruct Ic as [? [? [? ?]]]; unfold zlen in *; lia. }
  unfold regrid_by_chunks, write_chunks.
  destruct ((sy =? 1)%Z && (sx =? 1)%Z) eqn:O; [exfalso; apply One; lia|]. rewrite E. cbn [bind]. rewrite Es. cbn [bind].
  destruct (H (map (fun cs : ((Z * Z) * (Z * Z)) * (tgrid * ((nat * nat) * (nat * nat))) => let '(cell, (part, (ys, xs))) := cs in
    regrid_whole regrid part (slice_tgrid (nat_pair (fst cell)) (nat_pair (snd cell)) dst)
      (fun j i => value (fst ys + j) (fst xs + i))) (combine cells srcs))) as [m Hm].
  - clear E H Es T. induction F as [|c [part [ys xs]] cs ss Ec F IH]; [constructor|]. cbn [combine map]. constructor.
    + apply (chunk_holds regrid reach buffer true); auto. apply IG. now left.
    + apply IH. intros; apply IG; now right.
  - exists m. exact Hm.
Qed.

(** * C145 *)
Lemma any2_true m j i : nth i (nth j m []) false = true -> any2 m = true.
Proof. intros H. destruct (any2 m) eqn:A; auto. rewrite (any2_false m j i A) in H. discriminate. Qed.

Lemma in_box_iff box y x : in_box box y x = true <-> InBox box x y.
Proof. destruct box as [[[a b] c] d]. unfold in_box, InBox, qle. rewrite !Bool.andb_true_iff, !Qle_bool_iff. tauto. Qed.

Lemma mask_lost buffer src dst cell part ys xs e : src_subset buffer true src dst cell = Ok (part, (ys, xs)) ->
  grid_extent (slice_tgrid (nat_pair (fst cell)) (nat_pair (snd cell)) dst) = Ok e ->
  (exists y x, In y (tg_ys src) /\ In x (tg_xs src) /\ ~ InBox (expand buffer e) x y) ->
  forall j i, j < snd ys - fst ys -> i < snd xs - fst xs ->
    (masked_at (tg_mask part) j i = false <-> InBox (expand buffer e) (nth (fst xs + i) (tg_xs src) 0%Q) (nth (fst ys + j) (tg_ys src) 0%Q)).
Proof.
  intros S' E [y [x [Hy [Hx O]]]] j i J I'. apply src_subset_ok in S'. destruct S' as [e' [E' B]]. rewrite E in E'. injection E' as <-.
  pose proof (box_subset_spec src (expand buffer e)) as H. rewrite B in H. destruct H as [_ [_ [_ [_ [_ K]]]]]. rewrite K by auto.
  apply (In_nth _ _ 0%Q) in Hy, Hx. destruct Hy as [j' [J' <-]], Hx as [i' [I'' <-]]. rewrite <- in_box_iff, Bool.not_true_iff_false in O.
  rewrite (any2_true _ j' i') by (rewrite hint_at by auto; now rewrite O).
  rewrite <- in_box_iff, Bool.negb_false_iff. reflexivity.
Qed.

Lemma mask_kept buffer allow src dst cell part ys xs e : src_subset buffer allow src dst cell = Ok (part, (ys, xs)) ->
  grid_extent (slice_tgrid (nat_pair (fst cell)) (nat_pair (snd cell)) dst) = Ok e ->
  (forall y x, In y (tg_ys src) -> In x (tg_xs src) -> InBox (expand buffer e) x y) ->
  forall j i, j < snd ys - fst ys -> i < snd xs - fst xs ->
    masked_at (tg_mask part) j i = masked_at (tg_mask src) (fst ys + j) (fst xs + i).
Proof.
  intros S' E A j i J I'. apply src_subset_ok in S'. destruct S' as [e' [E' B]]. rewrite E in E'. injection E' as <-.
  pose proof (box_subset_spec src (expand buffer e)) as H. rewrite B in H. destruct H as [_ [_ [_ [_ [_ K]]]]]. rewrite K by auto.
  destruct (any2 (hint_of src (expand buffer e))) eqn:N; auto. exfalso.
  unfold any2 in N. apply existsb_exists in N. destruct N as [row [Hr N]]. apply existsb_exists in N. destruct N as [b [Hb ->]].
  unfold hint_of in Hr. apply in_map_iff in Hr. destruct Hr as [y [<- Hy]]. apply in_map_iff in Hb. destruct Hb as [x [Hn Hx]].
  pose proof (proj2 (in_box_iff _ _ _) (A y x Hy Hx)) as B'. rewrite B' in Hn. discriminate.
Qed.

Lemma sum_near_local reach : Local reach (sum_near reach).
Proof. intros pts cell. unfold sum_near. rewrite filter_filter. f_equal. f_equal. apply filter_ext. intros p. now rewrite Bool.andb_diag. Qed.

(** * C146 *)
Lemma default_buffer src dst s d : (buffer_value None s d src dst ==
  2 * Qmin (match d with Some r => r | None => resolution_max dst end) (match s with Some r => r | None => resolution_max src end))%Q.
Proof.
  unfold buffer_value. set (a := match d with Some r => r | None => resolution_max dst end). set (b := match s with Some r => r | None => resolution_max src end).
  unfold qle. destruct (Qle_bool a b) eqn:E.
  - apply Qle_bool_iff in E. now rewrite Q.min_l.
  - rewrite Q.min_r; [reflexivity|]. apply Qnot_lt_le. intros H. apply Qlt_le_weak, Qle_bool_iff in H. congruence.
Qed.

Lemma default_enough {V W} (regrid : list (Q * Q * V) -> (Q * Q) * (Q * Q) -> W) reach allow src dst value cell part ys xs :
  Local reach regrid -> (resolution_max src <= resolution_max dst)%Q -> (reach <= 2 * resolution_max src)%Q ->
  GoodGrid dst -> tg_mask src = None -> InGrid dst cell ->
  src_subset (buffer_value None None None src dst) allow src dst cell = Ok (part, (ys, xs)) ->
  forall j i, InChunk cell j i ->
    regrid (points part (fun j' i' => value (fst ys + j') (fst xs + i'))) (dst_cell dst j i) = regrid (points src value) (dst_cell dst j i).
Proof.
  intros Lc R1 R2. apply (chunk_enough regrid reach); auto. rewrite default_buffer. rewrite Q.min_r by auto. exact R2.
Qed.

(** A chunk that raises ends everything. *)
Lemma map_res_err {A B} (f : A -> res B) l a e : In a l -> f a = Err e -> (forall b e', In b l -> f b = Err e' -> e' = e) -> map_res f l = Err e.
Proof.
  induction l as [|b l IH]; intros H F A'; [destruct H|]. cbn. destruct (f b) as [r|e'] eqn:E; cbn.
  - destruct H as [->|H]; [congruence|]. rewrite IH; auto. intros c e' Hc. apply A'. now right.
  - f_equal. apply (A' b e'); auto. now left.
Qed.

Lemma src_subset_errors buffer src dst cell x : tg_mask dst = None -> GoodGrid dst -> InGrid dst cell ->
  src_subset buffer true src dst cell = Err x -> x = EmptySubsetError.
Proof.
  intros M G IG. destruct (chunk_extent dst cell G IG) as [e [E _]].
  unfold src_subset. replace (tg_mask (slice_tgrid _ _ dst)) with (@None (list (list bool))) by (unfold slice_tgrid; now rewrite M).
  rewrite E. cbn [bind]. pose proof (box_subset_spec src (expand buffer e)) as S'.
  destruct (box_subset src (expand buffer e)) as [r|x']; [discriminate|]. destruct S' as [-> _]. intros H. now injection H as <-.
Qed.

Lemma chunks_fail buffer src dst sy sx cells cell : tg_mask dst = None -> GoodGrid dst -> ~ (sy = 1 /\ sx = 1)%Z ->
  iter_dst_grid_slices (zlen (tg_ys dst)) (zlen (tg_xs dst)) sy sx None = Ok cells -> Forall (InGrid dst) cells -> In cell cells ->
  (forall e y x, grid_extent (slice_tgrid (nat_pair (fst cell)) (nat_pair (snd cell)) dst) = Ok e -> In y (tg_ys src) -> In x (tg_xs src) -> ~ InBox (expand buffer e) x y) ->
  write_chunks buffer true src dst sy sx = Err EmptySubsetError.
Proof.
  intros M G One E F H N. unfold write_chunks. destruct ((sy =? 1)%Z && (sx =? 1)%Z) eqn:O; [exfalso; apply One; lia|].
  rewrite E. cbn [bind]. rewrite Forall_forall in F. rewrite (map_res_err _ _ cell EmptySubsetError); auto.
  - destruct (chunk_extent dst cell G (F _ H)) as [e [Ee _]]. apply (chunk_missing _ _ _ _ _ e); auto.
    intros y x Hy Hx. apply Bool.not_true_iff_false. rewrite in_box_iff. now apply N.
  - intros b e' Hb. apply src_subset_errors; auto.
Qed.

Lemma one_chunk buffer allow src dst : write_chunks buffer allow src dst 1 1 = Err ValueError.
Proof. reflexivity. Qed.

(** The resolution of an even axis on one side of zero. *)

Lemma steps_cons d a b l : Steps d (a :: b :: l) -> (b - a == d)%Q /\ Steps d (b :: l).
Proof. intros H. split; [apply (H 0); reflexivity|]. intros k x y X Y. apply (H (S k)); auto. Qed.

Lemma diffs_even d l : (0 <= d)%Q -> Steps d l -> Forall (fun x => 0 <= x)%Q l -> Forall (fun x => x == d)%Q (map Qabs (np_diff (map Qabs l))).
Proof.
  intros D. induction l as [|a [|b l] IH]; intros S' P; try constructor.
  - apply steps_cons in S'. destruct S' as [E _]. inversion P as [|? ? Pa P']; subst. inversion P' as [|? ? Pb _]; subst.
    rewrite (Qabs_pos b), (Qabs_pos a), E by auto. now apply Qabs_pos.
  - apply IH; [apply (steps_cons d a), S'|]. now inversion P.
Qed.

Lemma np_diff_length l : length (np_diff l) = length l - 1.
Proof. induction l as [|a [|b l] IH]; auto. cbn [np_diff length] in *. rewrite IH. lia. Qed.

Lemma qsum_even d l : Forall (fun x => x == d)%Q l -> (qsum l == inject_Z (zlen l) * d)%Q.
Proof.
  induction 1 as [|x l E F IH]; [cbn; ring|]. unfold qsum in *. cbn [fold_right]. cbv beta in E. 
  assert (Z' : zlen (x :: l) = (zlen l + 1)%Z) by (unfold zlen; cbn [length]; lia). rewrite Z', IH, E, inject_Z_plus. ring.
Qed.

Lemma mean_even d l : l <> [] -> Forall (fun x => x == d)%Q l -> (np_mean l == d)%Q.
Proof.
  intros N F. unfold np_mean. rewrite (qsum_even d) by auto. field. destruct l as [|x l]; [now elim N|].
  unfold zlen. cbn [length]. rewrite Nat2Z.inj_succ. intros E. unfold Qeq in E. cbn in E. lia.
Qed.

Lemma firstn_nth_error {A} n (l : list A) k x : nth_error (firstn n l) k = Some x -> nth_error l k = Some x.
Proof. revert l k. induction n as [|n IH]; intros [|a l] [|k] H; cbn in *; try discriminate; auto. Qed.

Lemma resolution_even d l : (2 <= length l) -> (0 <= d)%Q -> Steps d l -> Forall (fun x => 0 <= x)%Q l -> (axis_resolution l == d)%Q.
Proof.
  intros L D S' P. unfold axis_resolution. destruct l as [|a [|b l]]; cbn in L; try lia.
  set (f := firstn 100 (a :: b :: l)).
  apply mean_even.
  - intros E. apply (f_equal (@length Q)) in E. rewrite map_length, np_diff_length, map_length in E. unfold f in E. cbn [firstn length] in E. lia.
  - apply diffs_even; auto.
    + intros k x y X Y. apply (S' k); eapply firstn_nth_error; eassumption.
    + apply Forall_forall. intros x Hx. rewrite Forall_forall in P. apply P. apply In_nth_error in Hx. destruct Hx as [k Hk]. eapply nth_error_In, firstn_nth_error, Hk.
Qed.

Lemma resolution_larger g : (resolution_max g == Qmax (axis_resolution (tg_xs g)) (axis_resolution (tg_ys g)))%Q.
Proof.
  unfold resolution_max, qlt. destruct (Qle_bool _ _) eqn:E; cbn [negb].
  - apply Qle_bool_iff in E. now rewrite Q.max_l.
  - rewrite Q.max_r; [reflexivity|]. apply Qlt_le_weak, Qnot_le_lt. intros H. apply Qle_bool_iff in H. congruence.
Qed.
