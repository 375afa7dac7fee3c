From Verif Require Import Py Lib ProgressModel ProgressSpec ProgressProofs.
From Coq Require Import QArith Lqa Lia.
Local Open Scope nat_scope.

(** ** C156: the progress of an execution *)

(** Whatever the datasets and the messages: when no dataset gives more collections than there
    are geometries, the percentages never go back and stay between 0 and 100.  When each gives
    one collection for each geometry, on a rank that takes part, the last message reports 100. *)
Theorem C156_progress_partial : forall geometries calculations grouping ds,
  0 < geometries -> ds <> [] -> calculations <> Some 0 ->
  Forall (fun ys => length ys <= geometries) ds ->
  Progress (execution_reports geometries calculations grouping ds) /\
  (Forall (fun ys => length ys = geometries) ds -> Present ds ->
   exists front last, execution_reports geometries calculations grouping ds = front ++ [last] /\ (last == 100)%Q).
Proof.
  intros geoms c g ds Hg Hd Hc H. split; [apply execution_progress; assumption|]. intros E P.
  destruct (execution_last geoms c g ds) as [front Hf]. exists front. eexists. split; [exact Hf|].
  destruct (marks_datasets c g geoms ds Hc H) as [_ [M _]]. rewrite (M P E). apply percent_full.
  pose proof (wanted_pos c). destruct ds; [congruence|]. cbn [length]. nia.
Qed.
Print Assumptions C156_progress_partial.

(** Two datasets, two geometries and two calculations. *)
Example C156_progress_case :
  let ys := [mkyielded 1 false; mkyielded 0 false] in
  map (fun q => Qred q) (execution_reports 2 (Some 2) false [ys; ys]) =
    [0; 0; 0; 0; 0; 0; 0; 0; 25 # 2; 25; 25; 75 # 2; 50; 50; 50; 50; 125 # 2; 75; 75; 175 # 2; 100]%Q.
Proof. vm_compute. reflexivity. Qed.

(** A successful execution in which a dataset gives fewer collections than there are geometries -
    an empty time or level subset that is allowed gives one (engine.py:252-263) - reports less than
    100 with its last message. *)
Theorem C156_fewer_refuted : forall geometries calculations grouping ds,
  0 < geometries -> calculations <> Some 0 -> Forall (fun ys => length ys <= geometries) ds ->
  Exists (fun ys => length ys < geometries) ds ->
  exists front last, execution_reports geometries calculations grouping ds = front ++ [last] /\ (last < 100)%Q.
Proof.
  intros geoms c g ds Hg Hc H E. destruct (execution_last geoms c g ds) as [front Hf]. exists front. eexists. split; [exact Hf|].
  destruct (marks_datasets c g geoms ds Hc H) as [_ [_ M]]. specialize (M E).
  assert (0 < length ds * geoms * wanted c) as Ht by lia.
  rewrite <- (percent_full _ Ht). apply percent_lt; assumption.
Qed.
Print Assumptions C156_fewer_refuted.

Example C156_fewer_case :
  Qred (last (execution_reports 4 None false [[mkyielded 0 false]]) 0%Q) = 25%Q.
Proof. vm_compute. reflexivity. Qed.

(** A rank outside the communicator counts one operation for a geometry, whatever the number of
    calculations: with one geometry and [k] calculations it ends at 100 / k. *)
Theorem C156_rank_refuted : forall k n grouping, 2 <= k ->
  exists front last, execution_reports 1 (Some k) grouping [[mkyielded n true]] = front ++ [last] /\
    (last * inject_Z (Z.of_nat k) == 100)%Q /\ (last < 100)%Q.
Proof.
  intros k n g Hk. destruct (execution_last 1 (Some k) g [[mkyielded n true]]) as [front Hf]. exists front. eexists. split; [exact Hf|].
  assert (marks (flat_map (dataset_events (Some k) g) [[mkyielded n true]]) = 1) as ->.
  { cbn [flat_map dataset_events marks app]. rewrite !app_nil_r, marks_collection. reflexivity. }
  assert (length [[mkyielded n true]] * 1 * wanted (Some k) = k) as ->.
  { cbn [length wanted]. destruct (Nat.eqb_spec k 0); lia. }
  split.
  - unfold percent. cbn [Z.of_nat]. pose proof (inject_pos k ltac:(lia)) as P. change (inject_Z (Z.pos (Pos.of_succ_nat 0))) with 1%Q.
    field. intros E. rewrite E in P. discriminate.
  - rewrite <- (percent_full k) by lia. apply percent_lt; lia.
Qed.
Print Assumptions C156_rank_refuted.

Example C156_rank_case : Qred (last (execution_reports 1 (Some 4) false [[mkyielded 2 true]]) 0%Q) = 25%Q.
Proof. vm_compute. reflexivity. Qed.

(** ** C157: the progress of a tiled computation *)

(** When the executions for the tiles report progress, the user's function is called with
    progress over all of them: 0 until the tiles begin, each tile in its own share, and - when
    the last tile ends at 100 - 100 at the end. *)
Theorem C157_progress_partial : forall before tiles, tiles <> [] -> Forall Progress tiles ->
  exists l, fst (compute_reports User before tiles) = map Some l /\ Progress l /\
    firstn (length before + 1) l = repeat 0%Q (length before + 1) /\
    (forall others final p, tiles = others ++ [final ++ [p]] -> (p == 100)%Q ->
       exists front q, l = front ++ [q] /\ (q == 100)%Q).
Proof.
  intros before tiles Hn H. exists (user_reports before tiles). split; [apply compute_user|].
  split; [apply compute_progress; assumption|]. split.
  - unfold user_reports. clear. induction before as [|x t IH]; [reflexivity|]. cbn [map app length Nat.add firstn repeat]. f_equal. exact IH.
  - intros others final p -> Hp.
    destruct (user_last (length (others ++ [final ++ [p]])) others (final ++ [p]) final 0) as [pre [q [E Q1]]];
      [exists p; auto|rewrite app_length; cbn [length]; lia|].
    unfold user_reports. rewrite E. exists (map (fun _ => 0%Q) before ++ [0%Q] ++ pre), q. split.
    + rewrite !app_assoc. reflexivity.
    + rewrite Q1. rewrite app_length. cbn [length Nat.add]. replace (length others + 1) with (S (length others)) by lia.
      apply done_full. lia.
Qed.
Print Assumptions C157_progress_partial.

(** The share of a tile: what the execution for the tile after [ctr] others reports as [p]
    reaches the user as (ctr * 100 + p) / tiles. *)
Theorem C157_share : forall before tiles ctr t k p,
  nth_error tiles ctr = Some t -> nth_error t k = Some p ->
  exists x, In (Some x) (fst (compute_reports User before tiles)) /\
    (x * inject_Z (Z.of_nat (length tiles)) == inject_Z (Z.of_nat ctr) * 100 + p)%Q.
Proof.
  intros before tiles ctr t k p Ht Hp.
  assert (0 < length tiles) as Hl by (pose proof (proj1 (nth_error_Some tiles ctr)); rewrite Ht in *; specialize (H ltac:(discriminate)); lia).
  exists (scaled (length tiles) (tiles_done (length tiles) ctr) p). split.
  - rewrite compute_user. apply in_map. unfold user_reports. rewrite !in_app_iff. right. right.
    generalize dependent (length tiles). intros n Hl. change ctr with (0 + ctr) at 1. generalize 0 as c0.
    revert ctr Ht. induction tiles as [|u r IH]; intros [|ctr] Ht c0; try discriminate; cbn [nth_error user_tiles] in *; apply in_app_iff.
    + injection Ht as ->. left. rewrite Nat.add_0_r. unfold user_tile. apply in_map. eapply nth_error_In. exact Hp.
    + right. rewrite Nat.add_succ_r. apply (IH ctr Ht (S c0)).
  - unfold scaled, tiles_done. pose proof (inject_pos _ Hl) as P. field. intros E. rewrite E in P. discriminate.
Qed.
Print Assumptions C157_share.

Example C157_progress_case :
  map (option_map Qred) (fst (compute_reports User [0; 100] [[0; 50; 100]; [0; 100]]))%Q =
    map Some [0; 0; 0; 0; 25; 50; 50; 100]%Q.
Proof. vm_compute. reflexivity. Qed.
Example C157_share_case : nth_error [[0; 50; 100]; [0; 100]]%Q 1 = Some [0; 100]%Q /\ nth_error [0; 100]%Q 1 = Some 100%Q.
Proof. split; reflexivity. Qed.

(** The callback of the operations is not put back: executing them again reports 100 and more. *)
Theorem C157_again_refuted : forall before tiles p, tiles <> [] ->
  exists v, reported (snd (compute_reports User before tiles)) p = Some v /\
    (v == p / inject_Z (Z.of_nat (length tiles)) + 100)%Q /\ ((0 < p)%Q -> (100 < v)%Q).
Proof.
  intros before tiles p Hn. destruct (after_user before tiles p Hn) as [v [E V]]. exists v. split; [exact E|]. split; [exact V|].
  intros Hp. rewrite V. assert (0 < length tiles) as Hl by (destruct tiles; [congruence|cbn; lia]).
  unfold Qdiv. assert (0 < p * / inject_Z (Z.of_nat (length tiles)))%Q by (apply Qmult_lt_0_compat; [exact Hp|apply Qinv_lt_0_compat, inject_pos; exact Hl]). lra.
Qed.
Print Assumptions C157_again_refuted.

(** A second computation with the same operations reports nothing below 100. *)
Theorem C157_second_refuted : forall before tiles before' tiles' x,
  tiles <> [] -> tiles' <> [] -> Forall Progress tiles' ->
  In x (fst (compute_reports (snd (compute_reports User before tiles)) before' tiles')) ->
  exists q, x = Some q /\ (100 <= q)%Q.
Proof.
  intros before tiles before' tiles' x Hn Hn' H Hx.
  assert (0 < length tiles) as Hl by (destruct tiles; [congruence|cbn; lia]).
  cbn [compute_reports snd] in Hx. destruct (Nat.eqb_spec (length tiles) 0) as [E|_]; [lia|].
  apply (reported_again (length tiles) before' tiles'); try assumption.
  eapply Forall_impl; [|exact H]. intros ? [_ K]. exact K.
Qed.
Print Assumptions C157_second_refuted.

Example C157_second_case :
  map (option_map Qred) (fst (compute_reports (snd (compute_reports User [0] [[0; 100]])) [0] [[0; 100]]))%Q =
    map Some [100; 100; 100; 200]%Q.
Proof. vm_compute. reflexivity. Qed.

(** After a computation that is refused for the size of its tiles, every execution of the
    operations reports 0, whatever its progress. *)
Theorem C157_refused_refuted : forall p, reported (compute_refused User) p = Some 0%Q.
Proof. reflexivity. Qed.
Print Assumptions C157_refused_refuted.

(** Without a callback nothing is called, before and after. *)
Theorem C157_none : forall before tiles, compute_reports NoCallback before tiles = ([], NoCallback) /\ compute_refused NoCallback = NoCallback.
Proof. intros. split; reflexivity. Qed.
Print Assumptions C157_none.
