(** Property theorems: re-indexing coordinates over several ranks (C10).

    [steps lossy c start s]: the ranks can reach state [s] under some schedule of
    their programs and of message delivery; [lossy] says whether a message may
    arrive between testing and cancelling a receive. *)
From Verif Require Import Py Spec PartitionModel DimensionModel DistModel ReindexModel ReindexSpec ReindexProofs ReindexSetup ReindexWitness.
Open Scope Z_scope.

Definition C10_arrs : list (list Z) := [[7; 3; 7]; [3; 9; 7; 9]; [9; 12]].
Definition C10_setup : setup := match prepare C10_arrs 0 with Ok c => c | Err _ => mksetup [] [] [] [] [] end.

(** ** The unique values: every old index exactly once, on a rank that had it. *)
Theorem C10_unique : forall arrs start_index c, prepare arrs start_index = Ok c ->
  List.length (u_unique c) = List.length arrs /\ NoDup (concat (u_unique c)) /\
  (forall x, In x (concat (u_unique c)) <-> In x (concat arrs)) /\
  (forall r a u, nth_error arrs r = Some a -> nth_error (u_unique c) r = Some u -> incl u a).
Proof. exact uniques_elements. Qed.
Print Assumptions C10_unique.
Example C10_unique_case : prepare C10_arrs 0 = Ok C10_setup /\ u_unique C10_setup = [[3; 7]; [9]; [12]].
Proof. split; vm_compute; reflexivity. Qed.

(** ** Under every schedule: no rank fails; what it has filled in is right; and when
    all ranks have left the exchange everything is filled in.  New index [i] stands
    for the old one at position [i], from the start index on, in the unique values. *)
Theorem C10_correct : forall lossy arrs start_index c, prepare arrs start_index = Ok c -> 0 <= start_index -> (forall x, In x (concat arrs) -> 0 <= x) ->
  forall s, steps lossy c start s ->
  (forall r e, (r < List.length arrs)%nat -> s_phase s r <> Crashed e) /\
  (forall r a, nth_error arrs r = Some a -> exists k, Forall2 (NewIndex (u_unique c) start_index) (firstn k a) (s_new s r)) /\
  (all_stopped c s -> forall r a, nth_error arrs r = Some a -> Forall2 (NewIndex (u_unique c) start_index) a (s_new s r)).
Proof. exact reindexed. Qed.
Print Assumptions C10_correct.

(** ** Equal old indices become equal new ones, different ones different ones, on
    whichever ranks they are. *)
Theorem C10_same : forall lossy arrs start_index c, prepare arrs start_index = Ok c -> 0 <= start_index -> (forall x, In x (concat arrs) -> 0 <= x) ->
  forall s, steps lossy c start s -> all_stopped c s ->
  forall r r' a a' i i' x x' y y', nth_error arrs r = Some a -> nth_error arrs r' = Some a' -> nth_error a i = Some x -> nth_error a' i' = Some x' ->
    nth_error (s_new s r) i = Some y -> nth_error (s_new s r') i' = Some y' -> (x = x' <-> y = y').
Proof. exact same_iff. Qed.
Print Assumptions C10_same.

(** ** The new indices are those from the start index on, without gaps. *)
Theorem C10_range : forall lossy arrs start_index c, prepare arrs start_index = Ok c -> 0 <= start_index -> (forall x, In x (concat arrs) -> 0 <= x) ->
  forall s, steps lossy c start s -> all_stopped c s ->
  forall i, (exists r, (r < List.length arrs)%nat /\ In i (s_new s r)) <-> start_index <= i < start_index + zlen (concat (u_unique c)).
Proof. exact range_exact. Qed.
Print Assumptions C10_range.

(** A schedule of three ranks that ends: the root fills its part; rank 1 looks up 3
    and 7 with the root; rank 2 then asks rank 1. *)
Definition C10_schedule : list (nat * nat) :=
  ([(0, 0); (0, 0); (0, 0); (0, 0)] ++                          (* root fills and serves *)
   [(1, 0); (1, 0); (1, 0); (0, 1); (1, 0); (1, 0)] ++           (* 3: asked, answered *)
   [(1, 0)] ++                                                   (* 9: known *)
   [(1, 0); (1, 0); (1, 0); (0, 0); (0, 0); (0, 0); (0, 0); (0, 1); (1, 0); (1, 0)] ++   (* 7 *)
   [(1, 0); (1, 0)] ++                                           (* 9, finished *)
   [(2, 0); (2, 0); (1, 0); (1, 1); (2, 0); (2, 0); (2, 0); (2, 0)] ++    (* rank 2 asks rank 1 for 9 *)
   [(0, 0); (0, 1); (0, 1); (0, 0)] ++ [(1, 1); (2, 1)])%nat%list.
Example C10_correct_case : exists s, run false C10_setup start C10_schedule = Some s /\
  map (s_phase s) (seq 0 3) = [Stopped; Stopped; Stopped] /\ map (s_new s) (seq 0 3) = [[1; 0; 1]; [0; 2; 1; 2]; [2; 3]].
Proof. destruct (run false C10_setup start C10_schedule) as [s|] eqn:E; [|vm_compute in E; discriminate E]. exists s. split; [reflexivity|]. vm_compute in E. injection E as <-. split; vm_compute; reflexivity. Qed.

(** ** Partial: the exchange can always complete when no message is lost and no two
    ranks other than the root wait for each other.  Missing: both conditions, see
    below. *)
Theorem C10_completes_partial : forall arrs start_index c s, prepare arrs start_index = Ok c -> 0 <= start_index -> (forall x, In x (concat arrs) -> 0 <= x) ->
  Layered arrs (u_unique c) -> steps false c start s -> exists s', steps false c s s' /\ all_stopped c s'.
Proof. exact completes_layered. Qed.
Print Assumptions C10_completes_partial.

(** One or two ranks are always such a case. *)
Theorem C10_two_ranks : forall arrs us, (List.length arrs <= 2)%nat -> List.length us = List.length arrs -> Layered arrs us.
Proof. exact layered_two. Qed.
Print Assumptions C10_two_ranks.
Example C10_completes_case : Layered C10_arrs (u_unique C10_setup).
Proof.
  exists (fun r => r). intros [|[|[|r]]] [|[|[|o]]] Hr Ho [N [a [u [x [lo [hi [Ha [Hu [Hx [Hlo [Hhi Hb]]]]]]]]]]]; try congruence; try (destruct o; discriminate); try (destruct r; discriminate); try (cbn; repeat constructor; fail).
  vm_compute in Ha, Hu. injection Ha as <-. injection Hu as <-. destruct Hlo as [<-|[]]. destruct Hhi as [<-|[]]. cbn in Hx. exfalso. lia.
Qed.

(** ** Refuted: three ranks, no message lost.  Ranks 1 and 2 ask each other about 5;
    when both have looked for questions before the other's arrived, both wait for
    ever. *)
Definition C10_deadlock_arrs : list (list Z) := [[5]; [5; 1; 9]; [5; 2; 8]].
Definition C10_deadlock_setup : setup := match prepare C10_deadlock_arrs 0 with Ok c => c | Err _ => mksetup [] [] [] [] [] end.
Definition C10_deadlock_schedule : list (nat * nat) := [(1, 0); (1, 0); (1, 0); (1, 0); (2, 0); (2, 0); (2, 0); (2, 0)]%nat.
Theorem C10_deadlock_refuted : prepare C10_deadlock_arrs 0 = Ok C10_deadlock_setup /\
  exists s, steps false C10_deadlock_setup start s /\ forall s', steps false C10_deadlock_setup s s' -> ~ all_stopped C10_deadlock_setup s'.
Proof.
  split; [vm_compute; reflexivity|]. destruct (run false C10_deadlock_setup start C10_deadlock_schedule) as [s|] eqn:E; [|vm_compute in E; discriminate E].
  exists s. split; [exact (run_steps _ _ _ _ _ E)|]. intros s' H. vm_compute in E. injection E as <-. apply (stuck_forever _ _ _ _ 1%nat 2%nat H).
  - split; [vm_compute; reflexivity|]. exists 0%nat, [0%nat; 2%nat], None. split; [vm_compute; reflexivity|right; left; reflexivity].
  - split; [vm_compute; reflexivity|]. exists 0%nat, [0%nat; 1%nat], None. split; [vm_compute; reflexivity|right; left; reflexivity].
  - vm_compute. repeat constructor.
Qed.
Print Assumptions C10_deadlock_refuted.

(** ** Refuted: two ranks, and a question that arrives between the root's test of
    its receive and the cancelling of it. *)
Definition C10_lost_arrs : list (list Z) := [[5; 7]; [7; 6]].
Definition C10_lost_setup : setup := match prepare C10_lost_arrs 0 with Ok c => c | Err _ => mksetup [] [] [] [] [] end.
Definition C10_lost_schedule : list (nat * nat) := [(0, 0); (0, 0); (0, 0); (1, 0); (0, 2); (1, 0)]%nat.
Theorem C10_lost_refuted : prepare C10_lost_arrs 0 = Ok C10_lost_setup /\
  exists s, steps true C10_lost_setup start s /\ forall s', steps true C10_lost_setup s s' -> ~ all_stopped C10_lost_setup s'.
Proof.
  split; [vm_compute; reflexivity|]. destruct (run true C10_lost_setup start C10_lost_schedule) as [s|] eqn:E; [|vm_compute in E; discriminate E].
  exists s. split; [exact (run_steps _ _ _ _ _ E)|]. intros s' H. vm_compute in E. injection E as <-. apply (lost_forever _ _ _ _ 1%nat 0%nat H).
  - split; [vm_compute; reflexivity|]. split; [vm_compute; reflexivity|]. exists 0%nat, [0%nat], None. split; [vm_compute; reflexivity|left; reflexivity].
  - vm_compute. repeat constructor.
Qed.
Print Assumptions C10_lost_refuted.

(** ** Refused: several ranks, one of them without old indices. *)
Theorem C10_empty_rank : forall arrs start_index, (List.length arrs > 1)%nat -> In [] arrs -> prepare arrs start_index = Err ValueError.
Proof. exact empty_rank. Qed.
Print Assumptions C10_empty_rank.
Example C10_empty_rank_case : prepare [[1; 2]; []] 0 = Err ValueError.
Proof. vm_compute. reflexivity. Qed.
