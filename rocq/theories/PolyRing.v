(** Proofs about removing self-intersections and preparing geometries. *)
From Coq Require Import QArith Lia.
From Verif Require Import Py Lib Spec ChunkModel PolyModel PolySpec PolyProofs.
Local Close Scope Q_scope.
Local Open Scope nat_scope.

Section Ring.
Variable V : Type.
Variable veqb : V -> V -> bool.
Variable veqb_eq : forall a b, veqb a b = true <-> a = b.
Notation occ := (occurrences veqb).

Lemma veqb_refl a : veqb a a = true.
Proof. now apply veqb_eq. Qed.
Lemma veqb_sym a b : veqb a b = veqb b a.
Proof. destruct (veqb a b) eqn:E, (veqb b a) eqn:F; auto; [apply veqb_eq in E | apply veqb_eq in F]; subst; rewrite veqb_refl in *; discriminate. Qed.

Definition seen_in (nodes : list V) (x : V) : bool := existsb (fun n => veqb n x) nodes.
Lemma seen_iff nodes x : seen_in nodes x = true <-> In x nodes.
Proof.
  unfold seen_in. rewrite existsb_exists. split; [intros [n [I E]]; apply veqb_eq in E; now subst | intro I; exists x; split; auto; apply veqb_refl].
Qed.

Lemma inner_spec c idx x nodes inds :
  scan_inner V veqb c idx x (nodes, inds) = if (1 <? occ x c) && negb (seen_in nodes x) then (nodes ++ [x], inds ++ [idx]) else (nodes, inds).
Proof.
  unfold scan_inner.
  assert (H : forall l k nodes inds, k <= 1 \/ seen_in nodes x = true ->
    snd (fold_left (fun (a : nat * (list V * list nat)) y =>
         let ctr := if veqb x y then S (fst a) else fst a in
         let '(nodes, indices) := snd a in
         (ctr, if (1 <? ctr)%nat && negb (existsb (fun n => veqb n x) nodes) then (nodes ++ [x], indices ++ [idx]) else (nodes, indices)))
       l (k, (nodes, inds))) = if (1 <? k + occ x l) && negb (seen_in nodes x) then (nodes ++ [x], inds ++ [idx]) else (nodes, inds)).
  { induction l as [|y t IH]; intros k nd ind K.
    - cbn [fold_left snd]. unfold occurrences. cbn [filter length]. destruct K as [K|K].
      + assert (1 <? k + 0 = false) as -> by (apply Nat.ltb_ge; lia). reflexivity.
      + rewrite K, andb_false_r. reflexivity.
    - cbn [fold_left fst snd]. unfold occurrences. cbn [filter]. fold (seen_in nd x).
      destruct (veqb x y) eqn:E.
      + cbn [length]. fold (occ x t). destruct (1 <? S k) eqn:L; cbn [andb].
        * assert (1 <? k + S (occ x t) = true) as -> by (apply Nat.ltb_lt in L; apply Nat.ltb_lt; lia). cbn [andb].
          destruct (seen_in nd x) eqn:S; cbn [negb].
          -- rewrite IH by now right. rewrite S, andb_false_r. reflexivity.
          -- assert (S' : seen_in (nd ++ [x]) x = true) by (apply seen_iff, in_or_app; right; now left).
             rewrite IH by now right. rewrite S', andb_false_r. reflexivity.
        * apply Nat.ltb_ge in L. rewrite IH by (left; lia). replace (k + S (occ x t)) with (S k + occ x t) by lia. reflexivity.
      + fold (occ x t). destruct (1 <? k) eqn:L; cbn [andb].
        * destruct K as [K|K]; [apply Nat.ltb_lt in L; lia|]. rewrite K. cbn [negb]. rewrite IH by now right. now rewrite K.
        * rewrite IH by (apply Nat.ltb_ge in L; now left). reflexivity. }
  rewrite H by (left; lia). reflexivity.
Qed.

(** Indices and nodes found, and the nodes kept, read off the ring. *)
Fixpoint dups (c seen : list V) (m : nat) (l : list V) : list nat :=
  match l with
  | [] => []
  | x :: t => if (1 <? occ x c) && negb (seen_in seen x) then m :: dups c (x :: seen) (S m) t else dups c (x :: seen) (S m) t
  end.
Fixpoint keep (c seen l : list V) : list V :=
  match l with
  | [] => []
  | x :: t => if (1 <? occ x c) && negb (seen_in seen x) then keep c (x :: seen) t else x :: keep c (x :: seen) t
  end.

Lemma fold_dups c : forall l seen m nodes inds,
  (forall x, 1 < occ x c -> seen_in nodes x = seen_in seen x) ->
  exists nodes', fold_left (fun st (ix : nat * V) => scan_inner V veqb c (fst ix) (snd ix) st) (combine (seq m (length l)) l) (nodes, inds)
    = (nodes', inds ++ dups c seen m l) /\ (nodes' = [] <-> nodes = [] /\ dups c seen m l = []).
Proof.
  induction l as [|x t IH]; intros seen m nodes inds A.
  - exists nodes. cbn. rewrite app_nil_r. split; auto. tauto.
  - cbn [length seq combine fold_left fst snd dups]. rewrite inner_spec.
    destruct (1 <? occ x c) eqn:O; cbn [andb].
    + apply Nat.ltb_lt in O. rewrite (A x O). destruct (seen_in seen x) eqn:S; cbn [negb].
      * destruct (IH (x :: seen) (Datatypes.S m) nodes inds) as [n' [E E']].
        { intros y Oy. unfold seen_in at 2. cbn [existsb]. fold (seen_in seen y). rewrite (A y Oy). destruct (veqb x y) eqn:X; auto.
          apply veqb_eq in X. subst y. now rewrite S. }
        exists n'. now split.
      * destruct (IH (x :: seen) (Datatypes.S m) (nodes ++ [x]) (inds ++ [m])) as [n' [E E']].
        { intros y Oy. unfold seen_in. rewrite existsb_app. cbn [existsb]. rewrite orb_false_r. fold (seen_in nodes y). fold (seen_in seen y).
          rewrite (A y Oy). apply orb_comm. }
        exists n'. split; [now rewrite E, <- app_assoc|]. rewrite E'. split; [intros [N _]; now destruct nodes | intros [_ N]; discriminate].
    + apply Nat.ltb_ge in O. destruct (IH (x :: seen) (Datatypes.S m) nodes inds) as [n' [E E']].
      { intros y Oy. unfold seen_in at 2. cbn [existsb]. fold (seen_in seen y). rewrite (A y Oy). destruct (veqb x y) eqn:X; auto.
        apply veqb_eq in X. subst y. lia. }
      exists n'. now split.
Qed.

Lemma dups_bound c : forall l seen m i, In i (dups c seen m l) -> m <= i.
Proof.
  induction l as [|x t IH]; intros seen m i I; [easy|]. cbn [dups] in I.
  destruct ((1 <? occ x c) && negb (seen_in seen x)); [destruct I as [<-|I]; auto|]; apply IH in I; lia.
Qed.

Lemma remaining_keep c : forall l seen m I, (forall i, m <= i -> In i I <-> In i (dups c seen m l)) ->
  map snd (filter (fun ix : nat * V => negb (existsb (Nat.eqb (fst ix)) I)) (combine (seq m (length l)) l)) = keep c seen l.
Proof.
  induction l as [|x t IH]; intros seen m I A; auto. cbn [length seq combine filter fst keep].
  assert (T : map snd (filter (fun ix : nat * V => negb (existsb (Nat.eqb (fst ix)) I)) (combine (seq (S m) (length t)) t)) = keep c (x :: seen) t).
  { apply IH. intros i Li. rewrite A by lia. cbn [dups]. destruct ((1 <? occ x c) && negb (seen_in seen x)); [|tauto]. split; [intros [->|J]; [lia|exact J] | now right]. }
  assert (M : existsb (Nat.eqb m) I = (1 <? occ x c) && negb (seen_in seen x)).
  { apply Bool.eq_iff_eq_true. rewrite existsb_exists. split.
    - intros [j [J E]]. apply Nat.eqb_eq in E. subst j. apply A in J; auto. cbn [dups] in J.
      destruct ((1 <? occ x c) && negb (seen_in seen x)); auto. apply dups_bound in J. lia.
    - intro E. exists m. split; [|apply Nat.eqb_refl]. apply A; auto. cbn [dups]. rewrite E. now left. }
  rewrite M. destruct ((1 <? occ x c) && negb (seen_in seen x)); cbn [negb map snd]; now rewrite T.
Qed.

Lemma scan_spec c : exists nodes, scan V veqb c = (nodes, dups c [] 0 c) /\ (nodes = [] <-> dups c [] 0 c = []).
Proof.
  unfold scan. destruct (fold_dups c c [] 0 [] []) as [n [E E']]; [reflexivity|]. exists n. rewrite E. split; auto. rewrite E'. tauto.
Qed.
Lemma remaining_spec c : remaining V c (dups c [] 0 c) = keep c [] c.
Proof. unfold remaining. apply remaining_keep. tauto. Qed.

Lemma occ_cons x y l : occ x (y :: l) = (if veqb x y then 1 else 0) + occ x l.
Proof. unfold occurrences. cbn [filter]. destruct (veqb x y); reflexivity. Qed.

Lemma keep_occ c x : forall l seen,
  occ x (keep c seen l) = if (1 <? occ x c) && negb (seen_in seen x) then occ x l - 1 else occ x l.
Proof.
  induction l as [|y t IH]; intro seen; [cbn [keep]; change (occ x []) with 0; now destruct ((1 <? occ x c) && negb (seen_in seen x))|]. cbn [keep].
  assert (Sx : seen_in (y :: seen) x = veqb y x || seen_in seen x) by reflexivity.
  destruct (veqb x y) eqn:X.
  - apply veqb_eq in X. subst y. rewrite occ_cons, veqb_refl. rewrite veqb_refl in Sx. cbn [orb] in Sx.
    destruct ((1 <? occ x c) && negb (seen_in seen x)) eqn:D.
    + rewrite IH, Sx, andb_false_r. lia.
    + rewrite occ_cons, veqb_refl, IH, Sx, andb_false_r. reflexivity.
  - assert (Y : veqb y x = false) by (rewrite veqb_sym; exact X). rewrite Y in Sx. cbn [orb] in Sx. rewrite occ_cons, X. cbn [Nat.add].
    destruct ((1 <? occ y c) && negb (seen_in seen y)).
    + rewrite IH, Sx. reflexivity.
    + rewrite occ_cons, X, IH, Sx. reflexivity.
Qed.

Lemma keep_sub c : forall l seen, exists sel, length sel = length l /\ keep c seen l = map snd (filter fst (combine sel l)).
Proof.
  induction l as [|x t IH]; intro seen; [now exists []|]. cbn [keep]. destruct (IH (x :: seen)) as [sel [L E]].
  destruct ((1 <? occ x c) && negb (seen_in seen x)); [exists (false :: sel) | exists (true :: sel)]; cbn; rewrite E; split; auto.
Qed.

Lemma dups_nil c : (forall x, In x c -> occ x c <= 1) -> forall l seen m, incl l c -> dups c seen m l = [].
Proof.
  intro A. induction l as [|x t IH]; intros seen m I; auto. cbn [dups]. assert (O : occ x c <= 1) by (apply A, I; now left).
  assert (1 <? occ x c = false) as -> by (apply Nat.ltb_ge; lia). cbn [andb]. apply IH. intros y J. apply I. now right.
Qed.
Lemma dups_some c x : 1 < occ x c -> forall l seen m, In x l -> seen_in seen x = false -> dups c seen m l <> [].
Proof.
  intros O. induction l as [|y t IH]; intros seen m I S; [easy|]. cbn [dups]. destruct (veqb x y) eqn:X.
  - apply veqb_eq in X. subst y. assert (1 <? occ x c = true) as -> by (apply Nat.ltb_lt; lia). rewrite S. discriminate.
  - destruct I as [->|I]; [rewrite veqb_refl in X; discriminate|].
    destruct ((1 <? occ y c) && negb (seen_in seen y)); [discriminate|]. apply IH; auto.
    unfold seen_in. cbn [existsb]. fold (seen_in seen x). rewrite (veqb_sym y x), X, S. reflexivity.
Qed.
Lemma occ_In x l : 0 < occ x l -> In x l.
Proof.
  unfold occurrences. intro L. destruct (filter (veqb x) l) as [|y t] eqn:F; [cbn in L; lia|].
  assert (I : In y (filter (veqb x) l)) by (rewrite F; now left). apply filter_In in I as [I E]. apply veqb_eq in E. now subst.
Qed.

(** ** Polygons *)
Variable P H : Type.
Variable holes : P -> list H.
Variable coords : P -> list V.
Variable of_ring : list V -> res P.
Variable valid : P -> bool.
Variable valid_multi : list P -> bool.
Variable buffer0 : P -> geometry P.
Variable member_exc : exc.
Notation remove_once := (remove_once P H V holes veqb coords of_ring).
Notation do_remove := (do_remove_self_intersects P H V holes veqb coords of_ring valid valid_multi buffer0).
Notation isv := (is_valid P valid valid_multi).

Lemma once_unchanged p : holes p = [] -> (forall x, In x (coords p) -> occ x (coords p) <= 1) -> remove_once p = Ok p.
Proof using veqb_eq.
  clear valid valid_multi buffer0 member_exc.
  intros Eh A. unfold PolyModel.remove_once. rewrite Eh. destruct (scan_spec (coords p)) as [n [E N]]. rewrite E.
  rewrite (dups_nil _ A) in * by apply incl_refl. now rewrite (proj2 N eq_refl).
Qed.

Lemma once_removed p x : holes p = [] -> 1 < occ x (coords p) -> remove_once p = of_ring (keep (coords p) [] (coords p)).
Proof using veqb_eq.
  clear valid valid_multi buffer0 member_exc.
  intros Eh O. unfold PolyModel.remove_once. rewrite Eh. destruct (scan_spec (coords p)) as [n [E N]]. rewrite E.
  assert (D : dups (coords p) [] 0 (coords p) <> []) by (apply (dups_some _ x O); [apply occ_In; lia | reflexivity]).
  destruct n as [|y n]; [elim D; now apply N|]. now rewrite remaining_spec.
Qed.

Lemma once_holes p : holes p <> [] -> remove_once p = Err SelfIntersectsRemovalError.
Proof. unfold PolyModel.remove_once. now destruct (holes p). Qed.

Lemma remove_valid p g : do_remove p = Ok g -> isv g = true.
Proof.
  unfold PolyModel.do_remove_self_intersects. destruct (remove_once p) as [p1|]; [|discriminate]. cbn [bind].
  destruct (valid p1) eqn:V1; [intro E; now injection E as <-|]. destruct (isv (buffer0 p1)) eqn:V2; [intro E; now injection E as <-|].
  destruct (buffer0 p1) as [q| | |]; try discriminate. destruct (remove_once q) as [p2|]; [|discriminate]. cbn [bind].
  destruct (valid p2) eqn:V3; [intro E; now injection E as <-|]. destruct (isv (buffer0 p2)) eqn:V4; [intro E; now injection E as <-|discriminate].
Qed.
End Ring.
