From Verif Require Import Py Lib RoleModel RoleSpec.
From Coq Require Import String Lia.
Local Open Scope string_scope.

Notation sspec := String.eqb_spec.

Lemma dremove_in {V} : forall (d : list (string * V)) k x, In x (map fst (dremove String.eqb d k)) -> In x (map fst d).
Proof.
  induction d as [|[k' v] t IH]; intros k x; cbn [dremove map fst]; [tauto|]. destruct (String.eqb k k'); [right; exact H|].
  cbn [map fst In]. intros [H|H]; [left; exact H|right; eapply IH; exact H].
Qed.

Lemma dremove_nodup {V} : forall (d : list (string * V)) k, NoDup (map fst d) -> NoDup (map fst (dremove String.eqb d k)).
Proof.
  induction d as [|[k' v] t IH]; intros k H; cbn [dremove map fst]; [exact H|]. inversion H; subst. destruct (String.eqb k k'); [assumption|].
  cbn [map fst]. constructor; [|apply IH; assumption]. intros C. apply H2. eapply dremove_in. exact C.
Qed.

Lemma get_removed {V} : forall (d : list (string * V)) k n, NoDup (map fst d) ->
  dget String.eqb (dremove String.eqb d k) n = if String.eqb n k then None else dget String.eqb d n.
Proof.
  intros d k n H. destruct (sspec n k) as [->|E]; [apply (dget_dremove_same _ sspec); exact H|apply (dget_dremove_other _ sspec); exact E].
Qed.

Lemma get_set {V} : forall (d : list (string * V)) k v n,
  dget String.eqb (dset String.eqb d k v) n = if String.eqb n k then Some v else dget String.eqb d n.
Proof.
  intros d k v n. destruct (sspec n k) as [->|E]; [apply (dget_dset_same _ sspec)|apply (dget_dset_other _ sspec); exact E].
Qed.

(** ** Removing *)

Lemma remove_ok : forall f n c, WellFormed f -> dget String.eqb (ff_vars f) n = Some c ->
  exists l, remove_variable f n = (with_vars f l, None) /\ NoDup (map fst l) /\
    forall m, dget String.eqb l m = if String.eqb m n || match fv_bounds c with Some b => String.eqb m b | None => false end
                                    then None else dget String.eqb (ff_vars f) m.
Proof.
  intros f n c [W1 [_ [_ W4]]] H. unfold remove_variable. rewrite H. destruct (fv_bounds c) as [b|] eqn:B.
  - destruct (W4 n c b H B) as [w Hw]. rewrite Hw. eexists. split; [reflexivity|]. split; [apply dremove_nodup, dremove_nodup; exact W1|].
    intros m. rewrite get_removed by (apply dremove_nodup; exact W1). rewrite get_removed by exact W1.
    destruct (String.eqb m b), (String.eqb m n); reflexivity.
  - eexists. split; [reflexivity|]. split; [apply dremove_nodup; exact W1|]. intros m. rewrite get_removed by exact W1. rewrite orb_false_r. reflexivity.
Qed.

(** ** Adding *)

Lemma add_forced : forall l f, exists d, add_variables f l true = (with_vars f d, None) /\
  (forall n, ~ In n (map fv_name l) -> dget String.eqb d n = dget String.eqb (ff_vars f) n) /\
  (NoDup (map fv_name l) -> forall v, In v l -> dget String.eqb d (fv_name v) = Some v).
Proof.
  induction l as [|v t IH]; intros f.
  - exists (ff_vars f). destruct f. split; [reflexivity|]. split; [reflexivity|]. intros _ v [].
  - cbn [add_variables negb andb]. destruct (IH (with_vars f (dset String.eqb (ff_vars f) (fv_name v) v))) as [d [E [A B]]].
    exists d. split; [rewrite E; reflexivity|]. split.
    + intros n Hn. cbn [map In] in Hn. rewrite A by tauto. cbn [with_vars ff_vars]. rewrite get_set.
      destruct (sspec n (fv_name v)) as [->|_]; [exfalso; apply Hn; left; reflexivity|reflexivity].
    + intros Hd w [<-|Hw].
      * inversion Hd; subst. rewrite A by assumption. cbn [with_vars ff_vars]. rewrite get_set, String.eqb_refl. reflexivity.
      * inversion Hd; subst. apply B; assumption.
Qed.

(** ** Setting *)

Definition leaving (f : ffield) (key : string) (a : option farg) (n : string) : bool :=
  match coordinate f key with
  | Some c => negb (match a with Some x => Z.eqb (fv_id c) (fv_id (fa_var x)) | None => false end) &&
              (String.eqb n (fv_name c) || match fv_bounds c with Some b => String.eqb n b | None => false end)
  | None => false
  end.

Lemma leaving_spec : forall f key a n, leaving f key a n = true <-> Leaves f key a n.
Proof.
  intros f key a n. unfold leaving, Leaves. destruct (coordinate f key) as [c|].
  - rewrite andb_true_iff, orb_true_iff, negb_true_iff, String.eqb_eq. split.
    + intros [A B]. exists c. split; [reflexivity|]. split.
      * intros x ->. apply Z.eqb_neq in A. congruence.
      * destruct B as [B|B]; [left; exact B|right]. destruct (fv_bounds c) as [b|]; [|discriminate]. apply String.eqb_eq in B. congruence.
    + intros [c' [E [A B]]]. injection E as <-. split.
      * destruct a as [x|]; [|reflexivity]. apply Z.eqb_neq. specialize (A x eq_refl). congruence.
      * destruct B as [B|B]; [left; exact B|right]. rewrite B. apply String.eqb_refl.
  - split; [discriminate|]. intros [c [E _]]. discriminate.
Qed.

(** The first step: what leaves. *)
Lemma leave_step : forall f key a, WellFormed f ->
  exists l, match dget String.eqb (ff_map f) key with
    | Some (curr, _) =>
        match dget String.eqb (ff_vars f) curr with
        | Some c =>
            if true && negb (match a with Some x => Z.eqb (fv_id c) (fv_id (fa_var x)) | None => false end)
            then remove_variable f curr else (f, None)
        | None => (f, None)
        end
    | None => (f, None)
    end = (with_vars f l, None) /\
    forall n, dget String.eqb l n = if leaving f key a n then None else dget String.eqb (ff_vars f) n.
Proof.
  intros f key a W. unfold leaving, coordinate.
  assert (f = with_vars f (ff_vars f)) as Ef by (destruct f; reflexivity).
  destruct (dget String.eqb (ff_map f) key) as [[curr b]|]; [|exists (ff_vars f); split; [rewrite Ef at 1; reflexivity|reflexivity]].
  destruct (dget String.eqb (ff_vars f) curr) as [c|] eqn:C; [|exists (ff_vars f); split; [rewrite Ef at 1; reflexivity|reflexivity]].
  rewrite andb_true_l. destruct (negb _); cbn [andb]; [|exists (ff_vars f); split; [rewrite Ef at 1; reflexivity|reflexivity]].
  destruct (remove_ok f curr c W C) as [l [E [_ G]]]. exists l. split; [exact E|]. intros n. rewrite G.
  destruct W as [_ [_ [W3 _]]]. rewrite (W3 curr c C). reflexivity.
Qed.

Lemma set_ok : forall f key x, WellFormed f -> fa_placed x = true -> exists d,
  set_property f key (Some x) true true =
    (mkffield d (dset String.eqb (ff_map f) key (fv_name (fa_var x), fv_bounds (fa_var x))) (ff_crs f), None) /\
  (forall n, ~ In n (map fv_name (fa_family x)) -> dget String.eqb d n = if leaving f key (Some x) n then None else dget String.eqb (ff_vars f) n) /\
  (NoDup (map fv_name (fa_family x)) -> forall v, In v (fa_family x) -> dget String.eqb d (fv_name v) = Some v).
Proof.
  intros f key x W P. destruct (leave_step f key (Some x) W) as [l [E G]]. unfold set_property. rewrite E.
  destruct (add_forced (fa_family x) (with_vars f l)) as [d [A [B C]]]. rewrite A. cbn [map_variable]. rewrite P.
  exists d. split; [reflexivity|]. split; [|exact C]. intros n Hn. rewrite B by exact Hn. apply G.
Qed.

Lemma unset_ok : forall f key force, WellFormed f -> exists d,
  set_property f key None force true = (mkffield d (dremove String.eqb (ff_map f) key) (ff_crs f), None) /\
  (forall n, dget String.eqb d n = if leaving f key None n then None else dget String.eqb (ff_vars f) n).
Proof.
  intros f key force W. destruct (leave_step f key None W) as [l [E G]]. unfold set_property. rewrite E.
  exists l. split; [reflexivity|exact G].
Qed.

(** ** Calls that succeed, on any field *)

Lemma remove_keeps : forall f n f1 e, remove_variable f n = (f1, e) ->
  ff_map f1 = ff_map f /\ ff_crs f1 = ff_crs f.
Proof.
  intros f n f1 e H. unfold remove_variable in H. destruct (dget String.eqb (ff_vars f) n) as [v|]; [|injection H as <- _; auto].
  destruct (fv_bounds v) as [b|]; [destruct (dget String.eqb (ff_vars f) b)|]; injection H as <- _; auto.
Qed.

Lemma dremove_absent {V} : forall (d : list (string * V)) k n, dget String.eqb d n = None -> dget String.eqb (dremove String.eqb d k) n = None.
Proof.
  induction d as [|[k' v] t IH]; intros k n H; [reflexivity|]. cbn [dremove dget] in *. destruct (String.eqb n k') eqn:E; [discriminate|].
  destruct (String.eqb k k'); [exact H|]. cbn [dget]. rewrite E. apply IH. exact H.
Qed.

Lemma remove_absent : forall f n f1 e m, remove_variable f n = (f1, e) ->
  dget String.eqb (ff_vars f) m = None -> dget String.eqb (ff_vars f1) m = None.
Proof.
  intros f n f1 e m H Hm. unfold remove_variable in H. destruct (dget String.eqb (ff_vars f) n) as [v|]; [|injection H as <- _; exact Hm].
  destruct (fv_bounds v) as [b|]; [destruct (dget String.eqb (ff_vars f) b)|]; injection H as <- _; cbn [with_vars ff_vars];
    repeat apply dremove_absent; exact Hm.
Qed.

(** The field after the first step. *)
Lemma set_steps : forall f key x f', set_property f key (Some x) true true = (f', None) ->
  exists f1, ff_map f1 = ff_map f /\ ff_crs f1 = ff_crs f /\
    (dget String.eqb (ff_map f) key = None -> f1 = f) /\
    (forall n, dget String.eqb (ff_vars f) n = None -> dget String.eqb (ff_vars f1) n = None) /\
    (let '(f2, e) := add_variables f1 (fa_family x) true in
     match e with Some e => (f2, Some e) | None => map_variable f2 key (Some x) end) = (f', None).
Proof.
  intros f key x f' H. unfold set_property in H.
  destruct (dget String.eqb (ff_map f) key) as [[curr b]|]; [|exists f; repeat split; auto].
  destruct (dget String.eqb (ff_vars f) curr) as [c|]; [|exists f; repeat split; auto].
  destruct (true && _).
  - destruct (remove_variable f curr) as [f1 [e|]] eqn:E; [discriminate|]. exists f1. destruct (remove_keeps _ _ _ _ E) as [A B].
    split; [exact A|]. split; [exact B|]. split; [discriminate|]. split; [|exact H]. intros n Hn. eapply remove_absent; eassumption.
  - exists f. repeat split; auto.
Qed.

Lemma set_done : forall f key x f', Family x -> set_property f key (Some x) true true = (f', None) ->
  coordinate f' key = Some (fa_var x) /\ ff_crs f' = ff_crs f /\
  (forall n, ~ FamilyName x n -> dget String.eqb (ff_map f) key = None -> dget String.eqb (ff_vars f') n = dget String.eqb (ff_vars f) n).
Proof.
  intros f key x f' [F1 F2] H. destruct (set_steps f key x f' H) as [f1 [A [B [C [_ D]]]]].
  destruct (add_forced (fa_family x) f1) as [d [E [G1 G2]]]. rewrite E in D. cbn [map_variable] in D.
  destruct (fa_placed x); [|discriminate]. injection D as <-. unfold coordinate. cbn [with_map with_vars ff_map ff_vars ff_crs].
  rewrite get_set, String.eqb_refl. split; [apply G2; assumption|]. split; [exact B|].
  intros n Hn Hk. rewrite G1 by exact Hn. rewrite (C Hk). reflexivity.
Qed.

Lemma set_absent : forall f key x f' n, set_property f key (Some x) true true = (f', None) ->
  ~ FamilyName x n -> HasVar f n = None -> HasVar f' n = None.
Proof.
  intros f key x f' n H Hn Ha. destruct (set_steps f key x f' H) as [f1 [_ [_ [_ [K D]]]]].
  destruct (add_forced (fa_family x) f1) as [d [E [G1 _]]]. rewrite E in D. cbn [map_variable] in D.
  destruct (fa_placed x); [|discriminate]. injection D as <-. unfold HasVar. cbn [with_map with_vars ff_vars]. rewrite G1 by exact Hn. apply K. exact Ha.
Qed.

Lemma set_crs_done : forall f crs f1, set_crs f crs true true = (f1, None) ->
  ff_crs f1 = option_map fv_name crs /\ ff_map f1 = ff_map f /\
  (forall w, crs = Some w -> dget String.eqb (ff_vars f1) (fv_name w) = Some w).
Proof.
  intros f crs f1 H. unfold set_crs in H. destruct (read_crs f) as [|old|]; [| |discriminate]; destruct crs as [v|];
    cbn [add_variables negb andb] in H; injection H as <-; (split; [reflexivity|]); (split; [reflexivity|]); try discriminate;
    intros w [= <-]; cbn [with_crs with_vars ff_vars]; rewrite get_set, String.eqb_refl; reflexivity.
Qed.
