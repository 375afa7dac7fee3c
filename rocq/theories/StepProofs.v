From Verif Require Import Py Lib Spec PicksLib PartitionModel DimensionModel DimensionSpec DimensionProofs DimensionProperties
  BetweenModel BetweenSpec BetweenProofs TimeModel TimeSpec TimeProofs BetweenProperties TimeProperties StepModel StepSpec.
From Coq Require Import QArith Lia.
Local Open Scope Z_scope.
Local Notation length := List.length.

Lemma picks_is_filter : forall {A} (P : nat -> Prop) (f : A -> bool) l r, Picks P l r ->
  (forall k, (k < length l)%nat -> (P k <-> exists x, nth_error l k = Some x /\ f x = true)) -> r = filter f l.
Proof. intros A P f l r H E. eapply picks_unique; [|apply picks_filter]. eapply picks_ext; [exact H|exact E]. Qed.

Lemma between_filter : forall {A} (val : A -> Q) (l : list A) lower upper, (lower <= upper)%Q ->
  let f x := in_range (Some (lower, upper)) (val x) in
  (filter f l <> [] /\ get_between l (map val l) None lower upper false false true = Ok (filter f l, None)) \/
  (filter f l = [] /\ get_between l (map val l) None lower upper false false true = Err EmptySubsetError).
Proof.
  intros A val l lower upper H f.
  assert (forall k, MeetsRange (map val l) None lower upper false true k <-> exists x, nth_error l k = Some x /\ f x = true) as M.
  { intros k. cbn [MeetsRange]. split.
    - intros [v [E R]]. rewrite nth_error_map in E. destruct (nth_error l k) as [x|]; [|discriminate]. injection E as <-. exists x. split; [reflexivity|].
      unfold f. cbn [in_range]. cbn [InRange] in R. destruct R as [R1 R2]. apply Qle_bool_iff in R1, R2. rewrite R1, R2. reflexivity.
    - intros [x [E R]]. exists (val x). rewrite nth_error_map, E. split; [reflexivity|]. unfold f in R. cbn [in_range] in R.
      apply andb_true_iff in R as [R1 R2]. apply Qle_bool_iff in R1, R2. split; assumption. }
  destruct (C21_get_between_partial A l (map val l) None lower upper false true H (map_length _ _) Logic.I) as [[r [E [N P]]]|[E N]].
  - left. rewrite <- (picks_is_filter _ f l r P (fun k _ => M k)). auto.
  - right. split; [|exact E]. destruct (filter f l) as [|x t] eqn:F; [reflexivity|]. exfalso.
    assert (In x (filter f l)) as I1 by (rewrite F; left; reflexivity). apply filter_In in I1 as [I1 I2]. destruct (In_nth_error _ _ I1) as [k Hk].
    apply (N k). apply M. exists x. auto.
Qed.

Lemma region_iff : forall l d, in_region (Some l) d = true <-> InRegion l d.
Proof.
  intros l d. cbn [in_region]. unfold InRegion. rewrite forallb_forall. split.
  - intros H p v I1. specialize (H _ I1). cbn [fst snd] in H. apply existsb_exists in H as [x [Hx E]]. apply Z.eqb_eq in E. rewrite E. exact Hx.
  - intros H [p [v|]] I1; [|reflexivity]. cbn [fst snd]. apply existsb_exists. exists (part p d). split; [apply H; exact I1|apply Z.eqb_refl].
Qed.

Lemma region_filter : forall (l : list tstep) reg, (exists p v, In (p, Some v) reg) ->
  let f s := in_region (Some reg) (ts_date s) in
  (exists i, get_time_region l (mktvar (map ts_date l) None) reg = Ok (filter f l, i)) /\ filter f l <> [] \/
  (filter f l = [] /\ get_time_region l (mktvar (map ts_date l) None) reg = Err EmptySubsetError).
Proof.
  intros l reg H f.
  assert (forall k, (exists d, nth_error (map ts_date l) k = Some d /\ InRegion reg d) <-> exists x, nth_error l k = Some x /\ f x = true) as M.
  { intros k. rewrite nth_error_map. split.
    - intros [d [E R]]. destruct (nth_error l k) as [x|]; [|discriminate]. injection E as <-. exists x. split; [reflexivity|]. apply region_iff. exact R.
    - intros [x [E R]]. exists (ts_date x). rewrite E. split; [reflexivity|]. apply region_iff. exact R. }
  pose proof (C24_time_region tstep l (map ts_date l) reg (eq_sym (map_length _ _)) H) as T. cbv zeta in T.
  assert (filter f l = [] \/ filter f l <> []) as [F|F] by (destruct (filter f l); [left; reflexivity|right; discriminate]).
  - right. split; [exact F|]. destruct T as [[r [i [E [P _]]]]|[E N]]; [|exact E].
    rewrite (picks_is_filter _ f l r P (fun k _ => M k)), F in E.
    exfalso. unfold get_time_region in E. destruct (region_select (mktvar (map ts_date l) None) reg) as [sel|e] eqn:Es; [|discriminate]. cbn [bind] in E.
    destruct (existsb (fun b => b) sel) eqn:Ex; [|discriminate]. cbn [negb] in E. injection E as E _.
    apply existsb_exists in Ex as [b [Hb ->]]. destruct (In_nth_error _ _ Hb) as [k Hk].
    assert (length sel = length l) as Ls.
    { unfold region_select in Es. destruct (flat_map _ reg); [discriminate|]. apply map_res_length in Es. unfold zlen in Es. rewrite combine_length in Es.
      cbn [tv_bounds tv_value] in Es. rewrite !map_length in Es. lia. }
    assert (k < length l)%nat as Lk by (rewrite <- Ls; apply nth_error_Some; congruence).
    pose proof (picks_bool_select sel l Ls) as PB. rewrite E in PB. exact (proj1 (picks_nil _ _) PB k Lk Hk).
  - left. split; [|exact F]. destruct T as [[r [i [E [P _]]]]|[E N]].
    + exists i. rewrite <- (picks_is_filter _ f l r P (fun k _ => M k)). exact E.
    + exfalso. destruct (filter f l) as [|x t] eqn:Ff; [congruence|]. assert (In x (filter f l)) as I1 by (rewrite Ff; left; reflexivity).
      apply filter_In in I1 as [I1 I2]. destruct (In_nth_error _ _ I1) as [k Hk]. apply (N k). apply M. exists x. auto.
Qed.

Lemma filter_all : forall {A} (l : list A), filter (fun _ => true) l = l.
Proof. intros A l. induction l as [|x t IH]; [reflexivity|]. cbn [filter]. rewrite IH. reflexivity. Qed.
