From Verif Require Import Py Lib FindModel FindSpec.
From Coq Require Import String Lia.
Local Open Scope string_scope.
Local Notation length := List.length.
Local Open Scope nat_scope.

(** ** Searching *)

Definition asked (value : option string) (pred : option (string -> bool)) : Prop := value <> None \/ pred <> None.
Definition fits (value : option string) (pred : option (string -> bool)) (x : string) : bool :=
  match value with Some y => String.eqb x y | None => match pred with Some p => p x | None => false end end.

Lemma matches_ok : forall value pred x, asked value pred -> matches value pred x = Ok (fits value pred x).
Proof. intros [v|] [p|] x [H|H]; try reflexivity; congruence. Qed.

Lemma find_in_attrs_ok : forall v value pred l, asked value pred ->
  find_in_attrs v value pred l = Ok (repeat v (length (filter (fun kx => fits value pred (snd kx)) l))).
Proof.
  intros v value pred l H. induction l as [|[k x] t IH]; [reflexivity|]. cbn [find_in_attrs filter snd].
  rewrite matches_ok by exact H. cbn [bind]. rewrite IH. cbn [bind]. destruct (fits value pred x); reflexivity.
Qed.

Lemma find_in_variable_key : forall k value pred v, asked value pred ->
  find_in_variable (Some k) value pred v =
    Ok (if match dget String.eqb (sv_attrs v) k with Some x => fits value pred x | None => false end then [v] else []).
Proof.
  intros k value pred v H. unfold find_in_variable. destruct (dget String.eqb (sv_attrs v) k) as [x|]; [|reflexivity].
  rewrite find_in_attrs_ok by exact H. cbn [filter snd]. destruct (fits value pred x); reflexivity.
Qed.

Lemma find_key : forall k value pred vars, asked value pred ->
  find_by_attribute (Some k) value pred vars =
    Ok (filter (fun v => match dget String.eqb (sv_attrs v) k with Some x => fits value pred x | None => false end) vars).
Proof.
  intros k value pred vars H. induction vars as [|v t IH]; [reflexivity|]. cbn [find_by_attribute]. rewrite find_in_variable_key by exact H.
  cbn [bind]. rewrite IH. cbn [bind filter]. destruct (match dget String.eqb (sv_attrs v) k with Some x => fits value pred x | None => false end); reflexivity.
Qed.

Lemma find_any : forall value pred vars, asked value pred ->
  find_by_attribute None value pred vars = Ok (flat_map (fun v => repeat v (hits value pred v)) vars).
Proof.
  intros value pred vars H. induction vars as [|v t IH]; [reflexivity|]. cbn [find_by_attribute find_in_variable].
  rewrite find_in_attrs_ok by exact H. cbn [bind]. rewrite IH. reflexivity.
Qed.

Lemma fits_iff : forall value pred x, fits value pred x = true <->
  match value with Some y => x = y | None => exists p, pred = Some p /\ p x = true end.
Proof.
  intros [y|] pred x; cbn [fits]; [apply String.eqb_eq|]. destruct pred as [p|]; split.
  - intros H. exists p. auto.
  - intros [q [[= <-] H]]. exact H.
  - discriminate.
  - intros [q [H _]]. discriminate.
Qed.

Lemma hits_pos : forall value pred v, 0 < hits value pred v <-> Matches None value pred v.
Proof.
  intros value pred v. unfold hits, Matches.
  change (fun kx : string * string => match value with Some y => String.eqb (snd kx) y | None => match pred with Some p => p (snd kx) | None => false end end)
    with (fun kx : string * string => fits value pred (snd kx)).
  split.
  - intros H. destruct (filter _ (sv_attrs v)) as [|[k x] t] eqn:E; [cbn in H; lia|].
    assert (In (k, x) (filter (fun kx => fits value pred (snd kx)) (sv_attrs v))) as I1 by (rewrite E; left; reflexivity).
    apply filter_In in I1. destruct I1 as [I1 F]. exists k, x. split; [exact I1|]. split; [discriminate|]. apply fits_iff. exact F.
  - intros [k [x [I1 [_ F]]]]. apply fits_iff in F.
    assert (In (k, x) (filter (fun kx => fits value pred (snd kx)) (sv_attrs v))) as J by (apply filter_In; split; assumption).
    destruct (filter _ (sv_attrs v)); [contradiction|]. cbn. lia.
Qed.

Lemma filter_sub {A} : forall (p : A -> bool) l, Subsequence (filter p l) l.
Proof. intros p l. induction l as [|x t IH]; cbn [filter]; [constructor|]. destruct (p x); constructor; exact IH. Qed.

(** ** Dimensions *)

Lemma existsb_in : forall n l, existsb (String.eqb n) l = true <-> In n l.
Proof.
  intros n l. rewrite existsb_exists. split.
  - intros [x [H E]]. apply String.eqb_eq in E. subst. exact H.
  - intros H. exists n. split; [exact H|apply String.eqb_refl].
Qed.

Lemma filter_length_le {A} : forall (p : A -> bool) l, length (filter p l) <= length l.
Proof. intros p l. induction l as [|x t IH]; cbn; [lia|]. destruct (p x); cbn; lia. Qed.

Lemma filter_full {A} : forall (p : A -> bool) l, length (filter p l) = length l <-> forall x, In x l -> p x = true.
Proof.
  intros p l. induction l as [|x t IH]; cbn [filter length]; [split; [intros _ x []|reflexivity]|].
  pose proof (filter_length_le p t) as L. destruct (p x) eqn:E; cbn [length]; split.
  - intros H y [<-|Hy]; [exact E|]. apply IH; [lia|exact Hy].
  - intros H. f_equal. apply IH. intros y Hy. apply H. right. exact Hy.
  - lia.
  - intros H. rewrite (H x) in E by (left; reflexivity). discriminate.
Qed.

Lemma common_full : forall dims names, NoDup names -> (length (common dims names) = length names <-> incl names dims).
Proof.
  intros dims names H. unfold common. rewrite nodup_fixed_point by exact H. rewrite filter_full. split; intros K x Hx.
  - apply existsb_in. apply K. exact Hx.
  - apply existsb_in. apply K. exact Hx.
Qed.

Lemma nodup_length : forall l : list string, length (nodup string_dec l) <= length l /\ (~ NoDup l -> length (nodup string_dec l) < length l).
Proof.
  induction l as [|x t [I1 I2]]; [split; [reflexivity|intros H; exfalso; apply H; constructor]|]. cbn [nodup length].
  destruct (in_dec string_dec x t) as [i|n]; [split; lia|]. cbn [length]. split; [lia|]. intros H.
  assert (~ NoDup t) as K by (intros C; apply H; constructor; assumption). specialize (I2 K). lia.
Qed.

Lemma common_repeated : forall dims names, ~ NoDup names -> length (common dims names) <> length names.
Proof.
  intros dims names H. unfold common. pose proof (filter_length_le (fun n => existsb (String.eqb n) dims) (nodup string_dec names)).
  destruct (nodup_length names) as [_ K]. specialize (K H). lia.
Qed.

(** ** Geometry types *)

Lemma scan_app : forall a b last, (forall k, scan_type last a = Some k -> gk_multi k = false) ->
  scan_type last (a ++ b) = scan_type (scan_type last a) b.
Proof.
  induction a as [|[k|] a IH]; intros b last H; cbn [app scan_type] in *; [reflexivity| |apply IH; exact H].
  destruct (gk_multi k) eqn:E; [rewrite (H k eq_refl) in E; discriminate|]. apply IH. exact H.
Qed.

Lemma scan_multi : forall a b last k, scan_type last a = Some k -> gk_multi k = true -> (forall j, last = Some j -> gk_multi j = false) ->
  scan_type last (a ++ b) = Some k.
Proof.
  induction a as [|[j|] a IH]; intros b last k H M L; cbn [app scan_type] in *.
  - rewrite (L k H) in M. discriminate.
  - destruct (gk_multi j) eqn:E; [exact H|]. apply IH; [exact H|exact M|]. intros j' [= <-]. exact E.
  - apply IH; assumption.
Qed.

Lemma scan_from : forall l j, exists k, scan_type (Some j) l = Some k.
Proof.
  induction l as [|[k|] t IH]; intros j; cbn [scan_type]; [eexists; reflexivity| |apply IH].
  destruct (gk_multi k); [eexists; reflexivity|apply IH].
Qed.

Lemma scan_some : forall l, HasGeometry l -> exists k, forall last, scan_type last l = Some k.
Proof.
  induction l as [|[k|] t IH]; intros [g G]; [destruct G| |].
  - cbn [scan_type]. destruct (gk_multi k); [exists k; reflexivity|]. destruct (scan_from t k) as [j Hj]. exists j. intros _. exact Hj.
  - cbn [scan_type]. apply IH. destruct G as [G|G]; [discriminate|]. exists g. exact G.
Qed.

Lemma global_scan : forall parts types last,
  Forall2 (fun part k => get_geom_type part = Ok k) parts types ->
  (forall j, last = Some j -> gk_multi j = false) ->
  pick_global last types = scan_type last (List.concat parts).
Proof.
  intros parts types last H. revert last. induction H as [|part k parts types Hk H IH]; intros last L; [reflexivity|].
  cbn [pick_global List.concat]. unfold get_geom_type in Hk. destruct (scan_type None part) as [j|] eqn:E; [|discriminate]. injection Hk as ->.
  assert (scan_type last part = Some k) as El.
  { destruct (scan_some part) as [m Hm].
    - clear -E. induction part as [|[g|] t IH]; [discriminate|exists g; left; reflexivity|]. cbn [scan_type] in E. destruct (IH E) as [g G]. exists g. right. exact G.
    - rewrite Hm in *. exact E. }
  destruct (gk_multi k) eqn:M.
  - symmetry. apply scan_multi; assumption.
  - rewrite scan_app by (intros j Hj; congruence). rewrite El. apply IH. intros j [= <-]. exact M.
Qed.

Lemma scan_in : forall l last k, scan_type last l = Some k -> last = Some k \/ In (Some k) l.
Proof.
  induction l as [|[j|] t IH]; intros last k H; cbn [scan_type] in H; [left; exact H| |].
  - destruct (gk_multi j); [injection H as ->; right; left; reflexivity|]. destruct (IH _ _ H) as [[= ->]|I1]; right; [left; reflexivity|right; exact I1].
  - destruct (IH _ _ H) as [E|I1]; [left; exact E|right; right; exact I1].
Qed.

Lemma scan_has_multi : forall l last j, In (Some j) l -> gk_multi j = true -> exists k, scan_type last l = Some k /\ gk_multi k = true.
Proof.
  induction l as [|[k|] t IH]; intros last j H M; [destruct H| |]; cbn [scan_type].
  - destruct (gk_multi k) eqn:E; [exists k; auto|]. destruct H as [[= ->]|H]; [congruence|]. eapply IH; eassumption.
  - destruct H as [H|H]; [discriminate|]. eapply IH; eassumption.
Qed.
