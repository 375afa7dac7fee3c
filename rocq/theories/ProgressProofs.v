From Verif Require Import Py Lib ProgressModel ProgressSpec.
From Coq Require Import QArith Lqa Lia.
Local Open Scope nat_scope.

(** ** Marks *)

Fixpoint marks (l : list event) : nat :=
  match l with [] => 0 | Message :: t => marks t | Mark :: t => S (marks t) end.

Lemma marks_app : forall a b, marks (a ++ b) = marks a + marks b.
Proof. induction a as [|[] a IH]; intros b; cbn [app marks]; rewrite ?IH; reflexivity. Qed.

Lemma marks_messages : forall n, marks (repeat Message n) = 0.
Proof. induction n; cbn; auto. Qed.

Lemma marks_calculations : forall k, marks (concat (repeat [Message; Mark] k)) = k.
Proof. induction k as [|k IH]; [reflexivity|]. cbn [repeat concat app marks]. rewrite IH. reflexivity. Qed.

Definition per_collection (calculations : option nat) : nat := match calculations with Some k => k | None => 1 end.

Lemma marks_collection : forall c g y, marks (collection_events c g y) =
  if y_null y then 1 else per_collection c.
Proof.
  intros c g y. unfold collection_events. rewrite marks_app, marks_messages. destruct c as [k|], (y_null y); cbn [marks]; try reflexivity.
  destruct g; cbn [app marks]; apply marks_calculations.
Qed.

Definition wanted (calculations : option nat) : nat :=
  match calculations with Some k => if Nat.eqb k 0 then 1 else k | None => 1 end.

Lemma per_wanted : forall c, c <> Some 0 -> per_collection c = wanted c.
Proof. intros [k|] H; [|reflexivity]. cbn. destruct (Nat.eqb_spec k 0); [congruence|reflexivity]. Qed.
Lemma wanted_pos : forall c, 1 <= wanted c.
Proof. intros [k|]; cbn; [|lia]. destruct (Nat.eqb_spec k 0); lia. Qed.

Lemma marks_collections : forall c g ys, c <> Some 0 ->
  marks (flat_map (collection_events c g) ys) <= length ys * wanted c /\
  ((forall y, In y ys -> y_null y = false) -> marks (flat_map (collection_events c g) ys) = length ys * wanted c).
Proof.
  intros c g ys Hc. induction ys as [|y ys [IH1 IH2]]; [split; reflexivity|].
  cbn [flat_map length]. rewrite marks_app, marks_collection. pose proof (wanted_pos c) as W. rewrite per_wanted by exact Hc. split.
  - destruct (y_null y); lia.
  - intros H. rewrite (H y) by (left; reflexivity). rewrite IH2; [lia|]. intros y' Hy'. apply H. right. exact Hy'.
Qed.

Lemma marks_datasets : forall c g geoms ds, c <> Some 0 -> Forall (fun ys => length ys <= geoms) ds ->
  marks (flat_map (dataset_events c g) ds) <= length ds * geoms * wanted c /\
  (Present ds -> Forall (fun ys => length ys = geoms) ds -> marks (flat_map (dataset_events c g) ds) = length ds * geoms * wanted c) /\
  (Exists (fun ys => length ys < geoms) ds -> marks (flat_map (dataset_events c g) ds) < length ds * geoms * wanted c).
Proof.
  intros c g geoms ds Hc. induction ds as [|ys ds IH]; intros H.
  - split; [reflexivity|]. split; [reflexivity|]. intros E. inversion E.
  - inversion H; subst. destruct (IH H3) as [I1 [I2 I3]]. cbn [flat_map length]. rewrite marks_app. cbn [dataset_events marks].
    destruct (marks_collections c g ys Hc) as [M1 M2]. pose proof (wanted_pos c) as W. split; [nia|]. split.
    + intros P E. inversion E; subst. rewrite I2; [|intros ys' y Hy; apply P; right; exact Hy|assumption].
      rewrite M2; [lia|]. intros y Hy. apply (P ys y); [left; reflexivity|exact Hy].
    + intros E. inversion E as [? ? E1|? ? E1]; subst; [nia|]. specialize (I3 E1). nia.
Qed.

Lemma total_is : forall s g c, n_operations s g (match c with Some k => k | None => 0 end) = s * g * wanted c.
Proof. intros s g [k|]; reflexivity. Qed.

Lemma marks_execution : forall c g ds, marks (execution_events c g ds) = marks (flat_map (dataset_events c g) ds).
Proof. intros. unfold execution_events. rewrite !marks_app. cbn [marks]. lia. Qed.

(** ** Percentages *)

Lemma percent_le : forall total a b, 0 < total -> a <= b -> (percent total a <= percent total b)%Q.
Proof.
  intros total a b Ht H. unfold percent.
  assert (0 < inject_Z (Z.of_nat total))%Q as Hp by (change 0%Q with (inject_Z 0); rewrite <- Zlt_Qlt; lia).
  assert (inject_Z (Z.of_nat a) <= inject_Z (Z.of_nat b))%Q as Hab by (rewrite <- Zle_Qle; lia).
  apply Qmult_le_l; [reflexivity|]. unfold Qdiv. apply Qmult_le_r; [apply Qinv_lt_0_compat; exact Hp|exact Hab].
Qed.

Lemma percent_lt : forall total a b, 0 < total -> a < b -> (percent total a < percent total b)%Q.
Proof.
  intros total a b Ht H. unfold percent.
  assert (0 < inject_Z (Z.of_nat total))%Q as Hp by (change 0%Q with (inject_Z 0); rewrite <- Zlt_Qlt; lia).
  assert (inject_Z (Z.of_nat a) < inject_Z (Z.of_nat b))%Q as Hab by (rewrite <- Zlt_Qlt; lia).
  apply Qmult_lt_l; [reflexivity|]. unfold Qdiv. apply Qmult_lt_r; [apply Qinv_lt_0_compat; exact Hp|exact Hab].
Qed.

Lemma percent_zero : forall total, (percent total 0 == 0)%Q.
Proof. intros total. unfold percent. cbn [Z.of_nat]. change (inject_Z 0) with 0%Q. unfold Qdiv. rewrite Qmult_0_l. reflexivity. Qed.

Lemma percent_full : forall total, 0 < total -> (percent total total == 100)%Q.
Proof.
  intros total H. unfold percent.
  assert (~ inject_Z (Z.of_nat total) == 0)%Q as Hn.
  { intros E. change 0%Q with (inject_Z 0) in E. rewrite inject_Z_injective in E. lia. }
  unfold Qdiv. rewrite Qmult_inv_r by exact Hn. reflexivity.
Qed.

Lemma reports_bounds : forall total l done x, 0 < total -> In x (reports total done l) ->
  (percent total done <= x <= percent total (done + marks l))%Q.
Proof.
  intros total l. induction l as [|[] t IH]; intros done x Ht H; [contradiction| |]; cbn [reports marks] in *.
  - destruct H as [<-|H].
    + split; [apply Qle_refl|apply percent_le; lia].
    + apply IH; assumption.
  - destruct (IH (S done) x Ht H) as [A B]. split.
    + eapply Qle_trans; [|exact A]. apply percent_le; lia.
    + replace (done + S (marks t)) with (S done + marks t) by lia. exact B.
Qed.

Lemma reports_not_back : forall total l done, 0 < total -> NotBack (reports total done l).
Proof.
  intros total l. induction l as [|[] t IH]; intros done Ht; cbn [reports NotBack]; [constructor| |apply IH; exact Ht].
  split; [|apply IH; exact Ht]. intros y Hy. apply (reports_bounds total t done y Ht Hy).
Qed.

Lemma reports_app : forall total a b done, reports total done (a ++ b) = reports total done a ++ reports total (done + marks a) b.
Proof.
  intros total a. induction a as [|[] a IH]; intros b done; cbn [app reports marks].
  - rewrite Nat.add_0_r. reflexivity.
  - rewrite IH. reflexivity.
  - rewrite IH. rewrite Nat.add_succ_r. reflexivity.
Qed.

Lemma execution_progress : forall geoms c g ds, 0 < geoms -> ds <> [] -> c <> Some 0 ->
  Forall (fun ys => length ys <= geoms) ds -> Progress (execution_reports geoms c g ds).
Proof.
  intros geoms c g ds Hg Hd Hc H. unfold execution_reports. rewrite total_is.
  set (total := length ds * geoms * wanted c).
  assert (0 < total) as Ht.
  { unfold total. pose proof (wanted_pos c). destruct ds; [congruence|]. cbn [length]. nia. }
  destruct (marks_datasets c g geoms ds Hc H) as [M _]. fold total in M.
  assert (forall x, In x (reports total 0 (execution_events c g ds)) -> (0 <= x <= 100)%Q) as B.
  { intros x Hx. destruct (reports_bounds _ _ _ _ Ht Hx) as [A1 A2]. rewrite percent_zero in A1. split; [exact A1|].
    eapply Qle_trans; [exact A2|]. rewrite marks_execution. rewrite <- (percent_full total Ht). apply percent_le; [exact Ht|]. lia. }
  split.
  - cbn [NotBack]. split; [|apply reports_not_back; exact Ht]. intros y Hy. rewrite percent_zero. apply B. exact Hy.
  - intros x [<-|Hx]; [|apply B; exact Hx]. rewrite percent_zero. split; discriminate.
Qed.

Lemma execution_last : forall geoms c g ds, exists front,
  execution_reports geoms c g ds =
    front ++ [percent (length ds * geoms * wanted c) (marks (flat_map (dataset_events c g) ds))].
Proof.
  intros geoms c g ds. unfold execution_reports. rewrite total_is. rewrite <- (marks_execution c g ds).
  set (total := length ds * geoms * wanted c). unfold execution_events at 1. rewrite app_assoc, reports_app.
  exists (percent 1 0 :: reports total 0 ([Message; Message; Message] ++ flat_map (dataset_events c g) ds)).
  cbn [app reports]. do 2 f_equal. f_equal. rewrite marks_execution. cbn [marks]. reflexivity.
Qed.

(** ** Tiles *)

Lemma not_back_app : forall a b, NotBack a -> NotBack b -> (forall x y, In x a -> In y b -> (x <= y)%Q) -> NotBack (a ++ b).
Proof.
  induction a as [|x a IH]; intros b Ha Hb H; [exact Hb|]. cbn [app NotBack] in *. destruct Ha as [A1 A2]. split.
  - intros y Hy. apply in_app_iff in Hy. destruct Hy as [Hy|Hy]; [apply A1; exact Hy|apply H; [left; reflexivity|exact Hy]].
  - apply IH; [exact A2|exact Hb|]. intros x' y' Hx Hy. apply H; [right; exact Hx|exact Hy].
Qed.

Definition scaled (n : nat) (d p : Q) : Q := (p / inject_Z (Z.of_nat n) + d)%Q.

Lemma inject_pos : forall n, 0 < n -> (0 < inject_Z (Z.of_nat n))%Q.
Proof. intros n H. change 0%Q with (inject_Z 0). rewrite <- Zlt_Qlt. lia. Qed.

Lemma scaled_le : forall n d p q, 0 < n -> (p <= q)%Q -> (scaled n d p <= scaled n d q)%Q.
Proof.
  intros n d p q Hn H. unfold scaled. apply Qplus_le_l. unfold Qdiv. apply Qmult_le_r; [apply Qinv_lt_0_compat, inject_pos; exact Hn|exact H].
Qed.

Lemma done_step : forall n k, 0 < n -> (scaled n (tiles_done n k) 100 == tiles_done n (S k))%Q.
Proof.
  intros n k Hn. unfold scaled, tiles_done. rewrite Nat2Z.inj_succ. unfold Z.succ. rewrite inject_Z_plus.
  change (inject_Z 1) with 1%Q. pose proof (inject_pos n Hn). field. intros E. rewrite E in H. discriminate.
Qed.

Lemma done_zero : forall n, (tiles_done n 0 == 0)%Q.
Proof. intros n. unfold tiles_done. cbn [Z.of_nat]. change (inject_Z 0) with 0%Q. unfold Qdiv. rewrite !Qmult_0_l. reflexivity. Qed.

Lemma done_full : forall n, 0 < n -> (tiles_done n n == 100)%Q.
Proof.
  intros n Hn. unfold tiles_done. pose proof (inject_pos n Hn). field. intros E. rewrite E in H. discriminate.
Qed.

Lemma done_le : forall n j k, 0 < n -> j <= k -> (tiles_done n j <= tiles_done n k)%Q.
Proof.
  intros n j k Hn H. unfold tiles_done. apply Qmult_le_r; [reflexivity|]. unfold Qdiv.
  apply Qmult_le_r; [apply Qinv_lt_0_compat, inject_pos; exact Hn|]. rewrite <- Zle_Qle. lia.
Qed.

Lemma scaled_zero : forall n d, (scaled n d 0 == d)%Q.
Proof. intros n d. unfold scaled, Qdiv. rewrite Qmult_0_l, Qplus_0_l. reflexivity. Qed.

Definition user_tile (n ctr : nat) (t : list Q) : list Q := map (scaled n (tiles_done n ctr)) t.
Fixpoint user_tiles (n ctr : nat) (l : list (list Q)) : list Q :=
  match l with [] => [] | t :: r => user_tile n ctr t ++ user_tiles n (S ctr) r end.

Lemma tile_reports_user : forall n l ctr, tile_reports User n ctr l = map Some (user_tiles n ctr l).
Proof.
  intros n l. induction l as [|t r IH]; intros ctr; [reflexivity|]. cbn [tile_reports user_tiles]. rewrite IH, map_app. f_equal.
  unfold reported_all, user_tile. rewrite map_map. reflexivity.
Qed.

Lemma tile_bounds : forall n ctr t x, 0 < n -> InRange t -> In x (user_tile n ctr t) ->
  (tiles_done n ctr <= x <= tiles_done n (S ctr))%Q.
Proof.
  intros n ctr t x Hn Ht Hx. apply in_map_iff in Hx. destruct Hx as [p [<- Hp]]. destruct (Ht p Hp) as [A B]. split.
  - rewrite <- (scaled_zero n (tiles_done n ctr)) at 1. apply scaled_le; assumption.
  - rewrite <- done_step by exact Hn. apply scaled_le; assumption.
Qed.

Lemma tiles_bounds : forall n l ctr x, 0 < n -> Forall InRange l -> In x (user_tiles n ctr l) ->
  (tiles_done n ctr <= x <= tiles_done n (ctr + length l))%Q.
Proof.
  intros n l. induction l as [|t r IH]; intros ctr x Hn H Hx; [contradiction|]. inversion H; subst. cbn [user_tiles length] in *.
  apply in_app_iff in Hx. destruct Hx as [Hx|Hx].
  - destruct (tile_bounds n ctr t x Hn H2 Hx) as [A B]. split; [exact A|]. eapply Qle_trans; [exact B|]. apply done_le; lia.
  - destruct (IH (S ctr) x Hn H3 Hx) as [A B]. split; [eapply Qle_trans; [|exact A]; apply done_le; lia|].
    replace (ctr + S (length r)) with (S ctr + length r) by lia. exact B.
Qed.

Lemma tile_not_back : forall n d t, 0 < n -> NotBack t -> NotBack (map (scaled n d) t).
Proof.
  intros n d t Hn. induction t as [|x t IH]; intros H; [exact H|]. cbn [map NotBack] in *. destruct H as [A B]. split; [|apply IH; exact B].
  intros y Hy. apply in_map_iff in Hy. destruct Hy as [z [<- Hz]]. apply scaled_le; [exact Hn|]. apply A. exact Hz.
Qed.

Lemma tiles_not_back : forall n l ctr, 0 < n -> Forall Progress l -> NotBack (user_tiles n ctr l).
Proof.
  intros n l. induction l as [|t r IH]; intros ctr Hn H; [constructor|]. inversion H as [|? ? [P1 P2] Hr]; subst. cbn [user_tiles].
  apply not_back_app; [apply tile_not_back; assumption|apply IH; assumption|].
  intros x y Hx Hy. destruct (tile_bounds n ctr t x Hn P2 Hx) as [_ B].
  assert (Forall InRange r) as Hr' by (eapply Forall_impl; [|exact Hr]; intros ? [_ K]; exact K).
  destruct (tiles_bounds n r (S ctr) y Hn Hr' Hy) as [A _]. eapply Qle_trans; eassumption.
Qed.

Definition user_reports (before : list Q) (tiles : list (list Q)) : list Q :=
  map (fun _ => 0%Q) before ++ [0%Q] ++ user_tiles (length tiles) 0 tiles.

Lemma compute_user : forall before tiles, fst (compute_reports User before tiles) = map Some (user_reports before tiles).
Proof.
  intros before tiles. unfold user_reports. cbn [compute_reports fst]. rewrite tile_reports_user, !map_app, map_map. reflexivity.
Qed.

Lemma not_back_zeros : forall (before : list Q), NotBack (map (fun _ => 0%Q) before).
Proof.
  induction before as [|x t IH]; [constructor|]. cbn [map NotBack]. split; [|exact IH].
  intros y Hy. apply in_map_iff in Hy. destruct Hy as [? [<- _]]. apply Qle_refl.
Qed.

Lemma compute_progress : forall before tiles, tiles <> [] -> Forall Progress tiles -> Progress (user_reports before tiles).
Proof.
  intros before tiles Hn H. assert (0 < length tiles) as Hl by (destruct tiles; [congruence|cbn; lia]).
  assert (Forall InRange tiles) as Hr by (eapply Forall_impl; [|exact H]; intros ? [_ K]; exact K).
  assert (InRange (user_tiles (length tiles) 0 tiles)) as Ht.
  { intros x Hx. destruct (tiles_bounds _ _ _ _ Hl Hr Hx) as [A B]. rewrite done_zero in A. cbn [Nat.add] in B. rewrite done_full in B by exact Hl. auto. }
  unfold user_reports. split.
  - apply not_back_app; [apply not_back_zeros| |].
    + cbn [app NotBack]. split; [intros y Hy; apply Ht; exact Hy|apply tiles_not_back; assumption].
    + intros x y Hx Hy. apply in_map_iff in Hx. destruct Hx as [? [<- _]]. destruct Hy as [<-|Hy]; [apply Qle_refl|apply Ht; exact Hy].
  - intros x Hx. rewrite !in_app_iff in Hx. destruct Hx as [Hx|[[<-|[]]|Hx]].
    + apply in_map_iff in Hx. destruct Hx as [? [<- _]]. split; discriminate.
    + split; discriminate.
    + apply Ht. exact Hx.
Qed.

(** The callback after a computation adds 100. *)
Lemma after_user : forall before tiles p, tiles <> [] ->
  exists v, reported (snd (compute_reports User before tiles)) p = Some v /\ (v == p / inject_Z (Z.of_nat (length tiles)) + 100)%Q.
Proof.
  intros before tiles p Hn. assert (0 < length tiles) as Hl by (destruct tiles; [congruence|cbn; lia]).
  cbn [compute_reports snd reported]. eexists. split; [reflexivity|].
  destruct (Nat.eqb_spec (length tiles) 0); [lia|]. rewrite done_full by exact Hl. reflexivity.
Qed.

Lemma second_tiles : forall n1 l n ctr v p t, 0 < n1 -> 0 < n -> Forall InRange l -> In t l -> In p t ->
  (100 <= v)%Q -> exists q, In (Some q) (tile_reports (Scaled n1 v User) n ctr l) /\ (100 <= q)%Q /\ ((0 < p)%Q -> (100 < q)%Q).
Proof.
  intros n1 l. induction l as [|t0 r IH]; intros n ctr v p t Hn1 Hn H Ht Hp Hv; [contradiction|]. inversion H; subst.
  destruct Ht as [->|Ht].
  - eexists. split; [cbn [tile_reports]; apply in_app_iff; left; unfold reported_all; apply in_map_iff; exists p; split; [reflexivity|exact Hp]|].
    destruct (H2 p Hp) as [P1 P2].
    assert (0 <= tiles_done n ctr)%Q as D by (rewrite <- (done_zero n); apply done_le; lia).
    pose proof (Qinv_lt_0_compat _ (inject_pos n1 Hn1)) as R1. pose proof (Qinv_lt_0_compat _ (inject_pos n Hn)) as R.
    unfold Qdiv. set (r1 := (/ inject_Z (Z.of_nat n1))%Q) in *. set (r2 := (/ inject_Z (Z.of_nat n))%Q) in *. set (d := tiles_done n ctr) in *.
    assert (0 <= p * r2)%Q as E1 by (apply Qmult_le_0_compat; [exact P1|apply Qlt_le_weak; exact R]).
    assert (0 <= (p * r2 + d) * r1)%Q as E2 by (apply Qmult_le_0_compat; [lra|apply Qlt_le_weak; exact R1]).
    split; [lra|]. intros Pp.
    assert (0 < p * r2)%Q as E3 by (apply Qmult_lt_0_compat; assumption).
    assert (0 < (p * r2 + d) * r1)%Q as E4 by (apply Qmult_lt_0_compat; [lra|assumption]). lra.
  - destruct (IH n (S ctr) v p t Hn1 Hn H3 Ht Hp Hv) as [q [Hq K]]. exists q. split; [|exact K].
    cbn [tile_reports]. apply in_app_iff. right. exact Hq.
Qed.

(** Everything a callback that was used before reports is 100 or more. *)
Lemma reported_again : forall n1 before tiles x, 0 < n1 -> tiles <> [] -> Forall InRange tiles ->
  In x (fst (compute_reports (Scaled n1 (tiles_done n1 n1) User) before tiles)) -> exists q, x = Some q /\ (100 <= q)%Q.
Proof.
  intros n1 before tiles x Hn1 Hn H Hx. assert (0 < length tiles) as Hl by (destruct tiles; [congruence|cbn; lia]).
  pose proof (Qinv_lt_0_compat _ (inject_pos n1 Hn1)) as R1.
  assert (forall p, (0 <= p)%Q -> (100 <= p / inject_Z (Z.of_nat n1) + tiles_done n1 n1)%Q) as Z1.
  { intros p Hp. rewrite done_full by exact Hn1. unfold Qdiv.
    assert (0 <= p * / inject_Z (Z.of_nat n1))%Q by (apply Qmult_le_0_compat; [exact Hp|apply Qlt_le_weak; exact R1]). lra. }
  cbn [compute_reports fst] in Hx. rewrite !in_app_iff in Hx. destruct Hx as [Hx|[[<-|[]]|Hx]].
  - apply in_map_iff in Hx. destruct Hx as [p [<- _]]. eexists. split; [reflexivity|]. apply Z1. apply Qle_refl.
  - eexists. split; [reflexivity|]. apply Z1. apply Qle_refl.
  - revert Hx. generalize 0 as ctr. generalize dependent (length tiles). intros n Hl. clear Hn. induction tiles as [|t r IH]; intros ctr Hx; [contradiction|].
    inversion H; subst. cbn [tile_reports] in Hx. apply in_app_iff in Hx. destruct Hx as [Hx|Hx]; [|apply (IH H3 (S ctr) Hx)].
    apply in_map_iff in Hx. destruct Hx as [p [<- Hp]]. eexists. split; [reflexivity|]. apply Z1.
    destruct (H2 p Hp) as [P1 _]. pose proof (Qinv_lt_0_compat _ (inject_pos n Hl)) as R.
    assert (0 <= tiles_done n ctr)%Q as D by (rewrite <- (done_zero n); apply done_le; lia).
    unfold Qdiv. assert (0 <= p * / inject_Z (Z.of_nat n))%Q by (apply Qmult_le_0_compat; [exact P1|apply Qlt_le_weak; exact R]). lra.
Qed.

Lemma user_last : forall n l t front ctr, (exists p, t = front ++ [p] /\ (p == 100)%Q) -> 0 < n ->
  exists pre q, user_tiles n ctr (l ++ [t]) = pre ++ [q] /\ (q == tiles_done n (S (ctr + length l)))%Q.
Proof.
  intros n l t front ctr [p [-> Hp]] Hn. revert ctr. induction l as [|u r IH]; intros ctr.
  - cbn [app user_tiles length]. unfold user_tile. rewrite map_app, app_nil_r. eexists. eexists. split; [reflexivity|].
    rewrite Nat.add_0_r, <- done_step by exact Hn. unfold scaled. rewrite Hp. reflexivity.
  - destruct (IH (S ctr)) as [pre [q [E Q1]]]. cbn [app user_tiles length]. rewrite E. exists (user_tile n ctr u ++ pre), q.
    split; [apply app_assoc|]. rewrite Q1. rewrite Nat.add_succ_r. reflexivity.
Qed.
