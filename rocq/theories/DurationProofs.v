(** C28: proofs about durations. *)
From Verif Require Import Py Lib Spec PicksLib NdModel TimeModel TimeProofs SeasonProofs CalcModel CalcSpec CalcProofs.
From Coq Require Import Sorted.

(** The maximal runs, computed from the end. *)
Definition shift1 (r : Z * Z) : Z * Z := (fst r + 1, snd r + 1).
Fixpoint runs_of (vec : list bool) : list (Z * Z) :=
  match vec with
  | [] => []
  | x :: t =>
    let r := map shift1 (runs_of t) in
    if x then match t, r with true :: _, (_, b) :: r' => (0, b) :: r' | _, _ => (0, 1) :: r end else r
  end.

Lemma holds_cons x t k : HoldsAt (x :: t) k <-> (k = 0 /\ x = true) \/ HoldsAt t (k - 1).
Proof.
  unfold HoldsAt. split.
  - intros [H0 H]. destruct (Z.eq_dec k 0) as [->|]; [left; cbn in H; split; congruence|]. right. split; [lia|].
    replace (Z.to_nat k) with (S (Z.to_nat (k - 1))) in H by lia. exact H.
  - intros [[-> ->]|[H0 H]]; [split; [lia|reflexivity]|]. split; [lia|].
    replace (Z.to_nat k) with (S (Z.to_nat (k - 1))) by lia. exact H.
Qed.
Lemma holds_nil k : ~ HoldsAt [] k.
Proof. intros [_ H]. destruct (Z.to_nat k); discriminate. Qed.
Lemma holds_neg vec k : k < 0 -> ~ HoldsAt vec k.
Proof. intros ? [? _]. lia. Qed.
Lemma holds_true0 t : HoldsAt (true :: t) 0.
Proof. split; [lia|reflexivity]. Qed.

Lemma run_nil r : ~ MaximalRun [] r.
Proof. intros (H & Hin & _). apply (holds_nil (fst r)). apply Hin. lia. Qed.

Lemma run_false t r : MaximalRun (false :: t) r <-> exists r', MaximalRun t r' /\ r = shift1 r'.
Proof.
  unfold MaximalRun. split.
  - intros (H0 & Hin & Hl & Hr).
    assert (fst r <> 0). { intros E. specialize (Hin 0 ltac:(lia)). rewrite holds_cons in Hin.
      destruct Hin as [[_ ?]|Hh]; [discriminate|]. apply (holds_neg t (0 - 1)); [lia|exact Hh]. }
    exists (fst r - 1, snd r - 1). cbn [fst snd]. split.
    + split; [lia|]. split; [|split].
      * intros k Hk. specialize (Hin (k + 1) ltac:(lia)). rewrite holds_cons in Hin. destruct Hin as [[? ?]|Hh]; [lia|].
        replace (k + 1 - 1) with k in Hh by lia. exact Hh.
      * intros Hh. apply Hl. rewrite holds_cons. right. exact Hh.
      * intros Hh. apply Hr. rewrite holds_cons. right. exact Hh.
    + destruct r; unfold shift1; cbn [fst snd]. f_equal; lia.
  - intros (r' & (H0 & Hin & Hl & Hr) & ->). unfold shift1. cbn [fst snd]. split; [lia|]. split; [|split].
    + intros k Hk. rewrite holds_cons. right. apply Hin. lia.
    + rewrite holds_cons. intros [[? ?]|Hh]; [discriminate|]. apply Hl. replace (fst r' - 1) with (fst r' + 1 - 1 - 1) by lia. exact Hh.
    + rewrite holds_cons. intros [[? ?]|Hh]; [discriminate|]. apply Hr. replace (snd r') with (snd r' + 1 - 1) by lia. exact Hh.
Qed.

Lemma run_true_inner t r : fst r <> 0 -> (MaximalRun (true :: t) r <-> exists r', MaximalRun t r' /\ fst r' <> 0 /\ r = shift1 r').
Proof.
  unfold MaximalRun. intros Hn0. split.
  - intros (H0 & Hin & Hl & Hr).
    assert (fst r <> 1). { intros E. apply Hl. rewrite E. apply holds_true0. }
    exists (fst r - 1, snd r - 1). cbn [fst snd]. split; [|split; [lia|destruct r; unfold shift1; cbn [fst snd]; f_equal; lia]].
    split; [lia|]. split; [|split].
    + intros k Hk. specialize (Hin (k + 1) ltac:(lia)). rewrite holds_cons in Hin. destruct Hin as [[? ?]|Hh]; [lia|].
      replace (k + 1 - 1) with k in Hh by lia. exact Hh.
    + intros Hh. apply Hl. rewrite holds_cons. right. exact Hh.
    + intros Hh. apply Hr. rewrite holds_cons. right. exact Hh.
  - intros (r' & (H0 & Hin & Hl & Hr) & Hf & ->). unfold shift1. cbn [fst snd]. split; [lia|]. split; [|split].
    + intros k Hk. rewrite holds_cons. right. apply Hin. lia.
    + rewrite holds_cons. intros [[? ?]|Hh]; [lia|]. apply Hl. replace (fst r' - 1) with (fst r' + 1 - 1 - 1) by lia. exact Hh.
    + rewrite holds_cons. intros [[? ?]|Hh]; [lia|]. apply Hr. replace (snd r') with (snd r' + 1 - 1) by lia. exact Hh.
Qed.

Lemma run_true_single t j : ~ HoldsAt t 0 -> (MaximalRun (true :: t) (0, j) <-> j = 1).
Proof.
  intros Ht. unfold MaximalRun. cbn [fst snd]. split.
  - intros (H0 & Hin & _ & _). destruct (Z.eq_dec j 1); [assumption|]. exfalso. apply Ht.
    specialize (Hin 1 ltac:(lia)). rewrite holds_cons in Hin. destruct Hin as [[? ?]|Hh]; [lia|exact Hh].
  - intros ->. split; [lia|]. split; [|split].
    + intros k Hk. replace k with 0 by lia. apply holds_true0.
    + apply holds_neg. lia.
    + rewrite holds_cons. intros [[? ?]|Hh]; [lia|]. exact (Ht Hh).
Qed.

Lemma run_true_longer t j : HoldsAt t 0 -> (MaximalRun (true :: t) (0, j) <-> MaximalRun t (0, j - 1)).
Proof.
  intros Ht. unfold MaximalRun. cbn [fst snd]. split.
  - intros (H0 & Hin & _ & Hr). assert (j <> 1). { intros ->. apply Hr. rewrite holds_cons. right. exact Ht. }
    split; [lia|]. split; [|split].
    + intros k Hk. specialize (Hin (k + 1) ltac:(lia)). rewrite holds_cons in Hin. destruct Hin as [[? ?]|Hh]; [lia|].
      replace (k + 1 - 1) with k in Hh by lia. exact Hh.
    + apply holds_neg. lia.
    + intros Hh. apply Hr. rewrite holds_cons. right. exact Hh.
  - intros (H0 & Hin & _ & Hr). split; [lia|]. split; [|split].
    + intros k Hk. rewrite holds_cons. destruct (Z.eq_dec k 0); [left; auto|]. right. apply Hin. lia.
    + apply holds_neg. lia.
    + rewrite holds_cons. intros [[? ?]|Hh]; [lia|]. exact (Hr Hh).
Qed.

Lemma run_start_unique vec i j j' : MaximalRun vec (i, j) -> MaximalRun vec (i, j') -> j = j'.
Proof.
  intros (H0 & Hin & _ & Hr) (H0' & Hin' & _ & Hr'). cbn [fst snd] in *.
  destruct (Z.lt_trichotomy j j') as [H|[H|H]]; [|exact H|].
  - exfalso. apply Hr. apply Hin'. lia.
  - exfalso. apply Hr'. apply Hin. lia.
Qed.

Lemma runs_head t : exists b r', runs_of (true :: t) = (0, b) :: r'.
Proof. cbn [runs_of]. destruct t as [|[] t]; [eauto| |eauto]. destruct (map shift1 _) as [|[a b] r']; eauto. Qed.

Lemma sorted_shift l : StronglySorted (fun a b : Z * Z => snd a < fst b) l -> StronglySorted (fun a b : Z * Z => snd a < fst b) (map shift1 l).
Proof.
  induction 1 as [|a l Hs IH Hf]; cbn [map]; constructor; [exact IH|].
  rewrite Forall_map. eapply Forall_impl; [|exact Hf]. unfold shift1. cbn. intros. lia.
Qed.

Theorem runs_of_spec : forall vec, RunsOf vec (runs_of vec).
Proof.
  induction vec as [|x t [IHs IH]].
  - split; [constructor|]. intros r. split; [intros []|intros H; exact (run_nil r H)].
  - destruct x.
    + destruct t as [|[] t].
      * cbn. split; [repeat constructor|]. intros [i j]. split.
        -- intros [E|[]]. injection E as <- <-. apply run_true_single; [apply holds_nil|reflexivity].
        -- intros H. destruct (Z.eq_dec i 0) as [->|Hi].
           ++ apply run_true_single in H; [subst; left; reflexivity|apply holds_nil].
           ++ apply run_true_inner in H; [|exact Hi]. destruct H as (r' & H & _). destruct (run_nil r' H).
      * destruct (runs_head t) as (b & r' & E). cbn [runs_of] in *.
        set (rt := match t, map shift1 (runs_of t) with true :: _, (_, b) :: r' => (0, b) :: r' | _, _ => (0, 1) :: map shift1 (runs_of t) end) in *.
        rewrite E in *. cbn [map]. cbn [shift1 fst snd].
        split.
        -- apply sorted_shift in IHs. cbn [map] in IHs. inversion IHs; subst. constructor; assumption.
        -- intros [i j]. destruct (Z.eq_dec i 0) as [->|Hi].
           ++ rewrite run_true_longer by apply holds_true0.
              assert (Hb : MaximalRun (true :: t) (0, b)) by (apply IH; left; reflexivity).
              split.
              ** intros [Ej|Hin]; [injection Ej as <-; replace (b + 1 - 1) with b by lia; exact Hb|].
                 apply in_map_iff in Hin. destruct Hin as ((i' & j') & E' & Hin). unfold shift1 in E'. cbn in E'. injection E' as Ei Ej.
                 inversion IHs as [|? ? ? Hf]; subst. rewrite Forall_forall in Hf. specialize (Hf _ Hin). cbn in Hf.
                 destruct Hb as (Hb & _). cbn in Hb. lia.
              ** intros H. left. pose proof (run_start_unique _ _ _ _ Hb H). f_equal. lia.
           ++ rewrite run_true_inner by exact Hi. split.
              ** intros [Ej|Hin]; [injection Ej as <- <-; congruence|].
                 apply in_map_iff in Hin. destruct Hin as (r'' & <- & Hin). exists r''.
                 split; [apply IH; right; exact Hin|]. split; [|reflexivity].
                 inversion IHs as [|? ? ? Hf]; subst. rewrite Forall_forall in Hf. specialize (Hf _ Hin). cbn in Hf.
                 assert (Hb : MaximalRun (true :: t) (0, b)) by (apply IH; left; reflexivity). destruct Hb as (Hb & _). cbn in Hb. lia.
              ** intros (r'' & H & Hf & ->). right. apply in_map. apply IH in H. destruct H as [<-|H]; [cbn in Hf; congruence|exact H].
      * cbn [runs_of] in *. split.
        -- constructor; [apply sorted_shift; exact IHs|]. rewrite Forall_forall. intros r Hr. apply in_map_iff in Hr.
           destruct Hr as (r' & <- & Hr'). apply IH in Hr'. apply run_false in Hr'. destruct Hr' as (r2 & (H2 & _) & ->). unfold shift1. cbn. lia.
        -- assert (Hn : ~ HoldsAt (false :: t) 0). { rewrite holds_cons. intros [[_ ?]|H]; [discriminate|]. revert H. apply holds_neg. lia. }
           intros [i j]. destruct (Z.eq_dec i 0) as [->|Hi].
           ++ rewrite run_true_single by exact Hn. split.
              ** intros [Ej|Hin]; [injection Ej as <-; reflexivity|].
                 apply in_map_iff in Hin. destruct Hin as ((i' & j') & E' & Hin). unfold shift1 in E'. cbn in E'. injection E' as Ei Ej.
                 apply IH in Hin. destruct Hin as (Hin & _). cbn in Hin. lia.
              ** intros ->. left. reflexivity.
           ++ rewrite run_true_inner by exact Hi. split.
              ** intros [Ej|Hin]; [injection Ej as <- <-; congruence|].
                 apply in_map_iff in Hin. destruct Hin as (r'' & <- & Hin). exists r''. apply IH in Hin. split; [exact Hin|]. split; [|reflexivity].
                 apply run_false in Hin. destruct Hin as (r2 & (H2 & _) & ->). unfold shift1. cbn. lia.
              ** intros (r'' & H & Hf & ->). right. apply in_map. apply IH. exact H.
    + cbn [runs_of]. split; [apply sorted_shift; exact IHs|]. intros r. rewrite run_false, in_map_iff.
      split; intros (r' & H1 & H2); exists r'; split; auto; apply IH; auto.
Qed.

Lemma runs_unique vec a b : RunsOf vec a -> RunsOf vec b -> a = b.
Proof.
  intros [Sa Ha] [Sb Hb].
  assert (Hlt : forall r, MaximalRun vec r -> fst r < snd r) by (intros r (H & _); lia).
  assert (Hi : forall r, In r a <-> In r b) by (intros r; rewrite Ha, Hb; reflexivity).
  assert (Hla : forall r, In r a -> fst r < snd r) by (intros r H; apply Hlt; apply Ha; exact H).
  clear Ha Hb Hlt. revert b Sb Hi. induction Sa as [|x a Sa IH Fa]; intros b Sb Hi.
  - destruct b as [|y b]; [reflexivity|]. destruct (proj2 (Hi y) (or_introl eq_refl)).
  - destruct b as [|y b]; [destruct (proj1 (Hi x) (or_introl eq_refl))|].
    inversion Sb as [|? ? Sb' Fb]; subst. rewrite Forall_forall in Fa, Fb.
    assert (x = y).
    { destruct (proj1 (Hi x) (or_introl eq_refl)) as [->|Hx]; [reflexivity|].
      destruct (proj2 (Hi y) (or_introl eq_refl)) as [->|Hy]; [reflexivity|].
      specialize (Fa _ Hy). specialize (Fb _ Hx). pose proof (Hla x (or_introl eq_refl)). pose proof (Hla y (or_intror Hy)). lia. }
    subst y. f_equal. apply IH; [intros; apply Hla; right; assumption|exact Sb'|].
    intros r. split; intros Hr.
    + destruct (proj1 (Hi r) (or_intror Hr)) as [<-|]; [|assumption]. specialize (Fa _ Hr). pose proof (Hla x (or_introl eq_refl)). lia.
    + destruct (proj2 (Hi r) (or_intror Hr)) as [<-|]; [|assumption]. specialize (Fb _ Hr). pose proof (Hla x (or_introl eq_refl)). lia.
Qed.

(** ** The pieces between the switches *)
Definition piece {A} (l : list A) (a b : Z) : list A := py_slice l (slice_of a b).
Definition split_points (vec : list bool) : list Z :=
  map (fun i => i + 1) (bool_select (adjacent xorb vec ++ [false]) (zrange 0 (zlen vec))).
Definition pieces (vec : list bool) : list (list bool) := array_split vec (split_points vec).

Lemma piece_shift {A} (x : A) l a b : 0 <= a -> 0 <= b -> piece (x :: l) (a + 1) (b + 1) = piece l a b.
Proof.
  intros Ha Hb. unfold piece, py_slice, slice_bounds, slice_of, clip_end. cbn [sl_start sl_stop]. rewrite zlen_cons.
  destruct (Z.ltb_spec (a + 1) 0); [lia|]. destruct (Z.ltb_spec (b + 1) 0); [lia|]. destruct (Z.ltb_spec a 0); [lia|]. destruct (Z.ltb_spec b 0); [lia|].
  pose proof (zlen_nonneg l).
  replace (Z.to_nat (Z.min (a + 1) (1 + zlen l))) with (S (Z.to_nat (Z.min a (zlen l)))) by lia. cbn [skipn].
  f_equal. lia.
Qed.
Lemma piece_first {A} (x : A) l b : 0 <= b -> piece (x :: l) 0 (b + 1) = x :: piece l 0 b.
Proof.
  intros Hb. unfold piece, py_slice, slice_bounds, slice_of, clip_end. cbn [sl_start sl_stop]. rewrite zlen_cons.
  destruct (Z.ltb_spec (b + 1) 0); [lia|]. destruct (Z.ltb_spec b 0); [lia|]. destruct (Z.ltb_spec 0 0); [lia|].
  pose proof (zlen_nonneg l). rewrite (Z.min_l 0 (1 + zlen l)), (Z.min_l 0 (zlen l)) by lia. cbn [Z.to_nat skipn].
  replace (Z.to_nat (Z.min (b + 1) (1 + zlen l) - 0)) with (S (Z.to_nat (Z.min b (zlen l) - 0))) by lia. reflexivity.
Qed.
Lemma adjacent_shift (x : bool) l : forall L, Forall (fun a => 0 <= a) L ->
  adjacent (piece (x :: l)) (map (fun i => i + 1) L) = adjacent (piece l) L.
Proof.
  induction L as [|a L IH]; intros H; [reflexivity|]. inversion H; subst. destruct L as [|b L]; [reflexivity|].
  inversion H3; subst. cbn [map adjacent] in *. f_equal; [apply piece_shift; assumption|]. apply IH. assumption.
Qed.

Lemma split_points_step x y t : split_points (x :: y :: t) =
  (if xorb x y then [1] else []) ++ map (fun i => i + 1) (split_points (y :: t)).
Proof.
  unfold split_points. rewrite zlen_cons.
  replace (zrange 0 (1 + zlen (y :: t))) with (0 :: map (fun i => i + 1) (zrange 0 (zlen (y :: t)))).
  2:{ pose proof (zlen_nonneg (y :: t)). rewrite (zrange_cons 0 (1 + zlen (y :: t))) by lia. f_equal. rewrite map_zrange_shift. f_equal; lia. }
  cbn [adjacent app bool_select].
  assert (Hm : forall (m : list bool) (l : list Z), bool_select m (map (fun i => i + 1) l) = map (fun i => i + 1) (bool_select m l)).
  { induction m as [|b m IH]; intros [|z l]; cbn; auto. destruct b; cbn; rewrite IH; reflexivity. }
  rewrite Hm. destruct (xorb x y); reflexivity.
Qed.
Lemma split_points_nonneg : forall vec, Forall (fun a => 0 <= a) (split_points vec).
Proof.
  intros vec. unfold split_points. rewrite Forall_map, Forall_forall. intros i Hi.
  assert (In i (zrange 0 (zlen vec))). { revert Hi. generalize (adjacent xorb vec ++ [false]) (zrange 0 (zlen vec)).
    induction l as [|b m IH]; intros [|z l'] H; cbn in *; try contradiction. destruct b; [destruct H as [->|H]; [left; reflexivity|]|]; right; apply IH; exact H. }
  rewrite in_zrange in H. lia.
Qed.

Lemma pieces_single x : pieces [x] = [[x]].
Proof. destruct x; reflexivity. Qed.
Lemma pieces_step x y t : exists hd tl, pieces (y :: t) = hd :: tl /\
  pieces (x :: y :: t) = if xorb x y then [x] :: pieces (y :: t) else (x :: hd) :: tl.
Proof.
  unfold pieces, array_split. rewrite split_points_step, (zlen_cons x). fold (@piece bool).
  change (fun a b => py_slice (x :: y :: t) (slice_of a b)) with (piece (x :: y :: t)).
  change (fun a b => py_slice (y :: t) (slice_of a b)) with (piece (y :: t)).
  pose proof (split_points_nonneg (y :: t)) as Hn. pose proof (zlen_nonneg (y :: t)) as Hz.
  set (S' := split_points (y :: t)) in *. set (n := zlen (y :: t)) in *.
  assert (HL : Forall (fun a => 0 <= a) (S' ++ [n])) by (apply Forall_app; split; [exact Hn|repeat constructor; exact Hz]).
  assert (Hmap : map (fun i => i + 1) S' ++ [1 + n] = map (fun i => i + 1) (S' ++ [n])).
  { rewrite map_app. cbn [map]. do 2 f_equal. lia. }
  destruct (S' ++ [n]) as [|b L] eqn:EL; [destruct S'; discriminate|].
  exists (piece (y :: t) 0 b), (adjacent (piece (y :: t)) (b :: L)). split; [reflexivity|].
  inversion HL; subst.
  destruct (xorb x y).
  - cbn [app]. rewrite Hmap. cbn [map].
    change (adjacent (piece (x :: y :: t)) (0 :: 1 :: b + 1 :: map (fun i => i + 1) L))
      with (piece (x :: y :: t) 0 1 :: adjacent (piece (x :: y :: t)) (map (fun i => i + 1) (0 :: b :: L))).
    rewrite adjacent_shift by (constructor; [lia|exact HL]).
    f_equal. change 1 with (0 + 1). rewrite piece_first by lia. f_equal.
  - cbn [app]. rewrite Hmap. cbn [map].
    change (adjacent (piece (x :: y :: t)) (0 :: b + 1 :: map (fun i => i + 1) L))
      with (piece (x :: y :: t) 0 (b + 1) :: adjacent (piece (x :: y :: t)) (map (fun i => i + 1) (b :: L))).
    rewrite adjacent_shift by exact HL. rewrite piece_first by assumption. reflexivity.
Qed.

Definition true_pieces (vec : list bool) : list Z := map count_true (filter (forallb (fun b => b)) (pieces vec)).

Lemma map_length_shift l : map run_length (map shift1 l) = map run_length l.
Proof. rewrite map_map. apply map_ext. intros [a b]. unfold run_length, shift1. cbn. lia. Qed.
Lemma count_true_cons b l : count_true (b :: l) = (if b then 1 else 0) + count_true l.
Proof. reflexivity. Qed.

Lemma true_pieces_runs : forall t x,
  true_pieces (x :: t) = map run_length (runs_of (x :: t)) /\
  exists hd tl, pieces (x :: t) = hd :: tl /\ forallb (fun b => b) hd = x.
Proof.
  induction t as [|y t IH]; intros x.
  - unfold true_pieces. rewrite pieces_single. destruct x; (split; [reflexivity|eexists _, _; split; reflexivity]).
  - destruct (IH y) as (E & hd & tl & Ep & Eh). destruct (pieces_step x y t) as (hd' & tl' & Ep' & Es).
    rewrite Ep in Ep'. injection Ep' as <- <-.
    unfold true_pieces in *. rewrite Es. rewrite Ep in E.
    destruct x, y; cbn [xorb].
    + cbn [filter forallb] in *. rewrite Eh in *. cbn [andb map] in *.
      destruct (runs_head t) as (b & r' & Er). rewrite Er in E. cbn [map] in E. injection E as E1 E2.
      split.
      * cbn [runs_of]. cbn [runs_of] in Er. rewrite Er. cbn [map shift1 fst snd]. rewrite map_length_shift.
        rewrite count_true_cons, E1, E2. f_equal. unfold run_length. cbn [fst snd]. lia.
      * eexists _, _. split; [reflexivity|]. cbn. exact Eh.
    + rewrite Ep. cbn [filter forallb andb] in *. rewrite Eh in *. split.
      * cbn [map runs_of]. cbn [runs_of] in E. rewrite E, !map_length_shift. reflexivity.
      * eexists _, _. split; reflexivity.
    + rewrite Ep. cbn [filter forallb andb] in *. rewrite Eh in *. split.
      * cbn [runs_of]. cbn [runs_of] in E. rewrite map_length_shift. exact E.
      * eexists _, _. split; reflexivity.
    + cbn [filter forallb andb] in *. rewrite Eh in E. split.
      * cbn [runs_of]. cbn [runs_of] in E. rewrite map_length_shift. exact E.
      * eexists _, _. split; reflexivity.
Qed.

(** Two adjacent steps at which the condition holds. *)
Fixpoint has_adj (vec : list bool) : bool :=
  match vec with
  | x :: t => (x && match t with y :: _ => y | [] => false end) || has_adj t
  | [] => false
  end.
Lemma bool_select_ge : forall vec lo hi x, In x (bool_select vec (zrange lo hi)) -> lo <= x.
Proof.
  intros vec lo hi x H. assert (In x (zrange lo hi)).
  { revert H. generalize (zrange lo hi). induction vec as [|b m IH]; intros [|z l'] H; cbn in *; try contradiction.
    destruct b; [destruct H as [->|H]; [left; reflexivity|]|]; right; apply IH; exact H. }
  rewrite in_zrange in H0. lia.
Qed.
Lemma has_adj_eq : forall vec lo, existsb (Z.eqb 1) (adjacent (fun a b => b - a) (bool_select vec (zrange lo (lo + zlen vec)))) = has_adj vec.
Proof.
  induction vec as [|x t IH]; intros lo; [reflexivity|].
  rewrite zlen_cons. pose proof (zlen_nonneg t). rewrite zrange_cons by lia. cbn [bool_select has_adj].
  replace (lo + (1 + zlen t)) with (lo + 1 + zlen t) by lia. specialize (IH (lo + 1)).
  destruct x; [|exact IH]. destruct t as [|y t].
  - reflexivity.
  - rewrite zlen_cons in *. pose proof (zlen_nonneg t). rewrite zrange_cons in * by lia. cbn [bool_select] in *. destruct y.
    + cbn [adjacent existsb]. replace (1 =? lo + 1 - lo) with true by lia. reflexivity.
    + cbn [andb orb]. rewrite <- IH.
      destruct (bool_select t _) as [|z r] eqn:E; [reflexivity|].
      assert (lo + 1 + 1 <= z). { apply (bool_select_ge t _ (lo + 1 + (1 + zlen t))). rewrite E. left. reflexivity. }
      change (adjacent (fun a b => b - a) (lo :: z :: r)) with ((z - lo) :: adjacent (fun a b => b - a) (z :: r)).
      cbn [existsb]. replace (1 =? z - lo) with false by lia. reflexivity.
Qed.
Lemma has_adj_false : forall vec, has_adj vec = false -> Forall (fun r => run_length r = 1) (runs_of vec).
Proof.
  induction vec as [|x t IH]; intros H; [constructor|]. cbn [has_adj] in H. apply orb_false_iff in H. destruct H as [H1 H2].
  assert (Hs : Forall (fun r => run_length r = 1) (map shift1 (runs_of t))).
  { rewrite Forall_map. eapply Forall_impl; [|apply IH; exact H2]. intros [a b]. unfold run_length, shift1. cbn. lia. }
  cbn [runs_of]. destruct x; [|exact Hs]. destruct t as [|[] t]; [|discriminate|]; (constructor; [reflexivity|exact Hs]).
Qed.
Lemma has_adj_true : forall vec, has_adj vec = true -> exists r, In r (runs_of vec) /\ 2 <= run_length r.
Proof.
  induction vec as [|x t IH]; intros H; [discriminate|]. cbn [has_adj] in H. apply orb_true_iff in H.
  destruct H as [H|H].
  - apply andb_true_iff in H. destruct H as [-> H]. destruct t as [|y t]; [discriminate|]. subst y.
    destruct (runs_head t) as (b & r' & E). exists (0, b + 1). cbn [runs_of]. cbn [runs_of] in E. rewrite E. cbn.
    split; [left; reflexivity|]. assert (Hb : In (0, b) (runs_of (true :: t))) by (cbn [runs_of]; rewrite E; left; reflexivity).
    apply runs_of_spec in Hb. destruct Hb as (Hb & _). unfold run_length. cbn in *. lia.
  - destruct (IH H) as ((a & b) & Hin & Hl). cbn [runs_of].
    assert (Hs : In (a + 1, b + 1) (map shift1 (runs_of t))) by (apply in_map_iff; exists (a, b); split; [reflexivity|exact Hin]).
    assert (Hl' : 2 <= run_length (a + 1, b + 1)) by (unfold run_length in *; cbn in *; lia).
    destruct x; [|eauto]. destruct t as [|[] t]; [contradiction| |exists (a + 1, b + 1); split; [right; exact Hs|exact Hl']].
    destruct (map shift1 (runs_of (true :: t))) as [|[a' b'] r'] eqn:E; [contradiction|]. destruct Hs as [Hs|Hs].
    + injection Hs as -> ->. exists (0, b + 1). split; [left; reflexivity|].
      destruct (runs_head t) as (b2 & r2 & E2). rewrite E2 in E. cbn in E. injection E as E _ _. unfold run_length in *. cbn in *. lia.
    + eexists. split; [right; exact Hs|exact Hl'].
Qed.
Lemma runs_nil_iff : forall vec, existsb (fun b => b) vec = false <-> runs_of vec = [].
Proof.
  induction vec as [|x t IH]; [split; reflexivity|]. destruct x.
  - cbn [existsb orb]. split; [discriminate|]. destruct (runs_head t) as (b & r & E). rewrite E. discriminate.
  - cbn [existsb orb runs_of]. rewrite IH. split; intros H; [rewrite H; reflexivity|]. apply map_eq_nil in H. exact H.
Qed.

(** What [_iter_consecutive_] yields. *)
Lemma iter_consecutive_spec vec : iter_consecutive vec =
  if has_adj vec then map run_length (runs_of vec) else if existsb (fun b => b) vec then [1] else [0].
Proof.
  unfold iter_consecutive. pose proof (has_adj_eq vec 0) as E. rewrite Z.add_0_l in E. rewrite E.
  destruct (has_adj vec) eqn:H; [|reflexivity]. destruct vec as [|x t]; [discriminate|].
  exact (proj1 (true_pieces_runs t x)).
Qed.

Lemma compare_op_spec e op thr : op <> OtherOp ->
  exists holds, compare_op e op thr = Ok holds /\ forall v, holds v = true <-> Satisfies op thr v.
Proof.
  intros H. destruct op; try congruence; cbn [compare_op]; eexists; (split; [reflexivity|]); intros v; cbn [Satisfies].
  - rewrite negb_true_iff, <- not_true_iff_false, Qle_bool_iff. split; [apply Qnot_le_lt|apply Qlt_not_le].
  - rewrite negb_true_iff, <- not_true_iff_false, Qle_bool_iff. split; [apply Qnot_le_lt|apply Qlt_not_le].
  - apply Qle_bool_iff.
  - apply Qle_bool_iff.
Qed.
Lemma condition_vec op thr holds values : (forall v, holds v = true <-> Satisfies op thr v) -> ConditionVec op thr values (map holds values).
Proof. intros H. unfold ConditionVec. induction values; cbn; constructor; auto. Qed.

Lemma all_ones l : Forall (fun r => run_length r = 1) l -> map run_length l = repeat 1 (List.length l).
Proof. induction 1 as [|r l H _ IH]; [reflexivity|]. cbn. rewrite H, IH. reflexivity. Qed.

Theorem duration_spec : forall summary op threshold values,
  op <> OtherOp -> (forall x n, (summary (repeat x (S n)) == inject_Z x)%Q) ->
  exists vec runs q, ConditionVec op threshold values vec /\ RunsOf vec runs /\
    duration summary op threshold values = Ok q /\
    (q == match runs with [] => 0 | _ => summary (map run_length runs) end)%Q.
Proof.
  intros summary op thr values Hop Hs. destruct (compare_op_spec NameError op thr Hop) as (holds & E & Hh).
  exists (map holds values), (runs_of (map holds values)). unfold duration. rewrite E. cbn [bind].
  eexists. split; [apply condition_vec; exact Hh|]. split; [apply runs_of_spec|]. split; [reflexivity|].
  rewrite iter_consecutive_spec. set (vec := map holds values).
  destruct (has_adj vec) eqn:Ha.
  - destruct (has_adj_true _ Ha) as (r & Hin & _). destruct (runs_of vec) as [|r1 [|r2 l]]; [contradiction| |].
    + cbn. symmetry. apply (Hs (run_length r1) 0%nat).
    + replace (1 <? zlen (map run_length (r1 :: r2 :: l))) with true; [reflexivity|].
      rewrite zlen_map, !zlen_cons. pose proof (zlen_nonneg l). lia.
  - destruct (existsb (fun b => b) vec) eqn:Hx.
    + destruct (runs_of vec) as [|r1 l] eqn:Er; [apply runs_nil_iff in Er; congruence|].
      rewrite all_ones by (rewrite <- Er; apply has_adj_false; exact Ha). cbn [List.length zlen].
      replace (1 <? zlen [1]) with false by reflexivity. symmetry. apply Hs.
    + apply runs_nil_iff in Hx. rewrite Hx. reflexivity.
Qed.

Lemma occurrences_pos x l : 0 < occurrences x l <-> In x l.
Proof.
  unfold occurrences, zlen. split.
  - intros H. destruct (filter (Z.eqb x) l) as [|y t] eqn:E; [cbn in H; lia|].
    assert (Hy : In y (filter (Z.eqb x) l)) by (rewrite E; left; reflexivity). apply filter_In in Hy. destruct Hy as [Hy Hx].
    apply Z.eqb_eq in Hx. subst. exact Hy.
  - intros H. assert (Hx : In x (filter (Z.eqb x) l)) by (apply filter_In; split; [exact H|apply Z.eqb_refl]).
    destruct (filter (Z.eqb x) l); [contradiction|]. cbn [List.length]. lia.
Qed.

Theorem freq_duration_spec : forall op threshold values vec runs,
  op <> OtherOp -> ConditionVec op threshold values vec -> RunsOf vec runs -> (exists r, In r runs /\ 2 <= run_length r) ->
  exists table, freq_duration op threshold values = Ok table /\ NoDup (map fst table) /\
    forall d c, In (d, c) table <-> c = occurrences d (map run_length runs) /\ 0 < c.
Proof.
  intros op thr values vec runs Hop Hv Hr (r & Hin & Hl).
  destruct (compare_op_spec NameError op thr Hop) as (holds & E & Hh).
  assert (Ev : vec = map holds values).
  { clear -Hv Hh. unfold ConditionVec in Hv. induction Hv as [|v b l l' H _ IH]; [reflexivity|]. cbn. rewrite <- IH. f_equal.
    destruct b, (holds v) eqn:Eh; try reflexivity; [rewrite <- Eh; symmetry; apply Hh; apply H; reflexivity|].
    apply H. apply Hh. exact Eh. }
  subst vec. rewrite (runs_unique _ _ _ Hr (runs_of_spec _)) in *.
  unfold freq_duration. rewrite E. cbn [bind]. eexists. split; [reflexivity|].
  rewrite iter_consecutive_spec. set (vec := map holds values) in *.
  destruct (has_adj vec) eqn:Ha.
  2:{ pose proof (has_adj_false _ Ha) as Hf. rewrite Forall_forall in Hf. specialize (Hf _ Hin). lia. }
  set (l := map run_length (runs_of vec)). split.
  - rewrite map_map. cbn [fst]. rewrite map_id. apply sorted_nodup. apply z_unique_sorted.
  - intros d c. rewrite in_map_iff. fold (occurrences d l). split.
    + intros (x & Ex & Hx). injection Ex as -> <-. split; [reflexivity|]. apply occurrences_pos. rewrite z_unique_in in Hx. exact Hx.
    + intros [-> Hc]. exists d. split; [reflexivity|]. rewrite z_unique_in. apply occurrences_pos. exact Hc.
Qed.
