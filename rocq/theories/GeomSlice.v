(** The slice that encloses the chosen geometries, on any number of processes. *)
From Coq Require Import QArith Lia.
From Verif Require Import Py Lib NdModel NdSpec NdProofs MaskProofs GeomModel GeomSpec GeomProofs.
Local Close Scope Q_scope.
Local Open Scope nat_scope.

Lemma fold_min_spec t x : (fold_left Nat.min t x = x \/ In (fold_left Nat.min t x) t) /\
  fold_left Nat.min t x <= x /\ forall y, In y t -> fold_left Nat.min t x <= y.
Proof.
  revert x. induction t as [|z t IH]; intro x; cbn [fold_left].
  - repeat split; auto; try lia. intros y [].
  - destruct (IH (Nat.min x z)) as [A [B C]]. repeat split.
    + destruct A as [A|A]; [|right; now right]. rewrite A. destruct (Nat.min_spec x z) as [[_ ->]|[_ ->]]; auto. right. now left.
    + lia.
    + intros y [<-|I]; [lia | now apply C].
Qed.

Lemma list_min_spec l : l <> [] -> In (list_min l) l /\ forall y, In y l -> list_min l <= y.
Proof.
  destruct l as [|x t]; intro N; [congruence|]. cbn [list_min]. destruct (fold_min_spec t x) as [A [B C]]. split.
  - destruct A as [A|A]; [left; congruence | now right].
  - intros y [<-|I]; auto.
Qed.

Lemma fold_max_spec t x : (fold_left Nat.max t x = x \/ In (fold_left Nat.max t x) t) /\
  x <= fold_left Nat.max t x /\ forall y, In y t -> y <= fold_left Nat.max t x.
Proof.
  revert x. induction t as [|z t IH]; intro x; cbn [fold_left].
  - repeat split; auto; try lia. intros y [].
  - destruct (IH (Nat.max x z)) as [A [B C]]. repeat split.
    + destruct A as [A|A]; [|right; now right]. rewrite A. destruct (Nat.max_spec x z) as [[_ ->]|[_ ->]]; auto. right. now left.
    + lia.
    + intros y [<-|I]; [lia | now apply C].
Qed.

Lemma list_max_spec l : (exists y, In y l /\ 0 < y) -> In (list_max l) l /\ forall y, In y l -> y <= list_max l.
Proof.
  intros [y [I P]]. unfold list_max. destruct (fold_max_spec l 0) as [A [B C]]. split; auto.
  destruct A as [A|A]; auto. specialize (C y I). lia.
Qed.

Lemma forall2_nth A B (R : A -> B -> Prop) l l' : Forall2 R l l' -> forall k x, nth_error l k = Some x -> exists y, nth_error l' k = Some y /\ R x y.
Proof. induction 1; intros [|k] z E; cbn in *; try discriminate; eauto. injection E as <-. eauto. Qed.

Lemma forall2_build A B (R : A -> B -> Prop) l l' : length l = length l' ->
  (forall k x y, nth_error l k = Some x -> nth_error l' k = Some y -> R x y) -> Forall2 R l l'.
Proof.
  revert l'. induction l as [|x t IH]; intros [|y s] H E; cbn in *; try lia; constructor.
  - now apply (E 0).
  - apply IH; [lia|]. intros k a b. apply (E (S k)).
Qed.

Lemma forall2_len A B (R : A -> B -> Prop) l l' : Forall2 R l l' -> length l = length l'.
Proof. induction 1; cbn; auto. Qed.

Lemma nth_error_same A (l l' : list A) : (forall k, nth_error l k = nth_error l' k) -> l = l'.
Proof.
  revert l'. induction l as [|x t IH]; intros [|y s] E; auto.
  - specialize (E 0). discriminate.
  - specialize (E 0). discriminate.
  - pose proof (E 0) as E0. cbn in E0. injection E0 as ->. f_equal. apply IH. intro k. apply (E (S k)).
Qed.

(** A slice is good for a set of positions. *)
Definition Fits (ndim : nat) (chosen : list nat -> Prop) (s : list (nat * nat)) : Prop :=
  length s = ndim /\ Forall (fun p => fst p < snd p) s /\ Tight chosen s /\ exists idx, chosen idx.

Lemma tight_unique ndim (c c' : list nat -> Prop) s s' : Fits ndim c s -> Fits ndim c' s' -> (forall idx, c idx <-> c' idx) -> s = s'.
Proof.
  intros [L [F [[A B] _]]] [L' [F' [[A' B'] _]]] E. apply nth_error_same. intro k.
  destruct (nth_error s k) as [p|] eqn:P.
  - destruct (nth_error s' k) as [p'|] eqn:P'.
    + destruct (B k p P) as [[i1 [I1 X1]] [i2 [I2 X2]]]. destruct (B' k p' P') as [[j1 [J1 Y1]] [j2 [J2 Y2]]].
      pose proof (proj1 (E _) I1) as I1'. pose proof (proj1 (E _) I2) as I2'. pose proof (proj2 (E _) J1) as J1'. pose proof (proj2 (E _) J2) as J2'.
      destruct (forall2_nth _ _ _ _ _ (A' _ I1') k p' P') as [z1 [Z1 W1]]. destruct (forall2_nth _ _ _ _ _ (A' _ I2') k p' P') as [z2 [Z2 W2]].
      destruct (forall2_nth _ _ _ _ _ (A _ J1') k p P) as [z3 [Z3 W3]]. destruct (forall2_nth _ _ _ _ _ (A _ J2') k p P) as [z4 [Z4 W4]].
      rewrite Forall_forall in F, F'. pose proof (F p (nth_error_In _ _ P)). pose proof (F' p' (nth_error_In _ _ P')).
      f_equal. destruct p as [p1 p2], p' as [q1 q2]; cbn [fst snd] in *. f_equal; [assert (z1 = p1) by congruence; assert (z3 = q1) by congruence; lia | assert (z2 = p2 - 1) by congruence; assert (z4 = q2 - 1) by congruence; lia].
    + apply nth_error_None in P'. assert (k < length s) by (apply nth_error_Some; congruence). lia.
  - destruct (nth_error s' k) eqn:P'; auto. apply nth_error_None in P. assert (k < length s') by (apply nth_error_Some; congruence). lia.
Qed.

(** ** One process *)
Lemma flat_false A (a : arr A) x : Regular a -> (In x (flat a) <-> exists idx, at_ a idx = Some x).
Proof.
  intro R. split.
  - intro I. destruct a as [l|n rows]; cbn in I.
    + apply In_nth_error in I as [i E]. now exists [i].
    + apply in_concat in I as [row [J I]]. apply In_nth_error in J as [j J]. apply In_nth_error in I as [i I].
      exists [j; i]. cbn. now rewrite J.
  - intros [idx E]. rewrite at_flat in E by exact R. destruct (flat_pos a idx); [|discriminate]. now apply nth_error_In in E.
Qed.

Lemma all_true (m : arr bool) : Regular m -> (forallb (fun b => b) (flat m) = true <-> forall idx, at_ m idx <> Some false).
Proof.
  intro R. rewrite forallb_forall. split.
  - intros A idx E. assert (I : In false (flat m)) by (apply flat_false; [exact R | now exists idx]). specialize (A _ I). discriminate.
  - intros N x I. destruct x; auto. apply flat_false in I as [idx E]; [|exact R]. now apply N in E.
Qed.

Lemma trim_2d n rows : Forall (fun r : list bool => length r = n) rows -> (exists idx, at_ (A2 n rows) idx = Some false) ->
  exists s, trim_slices rows n = Ok s /\ Fits 2 (fun idx => at_ (A2 n rows) idx = Some false) [fst s; snd s].
Proof.
  intros F [idx0 E0].
  assert (C : forall j i, cell rows j i = at_ (A2 n rows) [j; i]) by reflexivity.
  assert (X : exists i j, cell rows i j = Some false).
  { destruct idx0 as [|j [|i [|? ?]]]; try discriminate. now exists j, i. }
  destruct (trimmed_spec rows rows n F X) as [r0 [r1 [c0 [c1 [T [Lr [Lc [I [[j1 E1] [[j2 E2] [[i1 E3] [[i2 E4] _]]]]]]]]]]]].
  unfold get_trimmed_array_by_mask in T. destruct (trim_slices rows n) as [s|] eqn:S; [|discriminate]. cbn [bind] in T.
  assert (Es : s = ((r0, r1), (c0, c1))) by congruence. subst s. exists ((r0, r1), (c0, c1)). split; auto. cbn [fst snd].
  split; [reflexivity|]. split; [repeat constructor; cbn; lia|]. split; [|now exists idx0].
  split.
  - intros idx E. destruct idx as [|j [|i [|? ?]]]; try discriminate. rewrite <- C in E. apply I in E as [A B].
    constructor; [exact A|]. constructor; [exact B | constructor].
  - intros [|[|[|k]]] p E; cbn in E; try discriminate; injection E as <-; cbn [fst snd].
    + split; [exists [r0; j1] | exists [r1 - 1; j2]]; split; auto.
    + split; [exists [i1; c0] | exists [i2; c1 - 1]]; split; auto.
Qed.

Lemma trim_1d l : (exists i, nth_error l i = Some false) ->
  exists s, trim_slices_1d l = Ok s /\ Fits 1 (fun idx => at_ (A1 l) idx = Some false) [s].
Proof.
  intros X. destruct (trimmed_1d_spec l X) as [a [b [T [L [I [E1 E2]]]]]]. exists (a, b). split; auto.
  split; [reflexivity|]. split; [repeat constructor; cbn; lia|]. split.
  - split.
    + intros idx E. destruct idx as [|i [|? ?]]; try discriminate. cbn in E. apply I in E. constructor; [exact E | constructor].
    + intros [|[|k]] p E; cbn in E; try discriminate. injection E as <-. cbn [fst snd]. split; [exists [a] | exists [b - 1]]; auto.
  - exists [a]. exact E1.
Qed.

(** One dimension and nothing masked. *)
Definition AllChosen1 (m : arr bool) : Prop := match m with A1 l => l <> [] /\ forall b, In b l -> b = false | A2 _ _ => False end.

Lemma local_slice_spec m : Regular m -> ~ AllChosen1 m ->
  (local_slice m = Ok None /\ forall idx, at_ m idx <> Some false) \/
  exists s, local_slice m = Ok (Some s) /\ Fits (length (shape m)) (fun idx => at_ m idx = Some false) s.
Proof.
  intros R N. unfold local_slice. destruct (forallb (fun b => b) (flat m)) eqn:A.
  - left. split; auto. now apply all_true.
  - right. assert (X : exists idx, at_ m idx = Some false).
    { destruct (existsb negb (flat m)) eqn:Y.
      - apply existsb_exists in Y as [b [I E]]. destruct b; [discriminate|]. now apply flat_false.
      - exfalso. assert (forallb (fun b => b) (flat m) = true); [|congruence]. apply forallb_forall. intros b I.
        destruct b; auto. assert (existsb negb (flat m) = true) by (apply existsb_exists; now exists false). congruence. }
    destruct (existsb (fun b => b) (flat m)) eqn:B; cbn [negb].
    + destruct m as [l|n rows].
      * destruct X as [[|i [|? ?]] E]; try discriminate. destruct (trim_1d l) as [s [T F]]; [now exists i|]. rewrite T. cbn [bind]. now exists [s].
      * destruct (trim_2d n rows R X) as [s [T F]]. rewrite T. cbn [bind]. now exists [fst s; snd s].
    + assert (Z : forall b, In b (flat m) -> b = false).
      { intros b I. destruct b; auto. assert (existsb (fun b => b) (flat m) = true) by (apply existsb_exists; now exists true). congruence. }
      destruct m as [l|n rows].
      * exfalso. apply N. split; [|exact Z]. destruct X as [[|i [|? ?]] E]; try discriminate. cbn in E. intros ->. destruct i; discriminate.
      * exists [(0, length rows); (0, n)]. split; auto. cbn [shape length].
        assert (Y : forall j i, j < length rows -> i < n -> at_ (A2 n rows) [j; i] = Some false).
        { intros j i J I. destruct (nth_error rows j) as [row|] eqn:E; [|apply nth_error_None in E; lia].
          cbn. rewrite E. cbn in R. rewrite Forall_forall in R. pose proof (R _ (nth_error_In _ _ E)) as Lr.
          destruct (nth_error row i) as [b|] eqn:Eb; [|apply nth_error_None in Eb; lia]. f_equal. apply Z. cbn.
          apply in_concat. exists row. split; [now apply nth_error_In in E | now apply nth_error_In in Eb]. }
        destruct X as [[|j [|i [|? ?]]] E]; try discriminate.
        assert (V : forall j i, at_ (A2 n rows) [j; i] = Some false -> j < length rows /\ i < n).
        { intros j' i' E'. cbn in E'. destruct (nth_error rows j') as [row|] eqn:E''; [|discriminate].
          split; [apply nth_error_Some; congruence|]. cbn in R. rewrite Forall_forall in R. rewrite <- (R _ (nth_error_In _ _ E'')).
          apply nth_error_Some. congruence. }
        destruct (V j i E) as [J I].
        split; [reflexivity|]. split; [repeat constructor; cbn; lia|]. split; [|now exists [j; i]]. split.
        { intros idx E'. destruct idx as [|j' [|i' [|? ?]]]; try discriminate. apply V in E' as [J' I'].
          constructor; [cbn; lia|]. constructor; [cbn; lia | constructor]. }
        { intros [|[|[|k]]] p E'; cbn in E'; try discriminate; injection E' as <-; cbn [fst snd].
          - split; [exists [0; i] | exists [length rows - 1; i]]; split; auto; apply Y; lia.
          - split; [exists [j; 0] | exists [j; n - 1]]; split; auto; apply Y; lia. }
Qed.

Lemma local_slice_raises m : AllChosen1 m -> local_slice m = Err IndexError.
Proof.
  destruct m as [l|n rows]; intros H; [|destruct H]. destruct H as [N Z]. unfold local_slice. cbn [flat].
  destruct l as [|b t]; [congruence|]. rewrite (Z b) by now left. cbn [forallb].
  assert (E : existsb (fun b => b) (false :: t) = false).
  { destruct (existsb (fun b => b) (false :: t)) eqn:E; auto. apply existsb_exists in E as [x [I E]]. rewrite (Z x) in E; [discriminate|].
    destruct I as [<-|I]; [left; apply Z; now left | now right]. }
  now rewrite E.
Qed.

(** ** Offsets *)
Definition Moved (off : list nat) (chosen : list nat -> Prop) (idx : list nat) : Prop :=
  exists loc, chosen loc /\ idx = map (fun p => fst p + snd p) (combine off loc).

Lemma shifted_nth off s k : nth_error (shifted off s) k =
  match nth_error off k, nth_error s k with Some o, Some p => Some (fst p + o, snd p + o) | _, _ => None end.
Proof.
  unfold shifted. revert s k. induction off as [|o t IH]; intros [|p s] [|k]; cbn; auto. now destruct (nth_error t k).
Qed.

Lemma moved_nth off loc k : nth_error (map (fun p : nat * nat => fst p + snd p) (combine off loc)) k =
  match nth_error off k, nth_error loc k with Some o, Some i => Some (o + i) | _, _ => None end.
Proof. revert loc k. induction off as [|o t IH]; intros [|i loc] [|k]; cbn; auto. now destruct (nth_error t k). Qed.

Lemma shifted_fits ndim off chosen s : length off = ndim -> Fits ndim chosen s -> Fits ndim (Moved off chosen) (shifted off s).
Proof.
  intros Lo [L [F [[A B] [idx0 E0]]]].
  assert (Ls : length (shifted off s) = ndim) by (unfold shifted; rewrite map_length, combine_length; lia).
  split; [exact Ls|]. split; [|split; [split|]].
  - apply Forall_forall. intros q I. apply In_nth_error in I as [k E]. rewrite shifted_nth in E.
    destruct (nth_error off k) as [o|]; [|discriminate]. destruct (nth_error s k) as [p|] eqn:P; [|discriminate]. injection E as <-.
    rewrite Forall_forall in F. pose proof (F p (nth_error_In _ _ P)). cbn. lia.
  - intros idx [loc [C ->]]. pose proof (A _ C) as I. apply forall2_build.
    + rewrite map_length, combine_length, <- (forall2_len _ _ _ _ _ I). lia.
    + intros k x y X Y. rewrite shifted_nth in X. rewrite moved_nth in Y.
      destruct (nth_error off k) as [o|]; [|discriminate]. destruct (nth_error s k) as [p|] eqn:P; [|discriminate].
      destruct (forall2_nth _ _ _ _ _ I k p P) as [z [Z W]]. rewrite Z in Y. injection X as <-. injection Y as <-. cbn. lia.
  - intros k q E. rewrite shifted_nth in E.
    destruct (nth_error off k) as [o|] eqn:O; [|discriminate]. destruct (nth_error s k) as [p|] eqn:P; [|discriminate]. injection E as <-.
    destruct (B k p P) as [[i1 [C1 E1]] [i2 [C2 E2]]]. rewrite Forall_forall in F. pose proof (F p (nth_error_In _ _ P)). cbn [fst snd].
    split.
    + exists (map (fun p => fst p + snd p) (combine off i1)). split; [now exists i1|]. rewrite moved_nth, O, E1. f_equal. lia.
    + exists (map (fun p => fst p + snd p) (combine off i2)). split; [now exists i2|]. rewrite moved_nth, O, E2. f_equal. lia.
  - exists (map (fun p => fst p + snd p) (combine off idx0)). now exists idx0.
Qed.

(** ** All processes *)
Definition united (ndim : nat) (found : list (list (nat * nat))) : list (nat * nat) :=
  map (fun idx => let column := flat_map (fun s => let p := nth idx s (0, 0) in [fst p; snd p]) found in (list_min column, list_max column)) (seq 0 ndim).

Lemma united_fits ndim (found : list (list (nat * nat))) (chosen : list (list nat -> Prop)) : found <> [] ->
  Forall2 (Fits ndim) chosen found -> Fits ndim (fun idx => exists c, In c chosen /\ c idx) (united ndim found).
Proof.
  intros N F.
  assert (Fit : forall s, In s found -> exists c, In c chosen /\ Fits ndim c s).
  { intros s I. clear N. induction F as [|c s' cs ss H F IH]; [destruct I|]. destruct I as [<-|I]; [exists c; split; [now left | exact H]|].
    destruct (IH I) as [c' [J K]]. exists c'. split; [now right | exact K]. }
  assert (Fit' : forall c, In c chosen -> exists s, In s found /\ Fits ndim c s).
  { intros c I. clear N Fit. induction F as [|c' s' cs ss H F IH]; [destruct I|]. destruct I as [<-|I]; [exists s'; split; [now left | exact H]|].
    destruct (IH I) as [s [J K]]. exists s. split; [now right | exact K]. }
  set (column := fun idx => flat_map (fun s => let p := nth idx s (0, 0) in [fst p; snd p]) found).
  assert (Col : forall idx y, idx < ndim -> (In y (column idx) <-> exists s p, In s found /\ nth_error s idx = Some p /\ (y = fst p \/ y = snd p))).
  { intros idx y L. unfold column. rewrite in_flat_map. split.
    - intros [s [I J]]. destruct (Fit s I) as [c [_ [Ls _]]].
      destruct (nth_error s idx) as [p|] eqn:P; [|apply nth_error_None in P; lia].
      exists s, p. rewrite (nth_error_nth _ _ _ P) in J. cbn in J. split; auto. split; auto. destruct J as [J|[J|[]]]; auto.
    - intros [s [p [I [P J]]]]. exists s. split; auto. rewrite (nth_error_nth _ _ _ P). cbn. destruct J as [->| ->]; auto. }
  assert (Min : forall idx, idx < ndim -> (exists s p, In s found /\ nth_error s idx = Some p /\ list_min (column idx) = fst p) /\
                (forall s p, In s found -> nth_error s idx = Some p -> list_min (column idx) <= fst p)).
  { intros idx L. destruct found as [|s0 found']; [congruence|].
    assert (Ne : column idx <> []) by (unfold column; discriminate).
    destruct (list_min_spec _ Ne) as [A B]. split.
    - apply Col in A as [s [p [I [P [E|E]]]]]; auto; [now exists s, p|].
      exfalso. destruct (Fit s I) as [c [_ [_ [Fs _]]]]. rewrite Forall_forall in Fs. pose proof (Fs p (nth_error_In _ _ P)).
      assert (J : In (fst p) (column idx)) by (apply Col; auto; exists s, p; auto). specialize (B _ J). lia.
    - intros s p I P. apply B. apply Col; auto. exists s, p. auto. }
  assert (Max : forall idx, idx < ndim -> (exists s p, In s found /\ nth_error s idx = Some p /\ list_max (column idx) = snd p) /\
                (forall s p, In s found -> nth_error s idx = Some p -> snd p <= list_max (column idx))).
  { intros idx L.
    assert (Po : exists y, In y (column idx) /\ 0 < y).
    { destruct found as [|s0 found']; [congruence|]. destruct (Fit s0 (or_introl eq_refl)) as [c [_ [Ls [Fs _]]]].
      destruct (nth_error s0 idx) as [p|] eqn:P; [|apply nth_error_None in P; lia]. exists (snd p).
      rewrite Forall_forall in Fs. pose proof (Fs p (nth_error_In _ _ P)). split; [|lia]. apply Col; auto. exists s0, p. split; [now left | auto]. }
    destruct (list_max_spec _ Po) as [A B]. split.
    - apply Col in A as [s [p [I [P [E|E]]]]]; auto; [|now exists s, p].
      exfalso. destruct (Fit s I) as [c [_ [_ [Fs _]]]]. rewrite Forall_forall in Fs. pose proof (Fs p (nth_error_In _ _ P)).
      assert (J : In (snd p) (column idx)) by (apply Col; auto; exists s, p; auto). specialize (B _ J). lia.
    - intros s p I P. apply B. apply Col; auto. exists s, p. auto. }
  assert (Nth : forall k p, nth_error (united ndim found) k = Some p -> k < ndim /\ p = (list_min (column k), list_max (column k))).
  { intros k p E. unfold united in E. rewrite nth_error_map in E. destruct (nth_error (seq 0 ndim) k) as [x|] eqn:X; [|discriminate].
    assert (k < ndim) by (rewrite <- (seq_length ndim 0); apply nth_error_Some; congruence).
    assert (x = k). { apply (nth_error_nth _ _ 0) in X. rewrite seq_nth in X by lia. lia. } subst x. cbn [option_map] in E. split; auto. injection E as <-. reflexivity. }
  assert (Lu : length (united ndim found) = ndim) by (unfold united; now rewrite map_length, seq_length).
  split; [exact Lu|]. split; [|split; [split|]].
  - apply Forall_forall. intros p I. apply In_nth_error in I as [k E]. apply Nth in E as [L ->]. cbn [fst snd].
    destruct (Min k L) as [[s [p [I [P E]]]] _]. destruct (Max k L) as [_ M]. specialize (M s p I P).
    destruct (Fit s I) as [c [_ [_ [Fs _]]]]. rewrite Forall_forall in Fs. pose proof (Fs p (nth_error_In _ _ P)). lia.
  - intros idx [c [Ic C]]. destruct (Fit' c Ic) as [s [Is [Ls [_ [[A _] _]]]]]. pose proof (A _ C) as I. apply forall2_build.
    + rewrite Lu, <- (forall2_len _ _ _ _ _ I). congruence.
    + intros k x y X Y. apply Nth in X as [L ->].
      destruct (nth_error s k) as [p|] eqn:P; [|apply nth_error_None in P; lia].
      destruct (forall2_nth _ _ _ _ _ I k p P) as [z [Z W]]. assert (z = y) by congruence. subst z. cbn [fst snd].
      destruct (Min k L) as [_ M1]. destruct (Max k L) as [_ M2]. specialize (M1 s p Is P). specialize (M2 s p Is P). lia.
  - intros k p E. apply Nth in E as [L ->]. cbn [fst snd]. split.
    + destruct (Min k L) as [[s [p [I [P E]]]] _]. destruct (Fit s I) as [c [Ic [_ [_ [[_ B] _]]]]]. destruct (B k p P) as [[i [C X]] _].
      exists i. rewrite E. split; [now exists c | exact X].
    + destruct (Max k L) as [[s [p [I [P E]]]] _]. destruct (Fit s I) as [c [Ic [_ [_ [[_ B] _]]]]]. destruct (B k p P) as [_ [i [C X]]].
      exists i. rewrite E. split; [now exists c | exact X].
  - destruct found as [|s0 found']; [congruence|]. destruct (Fit s0 (or_introl eq_refl)) as [c [Ic [_ [_ [_ [idx C]]]]]]. exists idx. now exists c.
Qed.

Lemma map_res_find A B (f : A -> res B) l : (forall a, In a l -> exists b, f a = Ok b) ->
  exists r, map_res f l = Ok r /\ Forall2 (fun a b => f a = Ok b) l r.
Proof.
  induction l as [|a t IH]; intro H.
  - exists []. split; [reflexivity | constructor].
  - destruct (H a (or_introl eq_refl)) as [b Eb]. destruct IH as [r [R F]]; [intros x I; apply H; now right|].
    exists (b :: r). cbn. rewrite Eb. cbn. rewrite R. cbn. split; [reflexivity | constructor; auto].
Qed.

Definition rank_slice (r : list nat * option (arr bool)) : res (option (list (nat * nat))) :=
  match snd r with
  | None => Ok None
  | Some m => do s <- local_slice m; Ok (match s with Some s => Some (shifted (fst r) s) | None => None end)
  end.

Lemma rank_slice_spec ndim ranks r : Blocks ndim ranks -> In r ranks -> (forall off m, In (off, Some m) ranks -> ~ AllChosen1 m) ->
  exists o, rank_slice r = Ok o /\
    match o with
    | None => forall m, snd r = Some m -> forall idx, at_ m idx <> Some false
    | Some s => exists m, snd r = Some m /\ Fits ndim (Moved (fst r) (fun loc => at_ m loc = Some false)) s
    end.
Proof.
  intros Bl I N. destruct r as [off [m|]]; cbn [rank_slice fst snd].
  - destruct (Bl off m I) as [R [Lm Lo]]. destruct (local_slice_spec m R (N off m I)) as [[E A]|[s [E F]]]; unfold rank_slice; cbn [snd fst]; rewrite E; cbn [bind].
    + exists None. split; auto. intros m' Em. now injection Em as <-.
    + exists (Some (shifted off s)). split; auto. exists m. split; auto. rewrite Lm in F. now apply shifted_fits.
  - exists None. split; auto. discriminate.
Qed.

Lemma found_in A B (f : A -> res (option B)) l r : Forall2 (fun a o => f a = Ok o) l r ->
  forall (P : A -> Prop) (T : A -> B -> Prop), (forall a s, In a l -> f a = Ok (Some s) -> T a s) ->
  let found := flat_map (fun s => match s with Some s => [s] | None => [] end) r in
  Forall2 T (filter (fun a => match f a with Ok (Some _) => true | _ => false end) l) found.
Proof.
  intros F P T. induction F as [|a o l r E F IH]; intros H; cbn; [constructor|].
  rewrite E. destruct o as [s|]; cbn.
  - constructor; [apply H; [now left | exact E]|]. apply IH. intros x y I. apply H. now right.
  - apply IH. intros x y I. apply H. now right.
Qed.

Lemma forall2_map_l A A' B (f : A -> A') (R : A' -> B -> Prop) l l' : Forall2 (fun a b => R (f a) b) l l' -> Forall2 R (map f l) l'.
Proof. induction 1; cbn; constructor; auto. Qed.

Lemma global_slice_unfold ranks : global_slice ranks =
  do ls <- map_res rank_slice ranks;
  match flat_map (fun s => match s with Some s => [s] | None => [] end) ls with
  | [] => Err EmptySubsetError
  | s0 :: t => Ok (united (length s0) (s0 :: t))
  end.
Proof.
  unfold global_slice. change (fun r => match snd r with None => Ok None | Some m => do s <- local_slice m; Ok (match s with Some s' => Some (shifted (fst r) s') | None => None end) end) with rank_slice.
  destruct (map_res rank_slice ranks) as [ls|]; auto. cbn [bind]. now destruct (flat_map _ ls).
Qed.

Lemma global_slice_spec ndim ranks : Blocks ndim ranks -> (forall off m, In (off, Some m) ranks -> ~ AllChosen1 m) ->
  match global_slice ranks with
  | Ok s => Fits ndim (Held ranks) s
  | Err e => e = EmptySubsetError /\ forall idx, ~ Held ranks idx
  end.
Proof.
  intros Bl N. rewrite global_slice_unfold.
  destruct (map_res_find _ _ rank_slice ranks) as [ls [E F]].
  { intros r I. destruct (rank_slice_spec ndim ranks r Bl I N) as [o [O _]]. eauto. }
  rewrite E. cbn [bind].
  pose (c := fun r : list nat * option (arr bool) => Moved (fst r) (fun loc => match snd r with Some m => at_ m loc = Some false | None => False end)).
  pose proof (found_in _ _ _ _ _ F (fun _ => True) (fun r s => Fits ndim (c r) s)) as K. cbv zeta in K.
  assert (H : forall a s, In a ranks -> rank_slice a = Ok (Some s) -> Fits ndim (c a) s).
  { intros r s I R. destruct (rank_slice_spec ndim ranks r Bl I N) as [o [O X]]. rewrite R in O. injection O as <-.
    destruct X as [m [M X]]. unfold c. now rewrite M. }
  specialize (K H).
  assert (Hd : forall idx, Held ranks idx <-> exists r, In r (filter (fun a => match rank_slice a with Ok (Some _) => true | _ => false end) ranks) /\ c r idx).
  { intro idx. split.
    - intros [off [m [loc [I [A ->]]]]]. exists (off, Some m). split; [|exists loc; auto].
      apply filter_In. split; auto. destruct (rank_slice_spec ndim ranks _ Bl I N) as [o [O X]]. rewrite O.
      destruct o; auto. exfalso. now apply (X m eq_refl loc).
    - intros [[off o] [I [loc [A B]]]]. cbn [fst snd] in *. destruct o as [m|]; [|destruct A]. apply filter_In in I as [I _]. exists off, m, loc. auto. }
  apply (forall2_map_l _ _ _ c (Fits ndim)) in K.
  destruct (flat_map (fun s => match s with Some s => [s] | None => [] end) ls) as [|s0 t] eqn:Fm.
  - split; auto. intros idx X. apply Hd in X as [r [I _]]. inversion K as [Z|]. apply (in_map c) in I. rewrite <- Z in I. destruct I.
  - pose proof (united_fits ndim (s0 :: t) _ ltac:(discriminate) K) as U.
    assert (L0 : length s0 = ndim) by (inversion K as [|? ? ? ? [L _]]; exact L). rewrite L0.
    destruct U as [U1 [U2 [[U3 U4] [idx0 U5]]]].
    assert (W : forall idx, (exists c0, In c0 (map c (filter (fun a => match rank_slice a with Ok (Some _) => true | _ => false end) ranks)) /\ c0 idx) <-> Held ranks idx).
    { intro idx. rewrite Hd. split.
      - intros [c0 [I C]]. apply in_map_iff in I as [r [<- I]]. now exists r.
      - intros [r [I C]]. exists (c r). split; [now apply in_map | exact C]. }
    split; [exact U1|]. split; [exact U2|]. split; [split|].
    + intros idx X. apply U3. now apply W.
    + intros k p Ep. destruct (U4 k p Ep) as [[i [C X]] [i' [C' X']]]. split; [exists i | exists i']; split; auto; now apply W.
    + exists idx0. now apply W.
Qed.

Lemma global_slice_raises ranks off m : In (off, Some m) ranks -> AllChosen1 m -> global_slice ranks = Err IndexError.
Proof.
  intros I A. rewrite global_slice_unfold.
  assert (X : map_res rank_slice ranks = Err IndexError).
  { assert (Only : forall r, (exists o, rank_slice r = Ok o) \/ rank_slice r = Err IndexError).
    { intros [o [m'|]]; unfold rank_slice; cbn [snd fst]; [|left; eauto].
      assert (L : (exists o, local_slice m' = Ok o) \/ local_slice m' = Err IndexError).
      { unfold local_slice. destruct (forallb _ (flat m')) eqn:E1; [left; eauto|].
        destruct (existsb _ (flat m')) eqn:E2; cbn [negb].
        - destruct m' as [l|n rows]; cbn [flat] in *.
          + unfold trim_slices_1d. rewrite E1. cbn [bind]. left; eauto.
          + unfold trim_slices. destruct (forallb (fun row => forallb (fun b => b) row) rows) eqn:E3.
            * exfalso. assert (forallb (fun b => b) (concat rows) = true); [|congruence]. apply forallb_forall. intros x J.
              apply in_concat in J as [row [J K]]. rewrite forallb_forall in E3. specialize (E3 row J). rewrite forallb_forall in E3. now apply E3.
            * cbn [bind]. left; eauto.
        - destruct m'; [right; auto | left; eauto]. }
      destruct L as [[s ->]| ->]; cbn [bind]; [left; eauto | right; auto]. }
    induction ranks as [|r t IH]; [destruct I|]. cbn [map_res]. destruct I as [->|I].
    - unfold rank_slice at 1. cbn [snd fst]. rewrite local_slice_raises by exact A. reflexivity.
    - destruct (Only r) as [[o ->]| ->]; cbn [bind]; auto. rewrite IH by exact I. reflexivity. }
  rewrite X. reflexivity.
Qed.
