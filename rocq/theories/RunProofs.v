(** Invariants of runs. *)
From Coq Require Import List String Bool Arith Lia.
From Verif Require Import Py RunModel RunSpec DmapProofs RequestNames.
Import ListNotations.
Local Open Scope string_scope.

(** ** Files *)
Lemma without_same {A} (l : list (string * A)) k : dg (without l k) k = None.
Proof.
  induction l as [|[n x] t IH]; [reflexivity|]. cbn. destruct (String.eqb_spec n k) as [->|N]; [exact IH|]. cbn.
  destruct (String.eqb_spec k n) as [->|_]; [easy|exact IH].
Qed.
Lemma without_other {A} (l : list (string * A)) k j : j <> k -> dg (without l k) j = dg l j.
Proof.
  intros N. induction l as [|[n x] t IH]; [reflexivity|]. cbn. destruct (String.eqb_spec n k) as [->|N'].
  - destruct (String.eqb_spec j k) as [->|_]; [easy|exact IH].
  - cbn. destruct (String.eqb j n); [reflexivity|exact IH].
Qed.
Lemma without_incl {A} (l : list (string * A)) k : incl (without l k) l.
Proof.
  induction l as [|[n x] t IH]; [easy|]. cbn. destruct (String.eqb n k); intros y I; [right; now apply IH|].
  destruct I as [<-|I]; [now left|right; now apply IH].
Qed.
Lemma without_keys {A} (l : list (string * A)) k L : incl (map fst l) (k :: L) -> incl (map fst (without l k)) L.
Proof.
  induction l as [|[n x] t IH]; cbn; [easy|]. intros H. assert (T : incl (map fst t) (k :: L)) by (intros y I; apply H; now right).
  destruct (String.eqb_spec n k) as [->|N]; [now apply IH|]. cbn. intros y [<-|I]; [|now apply (IH T)].
  destruct (H n (or_introl eq_refl)) as [E|I]; [now destruct N|exact I].
Qed.
Lemma unlink_dir f dir x es : dg f dir = Some (Dir es) -> dg (unlink f dir x) dir = Some (Dir (without es x)).
Proof. intros E. unfold unlink. rewrite E. apply dget_same. Qed.
Lemma unlink_other f dir x k : k <> dir -> dg (unlink f dir x) k = dg f k.
Proof. intros N. unfold unlink. destruct (dg f dir) as [[|]|]; [reflexivity|now apply dget_other|reflexivity]. Qed.

(** ** Events *)
Lemma happen_cases c s e : happen c s e = s \/
  (exists r f p, (r < size c)%nat /\ solo c r (s_files s) (s_rank s r) = Some (f, p) /\
     happen c s e = mksys f (fun i => if Nat.eqb i r then p else s_rank s i)) \/
  ((forall r, (r < size c)%nat -> waiting c (s_rank s r) = true) /\ happen c s e = mksys (s_files s) (fun r => onward c r (s_rank s r))).
Proof.
  destruct e as [r|]; cbn [happen].
  - destruct (Nat.ltb_spec r (size c)) as [L|L]; [|now left]. destruct (solo c r (s_files s) (s_rank s r)) as [[f p]|] eqn:E; [|now left].
    right. left. exists r, f, p. split; [exact L|]. split; [exact E|reflexivity].
  - destruct (forallb (fun r => waiting c (s_rank s r)) (seq 0 (size c))) eqn:E; [|now left]. right. right. split; [|reflexivity].
    intros r L. rewrite forallb_forall in E. apply E. apply in_seq. lia.
Qed.
Lemma run_inv (P : sys -> Prop) c f : P (start c f) -> (forall s e, P s -> P (happen c s e)) -> forall es, P (run c f es).
Proof.
  intros S0 ST es. unfold run. revert S0. generalize (start c f). induction es as [|e es IH]; intros s H; [exact H|]. cbn [fold_left]. apply IH. now apply ST.
Qed.
Lemma run_app c f es es' : run c f (es ++ es') = fold_left (happen c) es' (run c f es).
Proof. unfold run. apply fold_left_app. Qed.
Lemma fold_inv (P : sys -> Prop) c : (forall s e, P s -> P (happen c s e)) -> forall es s, P s -> P (fold_left (happen c) es s).
Proof. intros ST es. induction es as [|e es IH]; intros s H; [exact H|]. cbn [fold_left]. apply IH. now apply ST. Qed.

(** ** Other names *)
Lemma written_other c f n x f' k : c_place c = Own -> written c f n x = Some f' -> k <> c_prefix c -> dg f' k = dg f k.
Proof. unfold written. intros -> W N. destruct (dg f (c_prefix c)) as [[|es]|]; [easy| |easy]. injection W as <-. now apply dget_other. Qed.
Lemma solo_other c r f p f' p' k : c_place c = Own -> solo c r f p = Some (f', p') -> k <> c_prefix c -> dg f' k = dg f k.
Proof.
  intros O H N. unfold solo in H. cbv zeta in H.
  destruct p as [|[|x l]| | |[|[n|n x| |] l]| |[|x l]|ok|ok]; try discriminate; try (injection H as <- <-; first [reflexivity|now apply unlink_other]).
  - destruct (dg f (c_prefix c)) as [[|es]|]; injection H as <- <-; reflexivity.
  - destruct (dg f (c_prefix c)) as [[|[|]]|]; injection H as <- <-; first [reflexivity|now apply without_other].
  - destruct (dg f (c_prefix c)); injection H as <- <-; first [reflexivity|now apply dget_other].
  - destruct (written c f n x) as [g|] eqn:W; injection H as <- <-; [now apply (written_other c f n x)|reflexivity].
  - destruct (dg f (c_prefix c)) as [[|es]|]; injection H as <- <-; reflexivity.
  - destruct (dg f (c_prefix c)) as [[|[|]]|]; injection H as <- <-; first [reflexivity|now apply without_other].
  - destruct (c_barrier c); [easy|]. now injection H as <- <-.
Qed.
Lemma others_kept c f k : c_place c = Own -> k <> c_prefix c -> forall es, dg (s_files (run c f es)) k = dg f k.
Proof.
  intros O N. apply (run_inv (fun s => dg (s_files s) k = dg f k)); [reflexivity|]. intros s e H.
  destruct (happen_cases c s e) as [-> | [(r & f' & p & L & E & ->)|(_ & ->)]]; [exact H| |exact H].
  cbn [s_files]. now rewrite (solo_other c r (s_files s) (s_rank s r) f' p k O E N).
Qed.

(** ** The directory of a run *)
Lemma last_app l l' n : last_write (l ++ l') n = match last_write l' n with Some y => Some y | None => last_write l n end.
Proof.
  induction l as [|[m|m x| |] t IH]; cbn [last_write app]; [now destruct (last_write l' n)|exact IH| |exact IH|exact IH].
  rewrite IH. destruct (last_write l' n); [reflexivity|]. reflexivity.
Qed.
Definition prog (a : list act) (p : pstate) (done : list act) : Prop :=
  match p with
  | Work l => a = (done ++ l)%list
  | AtEnd true | Left true => a = done
  | AtEnd false | Left false => exists rest, a = (done ++ rest)%list
  | _ => False
  end.
Definition late (a : list act) (p : pstate) : Prop :=
  match p with Work l => exists d, a = (d ++ l)%list | AtEnd _ | Left _ => True | _ => False end.
Lemma prog_late a p d : prog a p d -> late a p.
Proof. destruct p as [| | | |l| | |[]|[]]; cbn; try easy. intros E. now exists d. Qed.
Definition content (c : cfg) (es : list (string * string)) (done : nat -> list act) : Prop :=
  (forall m x, dg es m = Some x -> exists r, (r < size c)%nat /\ In (Write m x) (done r)) /\
  (forall r m x, (r < size c)%nat -> In (Write m x) (done r) -> dg es m <> None) /\
  (forall r m, (r < size c)%nat -> sole_writer c r m -> dg es m = last_write (done r) m).
Definition mute (c : cfg) : Prop := forall r, (r < size c)%nat -> r <> 0%nat -> silent (acts c r).

Definition alone (s : sys) : Prop := forall r, r <> 0%nat -> s_rank s r = Entry.
Definition behind (c : cfg) (s : sys) : Prop := forall r, r <> 0%nat -> late (acts c r) (s_rank s r).
Definition working (c : cfg) (s : sys) : Prop :=
  exists es done, at_name (s_files s) (c_prefix c) = Some (Dir es) /\ (forall r, prog (acts c r) (s_rank s r) (done r)) /\ content c es done.
Definition inv (c : cfg) (f0 : fs) (s : sys) : Prop :=
  let slot := at_name (s_files s) (c_prefix c) in
  match s_rank s 0 with
  | Start => slot = at_name f0 (c_prefix c) /\ alone s
  | Removing l => makeable c f0 /\ alone s /\ exists es0 es, at_name f0 (c_prefix c) = Some (Dir es0) /\ slot = Some (Dir es) /\ incl (map fst es) l /\ incl es es0
  | Making => makeable c f0 /\ alone s /\ slot = None
  | Entry => makeable c f0 /\ alone s /\ slot = Some (Dir [])
  | Work _ | AtEnd true | Left true => makeable c f0 /\ working c s
  | Cleanup => makeable c f0 /\ behind c s /\ (mute c -> exists es, slot = Some (Dir es))
  | Cleaning l => makeable c f0 /\ behind c s /\ (mute c -> exists es, slot = Some (Dir es) /\ incl (map fst es) l)
  | AtEnd false => makeable c f0 /\ behind c s /\ (mute c -> slot = None)
  | Left false => (~ makeable c f0 /\ alone s /\ slot = at_name f0 (c_prefix c)) \/ (makeable c f0 /\ behind c s /\ (mute c -> slot = None))
  end.

Lemma content_sync c es done done' : content c es done ->
  (forall r, done' r = done r \/ done' r = (done r ++ [Sync])%list) -> content c es done'.
Proof.
  intros (A & B & C) H.
  assert (I : forall r m x, In (Write m x) (done' r) <-> In (Write m x) (done r)).
  { intros r m x. destruct (H r) as [-> | ->]; [reflexivity|]. rewrite in_app_iff. cbn. intuition discriminate. }
  assert (L : forall r m, last_write (done' r) m = last_write (done r) m).
  { intros r m. destruct (H r) as [-> | ->]; [reflexivity|]. now rewrite last_app. }
  split; [|split].
  - intros m x E. destruct (A m x E) as (r & R & J). exists r. split; [exact R|now apply I].
  - intros r m x R J. apply (B r m x R). now apply I.
  - intros r m R S'. rewrite L. now apply C.
Qed.
Lemma content_check c es done r n : content c es done -> content c es (fun i => if Nat.eqb i r then (done r ++ [Check n])%list else done i).
Proof.
  intros (A & B & C).
  assert (I : forall i m x, In (Write m x) (if Nat.eqb i r then (done r ++ [Check n])%list else done i) <-> In (Write m x) (done i)).
  { intros i m x. destruct (Nat.eqb_spec i r) as [->|_]; [|reflexivity]. rewrite in_app_iff. cbn. intuition discriminate. }
  assert (L : forall i m, last_write (if Nat.eqb i r then (done r ++ [Check n])%list else done i) m = last_write (done i) m).
  { intros i m. destruct (Nat.eqb_spec i r) as [->|_]; [|reflexivity]. now rewrite last_app. }
  split; [|split].
  - intros m x E. destruct (A m x E) as (i & R & J). exists i. split; [exact R|now apply I].
  - intros i m x R J. apply I in J. now apply (B i m x R).
  - intros i m R S'. rewrite L. now apply C.
Qed.
Lemma content_write c es done r n x : (r < size c)%nat -> In (Write n x) (acts c r) -> content c es done ->
  content c (ds es n x) (fun i => if Nat.eqb i r then (done r ++ [Write n x])%list else done i).
Proof.
  intros R IA (A & B & C). split; [|split].
  - intros m y E. destruct (String.eqb_spec m n) as [->|N].
    + rewrite dget_same in E. injection E as <-. exists r. split; [exact R|]. rewrite Nat.eqb_refl. apply in_app_iff. right. now left.
    + rewrite dget_other in E by exact N. destruct (A m y E) as (i & Ri & J). exists i. split; [exact Ri|].
      destruct (Nat.eqb_spec i r) as [->|_]; [|exact J]. apply in_app_iff. now left.
  - intros i m y Ri J. destruct (String.eqb_spec m n) as [->|N]; [now rewrite dget_same|]. rewrite dget_other by exact N. apply (B i m y Ri).
    destruct (Nat.eqb_spec i r) as [->|_]; [|exact J]. apply in_app_iff in J. destruct J as [J|[J|[]]]; [exact J|]. now injection J as -> _.
  - intros i m Ri S'. destruct (String.eqb_spec m n) as [->|N].
    + rewrite dget_same. destruct (Nat.eqb_spec i r) as [->|Nr]; [rewrite last_app; cbn; now rewrite String.eqb_refl|].
      now destruct (S' r R (not_eq_sym Nr) x).
    + rewrite dget_other by exact N. rewrite (C i m Ri S'). destruct (Nat.eqb_spec i r) as [->|_]; [|reflexivity]. rewrite last_app. cbn.
      destruct (String.eqb_spec n m) as [->|_]; [easy|reflexivity].
Qed.

Lemma inv_start c f : c_place c = Own -> inv c f (start c f).
Proof. intros O. unfold inv, start. cbn [s_rank s_files]. rewrite O. cbn [Nat.eqb]. split; [reflexivity|]. intros r N. cbn [s_rank]. destruct (Nat.eqb_spec r 0); [easy|reflexivity]. Qed.

(** A rank other than the first. *)
Lemma late_solo c r f p f' p' : c_place c = Own -> r <> 0%nat -> late (acts c r) p -> solo c r f p = Some (f', p') ->
  late (acts c r) p' /\ (silent (acts c r) -> f' = f).
Proof.
  intros O N L H. unfold solo in H. cbv zeta in H. assert (R : raised c r = AtEnd false) by (unfold raised; rewrite O; now destruct (Nat.eqb_spec r 0)).
  destruct p as [| | | |[|[n|n x| |] l]| |l|ok|ok]; cbn [late] in L; try easy.
  - injection H as <- <-. now split.
  - destruct L as [d D]. injection H as <- <-. split; [|easy]. destruct (target_exists c f n && negb (c_overwrite c)); [now rewrite R|].
    exists (d ++ [Check n])%list. now rewrite <- app_assoc.
  - destruct L as [d D]. destruct (written c f n x) as [g|] eqn:W; injection H as <- <-.
    + split; [exists (d ++ [Write n x])%list; now rewrite <- app_assoc|]. intros S'. destruct (S' n x). rewrite D. apply in_app_iff. right. now left.
    + rewrite R. now split.
  - injection H as <- <-. rewrite R. now split.
  - destruct (c_barrier c); [easy|]. injection H as <- <-. now split.
Qed.
Lemma late_onward c r p : late (acts c r) p -> late (acts c r) (onward c r p).
Proof. destruct p as [| | | |[|[n|n x| |] l]| |l|ok|ok]; cbn; try easy. intros [d D]. exists (d ++ [Sync])%list. now rewrite <- app_assoc. Qed.

(** A step of a rank at work, while the first has not failed. *)
Lemma work_step c s r f p (es : list (string * string)) done : c_place c = Own -> (r < size c)%nat -> at_name (s_files s) (c_prefix c) = Some (Dir es) ->
  (forall i, prog (acts c i) (s_rank s i) (done i)) -> content c es done -> solo c r (s_files s) (s_rank s r) = Some (f, p) -> p <> Cleanup ->
  exists es' done', at_name f (c_prefix c) = Some (Dir es') /\ (forall i, prog (acts c i) (if Nat.eqb i r then p else s_rank s i) (done' i)) /\ content c es' done'.
Proof.
  intros O R SL PR CO H NC. pose proof (PR r) as Pr. unfold solo in H. cbv zeta in H.
  assert (K : forall q, prog (acts c r) q (done r) -> forall i, prog (acts c i) (if Nat.eqb i r then q else s_rank s i) (done i)).
  { intros q Q i. destruct (Nat.eqb_spec i r) as [->|_]; [exact Q|apply PR]. }
  assert (K' : forall q d, prog (acts c r) q d -> forall i, prog (acts c i) (if Nat.eqb i r then q else s_rank s i) (if Nat.eqb i r then d else done i)).
  { intros q d Q i. destruct (Nat.eqb_spec i r) as [->|_]; [exact Q|apply PR]. }
  assert (RA : forall l, acts c r = (done r ++ l)%list -> raised c r <> Cleanup -> prog (acts c r) (raised c r) (done r)).
  { intros l E NE. unfold raised in *. rewrite O in *. destruct (Nat.eqb r 0); [easy|]. now exists l. }
  destruct (s_rank s r) as [| | | |[|[n|n x| |] l]| |l|ok|ok]; cbn [prog] in Pr; try easy.
  - injection H as <- <-. exists es, done. split; [exact SL|]. split; [|exact CO]. apply K. cbn. now rewrite app_nil_r in Pr.
  - injection H as <- <-. destruct (target_exists c (s_files s) n && negb (c_overwrite c)).
    + exists es, done. split; [exact SL|]. split; [|exact CO]. apply K. now apply (RA (Check n :: l)).
    + exists es, (fun i => if Nat.eqb i r then (done r ++ [Check n])%list else done i). split; [exact SL|]. split; [|now apply content_check].
      apply K'. cbn. now rewrite <- app_assoc.
  - unfold at_name in SL. unfold written in H. rewrite O, SL in H. injection H as <- <-.
    exists (ds es n x), (fun i => if Nat.eqb i r then (done r ++ [Write n x])%list else done i). split; [apply dget_same|]. split.
    + apply K'. cbn. now rewrite <- app_assoc.
    + apply content_write; [exact R| |exact CO]. rewrite Pr. apply in_app_iff. right. now left.
  - injection H as <- <-. exists es, done. split; [exact SL|]. split; [|exact CO]. apply K. now apply (RA (Fail :: l)).
  - destruct (c_barrier c); [easy|]. injection H as <- <-. exists es, done. split; [exact SL|]. split; [|exact CO]. apply K. destruct ok; exact Pr.
Qed.
Lemma work_together c s es done : (forall r, prog (acts c r) (s_rank s r) (done r)) -> content c es done ->
  exists done', (forall r, prog (acts c r) (onward c r (s_rank s r)) (done' r)) /\ content c es done'.
Proof.
  intros PR CO. exists (fun r => match s_rank s r with Work (Sync :: _) => (done r ++ [Sync])%list | _ => done r end). split.
  - intros r. specialize (PR r). destruct (s_rank s r) as [| | | |[|[n|n x| |] l]| |l|[]|[]]; cbn in *; try easy. now rewrite <- app_assoc.
  - apply (content_sync c es done); [exact CO|]. intros r. destruct (s_rank s r) as [| | | |[|[n|n x| |] l]| |l|ok|ok]; auto.
Qed.

Lemma alone_step c s r f p : alone s -> r <> 0%nat -> solo c r f (s_rank s r) = Some p -> False.
Proof. intros A N H. rewrite (A r N) in H. discriminate. Qed.

Lemma inv_step c f0 s e : c_place c = Own -> ranked c -> inv c f0 s -> inv c f0 (happen c s e).
Proof.
  intros O RK I. destruct (happen_cases c s e) as [-> | [(r & f & p & R & H & ->)|(W & ->)]]; [exact I| |].
  - destruct (Nat.eq_dec r 0) as [->|N].
    + (* the first rank *)
      unfold inv in I. unfold inv. cbn [s_rank s_files Nat.eqb].
      assert (AL : alone s -> alone (mksys f (fun i => if Nat.eqb i 0 then p else s_rank s i))).
      { intros A i Ni. cbn [s_rank]. destruct (Nat.eqb_spec i 0); [easy|now apply A]. }
      assert (BE : behind c s -> behind c (mksys f (fun i => if Nat.eqb i 0 then p else s_rank s i))).
      { intros A i Ni. cbn [s_rank]. destruct (Nat.eqb_spec i 0); [easy|now apply A]. }
      assert (RZ : raised c 0 = Cleanup) by (unfold raised; now rewrite O).
      unfold at_name in *. unfold solo in H. cbv zeta in H.
      assert (WS : working c s -> p <> Cleanup -> solo c 0 (s_files s) (s_rank s 0) = Some (f, p) -> working c (mksys f (fun i => if Nat.eqb i 0 then p else s_rank s i))).
      { intros (es & done & SL & PR & CO) NC H'. destruct (work_step c s 0 f p es done O R SL PR CO H' NC) as (es' & d' & S' & P' & C').
        exists es', d'. now split. }
      destruct (s_rank s 0) as [|[|x l]| | |[|[n|n x| |] l]| |[|x l]|ok|ok] eqn:E0; try discriminate.
      * destruct I as [SL A]. destruct (dg (s_files s) (c_prefix c)) as [[k|es]|] eqn:D; injection H as <- <-.
        -- left. split; [|split; [now apply AL|congruence]]. unfold makeable, at_name. rewrite <- SL. intros [Q|(_ & x & Q)]; discriminate.
        -- destruct (c_overwrite c) eqn:OV.
           ++ split; [right; split; [exact OV|]; exists es; unfold at_name; congruence|]. split; [now apply AL|]. exists es, es. split; [congruence|]. split; [exact D|]. split; apply incl_refl.
           ++ left. split; [|split; [now apply AL|congruence]]. unfold makeable, at_name. rewrite <- SL. intros [Q|(Q & _)]; [discriminate|congruence].
        -- split; [left; unfold at_name; congruence|]. split; [now apply AL|exact D].
      * destruct I as (M & A & es0 & es & S0 & SL & IK & _). rewrite SL in H. destruct es as [|[k v] t].
        -- injection H as <- <-. split; [exact M|]. split; [now apply AL|]. apply without_same.
        -- exfalso. exact (IK k (or_introl eq_refl)).
      * destruct I as (M & A & es0 & es & S0 & SL & IK & IE). injection H as <- <-. split; [exact M|]. split; [now apply AL|].
        exists es0, (without es x). split; [exact S0|]. split; [now apply unlink_dir|]. split; [now apply without_keys|]. intros y Y. apply IE. now apply (without_incl es x).
      * destruct I as (M & A & SL). rewrite SL in H. injection H as <- <-. split; [exact M|]. split; [now apply AL|]. apply dget_same.
      * destruct I as (M & WK). injection H as <- <-. split; [exact M|]. apply WS; [exact WK|discriminate|reflexivity].
      * destruct I as (M & WK). destruct (target_exists c (s_files s) n && negb (c_overwrite c)) eqn:T.
        -- injection H as <- <-. rewrite RZ in *. split; [exact M|]. destruct WK as (es & done & SL & PR & _). split.
           ++ apply BE. intros i Ni. exact (prog_late _ _ _ (PR i)).
           ++ intros _. now exists es.
        -- injection H as <- <-. split; [exact M|]. apply WS; [exact WK|discriminate|]. cbn [solo]. now rewrite T.
      * destruct I as (M & WK). destruct (written c (s_files s) n x) as [g|] eqn:T.
        -- injection H as <- <-. split; [exact M|]. apply WS; [exact WK|discriminate|]. cbn [solo]. now rewrite T.
        -- exfalso. destruct WK as (es & done & SL & _). unfold written in T. rewrite O in T. unfold at_name in SL. now rewrite SL in T.
      * destruct I as (M & WK). injection H as <- <-. rewrite RZ in *. split; [exact M|]. destruct WK as (es & done & SL & PR & _). split.
        -- apply BE. intros i Ni. exact (prog_late _ _ _ (PR i)).
        -- intros _. now exists es.
      * destruct I as (M & B & Q). destruct (dg (s_files s) (c_prefix c)) as [[k|es]|] eqn:D; injection H as <- <-; (split; [exact M|]); (split; [now apply BE|]).
        -- intros MU. destruct (Q MU) as [es Z']. discriminate.
        -- intros MU. exists es. split; [exact D|apply incl_refl].
        -- intros _. exact D.
      * destruct I as (M & B & Q). destruct (dg (s_files s) (c_prefix c)) as [[k|[|e0 es]]|] eqn:D; injection H as <- <-; (split; [exact M|]); (split; [now apply BE|]).
        -- intros MU. destruct (Q MU) as (es & Z' & _). discriminate.
        -- intros _. apply without_same.
        -- intros MU. destruct (Q MU) as (es' & Z' & IK). injection Z' as <-. exfalso. exact (IK (fst e0) (or_introl eq_refl)).
        -- intros _. exact D.
      * destruct I as (M & B & Q). injection H as <- <-. split; [exact M|]. split; [now apply BE|]. intros MU. destruct (Q MU) as (es & SL & IK).
        exists (without es x). split; [now apply unlink_dir|]. now apply without_keys.
      * destruct (c_barrier c) eqn:BA; [easy|]. injection H as <- <-. destruct ok.
        -- destruct I as (M & WK). split; [exact M|]. apply WS; [exact WK|discriminate|]. cbn [solo]. now rewrite BA.
        -- right. destruct I as (M & B & Q). split; [exact M|]. split; [now apply BE|exact Q].
    + (* another rank *)
      assert (Z0 : Nat.eqb 0 r = false) by (destruct (Nat.eqb_spec 0 r); [now subst|reflexivity]).
      assert (BE : behind c s -> behind c (mksys f (fun i => if Nat.eqb i r then p else s_rank s i)) /\ (mute c -> f = s_files s)).
      { intros B. destruct (late_solo c r (s_files s) (s_rank s r) f p O N (B r N) H) as [L Q]. split.
        - intros i Ni. cbn [s_rank]. destruct (Nat.eqb_spec i r) as [->|_]; [exact L|now apply B].
        - intros MU. apply Q. now apply MU. }
      assert (WS : working c s -> working c (mksys f (fun i => if Nat.eqb i r then p else s_rank s i))).
      { intros (es & done & SL & PR & CO).
        assert (NC : p <> Cleanup). { intros ->. destruct (late_solo c r (s_files s) (s_rank s r) f Cleanup O N (prog_late _ _ _ (PR r)) H) as [L _]. exact L. }
        destruct (work_step c s r f p es done O R SL PR CO H NC) as (es' & d' & S' & P' & C'). exists es', d'. now split. }
      unfold inv in I. unfold inv. cbn [s_rank s_files]. rewrite Z0.
      destruct (s_rank s 0) as [|l| | |l| |l|[]|[]] eqn:E0.
      * destruct I as [_ A]. destruct (alone_step c s r _ _ A N H).
      * destruct I as (_ & A & _). destruct (alone_step c s r _ _ A N H).
      * destruct I as (_ & A & _). destruct (alone_step c s r _ _ A N H).
      * destruct I as (_ & A & _). destruct (alone_step c s r _ _ A N H).
      * destruct I as (M & WK). split; [exact M|now apply WS].
      * destruct I as (M & B & Q). destruct (BE B) as [B' F]. split; [exact M|]. split; [exact B'|]. intros MU. rewrite (F MU). now apply Q.
      * destruct I as (M & B & Q). destruct (BE B) as [B' F]. split; [exact M|]. split; [exact B'|]. intros MU. rewrite (F MU). now apply Q.
      * destruct I as (M & WK). split; [exact M|now apply WS].
      * destruct I as (M & B & Q). destruct (BE B) as [B' F]. split; [exact M|]. split; [exact B'|]. intros MU. rewrite (F MU). now apply Q.
      * destruct I as (M & WK). split; [exact M|now apply WS].
      * destruct I as [(_ & A & _)|(M & B & Q)]; [destruct (alone_step c s r _ _ A N H)|]. destruct (BE B) as [B' F]. right. split; [exact M|]. split; [exact B'|]. intros MU. rewrite (F MU). now apply Q.
  - (* a barrier *)
    specialize (W 0%nat RK). assert (BE : behind c s -> behind c (mksys (s_files s) (fun r => onward c r (s_rank s r)))).
    { intros B i Ni. cbn [s_rank]. now apply late_onward, B. }
    assert (WS : working c s -> working c (mksys (s_files s) (fun r => onward c r (s_rank s r)))).
    { intros (es & done & SL & PR & CO). destruct (work_together c s es done PR CO) as (d' & P' & C'). exists es, d'. now split. }
    unfold inv in I. unfold inv. cbn [s_rank s_files].
    destruct (s_rank s 0) as [|l| | |[|[n|n x| |] l]| |l|[]|ok] eqn:E0; cbn [waiting] in W; try discriminate; cbn [onward].
    + destruct I as (M & A & SL). split; [exact M|]. exists [], (fun _ => []). split; [exact SL|]. split.
      * intros r. cbn [s_rank]. assert (Er : s_rank s r = Entry) by (destruct (Nat.eq_dec r 0) as [->|Nr]; [exact E0|now apply A]). rewrite Er. reflexivity.
      * split; [easy|split; [easy|reflexivity]].
    + destruct I as (M & WK). split; [exact M|now apply WS].
    + destruct I as (M & WK). split; [exact M|now apply WS].
    + destruct I as (M & B & Q). right. split; [exact M|]. split; [now apply BE|exact Q].
Qed.
Lemma inv_run c f es : c_place c = Own -> ranked c -> inv c f (run c f es).
Proof. intros O R. apply (run_inv (inv c f)); [now apply inv_start|]. intros s e. now apply inv_step. Qed.
