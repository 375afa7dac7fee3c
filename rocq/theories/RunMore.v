(** What follows from the invariants: refusals, waiting, results, failures and
    interruptions. *)
From Coq Require Import List String Bool Arith Lia.
From Verif Require Import Py RunModel RunSpec RunProofs DmapProofs RequestNames.
Import ListNotations.
Local Open Scope string_scope.

(** ** Refusals *)
Lemma refused c f es : c_place c = Own -> ranked c -> ~ makeable c f ->
  (s_rank (run c f es) 0 = Start \/ s_rank (run c f es) 0 = Left false) /\ alone (run c f es) /\
  forall n, at_name (s_files (run c f es)) n = at_name f n.
Proof.
  intros O R M. pose proof (inv_run c f es O R) as I. unfold inv in I.
  assert (K : (s_rank (run c f es) 0 = Start \/ s_rank (run c f es) 0 = Left false) /\ alone (run c f es) /\
              at_name (s_files (run c f es)) (c_prefix c) = at_name f (c_prefix c)).
  { destruct (s_rank (run c f es) 0) as [|l| | |l| |l|[]|[]]; try (now destruct I as (Q & _)).
    - destruct I as [SL A]. split; [now left|now split].
    - destruct I as [(_ & A & SL)|(Q & _)]; [|easy]. split; [now right|now split]. }
  destruct K as (K1 & K2 & K3). split; [exact K1|]. split; [exact K2|]. intros n. destruct (String.eqb_spec n (c_prefix c)) as [->|N]; [exact K3|].
  now apply others_kept.
Qed.

(** Without a directory of its own. *)
Lemma shared_refused c f n : c_place c = Shared -> c_overwrite c = false -> at_name f n <> None ->
  (forall r, (r < size c)%nat -> exists l, nth r (c_works c) [] = Check n :: l) ->
  forall es, s_files (run c f es) = f /\ forall r, (r < size c)%nat -> s_rank (run c f es) r <> Left true.
Proof.
  intros O V E H es.
  assert (I : s_files (run c f es) = f /\ forall r, (r < size c)%nat ->
    (exists l, s_rank (run c f es) r = Work (Check n :: l)) \/ s_rank (run c f es) r = AtEnd false \/ s_rank (run c f es) r = Left false).
  { apply (run_inv (fun s => s_files s = f /\ forall r, (r < size c)%nat ->
      (exists l, s_rank s r = Work (Check n :: l)) \/ s_rank s r = AtEnd false \/ s_rank s r = Left false)).
    - split; [reflexivity|]. intros r R. left. cbn [start s_rank]. rewrite O. unfold acts. rewrite O. destruct (H r R) as [l ->]. now exists l.
    - intros s e [F I]. destruct (happen_cases c s e) as [-> | [(r & f' & p & R & S' & ->)|(W & ->)]]; [now split| |].
      + cbn [s_files s_rank]. assert (Q : f' = f /\ (p = AtEnd false \/ p = Left false)).
        { unfold solo in S'. cbv zeta in S'. destruct (I r R) as [[l El]|[El|El]]; rewrite El in S'.
          - unfold target_exists, raised in S'. rewrite O, V, F in S'. assert (D : dmem String.eqb f n = true).
            { apply dmem_iff. unfold at_name in E. destruct (dg f n) as [x|] eqn:G; [|easy]. apply dget_in in G. apply in_map_iff. now exists (n, x). }
            rewrite D in S'. cbn in S'. injection S' as <- <-. split; [reflexivity|now left].
          - destruct (c_barrier c); [easy|]. injection S' as <- <-. split; [exact F|now right].
          - discriminate. }
        destruct Q as [-> Q]. split; [reflexivity|]. intros i Ri. destruct (Nat.eqb i r); [now right|now apply I].
      + cbn [s_files s_rank]. split; [exact F|]. intros r R. specialize (W r R).
        destruct (I r R) as [[l El]|[El|El]]; rewrite El in *; cbn in *; [discriminate|now right; right|discriminate]. }
  destruct I as [F I]. split; [exact F|]. intros r R. destruct (I r R) as [[l ->]|[-> | ->]]; discriminate.
Qed.

(** ** Waiting *)
Lemma left_stays c s e q ok : s_rank s q = Left ok -> s_rank (happen c s e) q = Left ok.
Proof.
  intros L. destruct (happen_cases c s e) as [-> | [(r & f & p & R & S' & ->)|(_ & ->)]]; [exact L| |cbn [s_rank]; now rewrite L].
  cbn [s_rank]. destruct (Nat.eqb_spec q r) as [->|_]; [|exact L]. rewrite L in S'. discriminate.
Qed.
Definition stuck (p : pstate) : Prop :=
  match p with Work l => In Sync l | Cleanup | Cleaning _ | AtEnd false | Left false => True | _ => False end.
Lemma stuck_solo c r f p f' p' : stuck p -> solo c r f p = Some (f', p') -> stuck p'.
Proof.
  intros K H. unfold solo in H. cbv zeta in H. assert (RS : stuck (raised c r)) by (unfold raised; destruct (c_place c); [destruct (Nat.eqb r 0)|]; exact I).
  destruct p as [|l| | |[|[n|n x| |] l]| |[|x l]|[]|[]]; cbn [stuck] in K; try easy.
  - destruct K as [K|K]; [discriminate|]. injection H as <- <-. destruct (target_exists c f n && negb (c_overwrite c)); [exact RS|exact K].
  - destruct K as [K|K]; [discriminate|]. destruct (written c f n x); injection H as <- <-; [exact K|exact RS].
  - injection H as <- <-. exact RS.
  - destruct (dg f (c_prefix c)) as [[|]|]; injection H as <- <-; exact I.
  - destruct (dg f (c_prefix c)) as [[|[|]]|]; injection H as <- <-; exact I.
  - injection H as <- <-. exact I.
  - destruct (c_barrier c); [easy|]. injection H as <- <-. exact I.
Qed.
Lemma stuck_forever c f es q ok r l : (q < size c)%nat -> s_rank (run c f es) q = Left ok -> s_rank (run c f es) r = Work l -> In Sync l ->
  forall es', s_rank (run c f (es ++ es')) r <> Left true.
Proof.
  intros Q L W S' es'. rewrite run_app.
  assert (K : s_rank (fold_left (happen c) es' (run c f es)) q = Left ok /\ stuck (s_rank (fold_left (happen c) es' (run c f es)) r)).
  { apply (fold_inv (fun s => s_rank s q = Left ok /\ stuck (s_rank s r))); [|split; [exact L|now rewrite W]].
    intros s e [L' K]. split; [now apply left_stays|].
    destruct (happen_cases c s e) as [-> | [(i & f' & p & R & H & ->)|(W' & ->)]]; [exact K| |specialize (W' q Q); now rewrite L' in W'].
    cbn [s_rank]. destruct (Nat.eqb_spec r i) as [->|_]; [|exact K]. exact (stuck_solo c i _ _ _ _ K H). }
  destruct K as [_ K]. intros E. now rewrite E in K.
Qed.

(** ** One rank always ends *)
Definition ends (c : cfg) (s : sys) : Prop := exists es ok, s_rank (fold_left (happen c) es s) 0 = Left ok.
Lemma ends_step c s e : ends c (happen c s e) -> ends c s.
Proof. intros (es & ok & H). now exists (e :: es), ok. Qed.
Section One.
Variable c : cfg.
Hypothesis ONE : size c = 1%nat.
Lemma turn s f p : solo c 0 (s_files s) (s_rank s 0) = Some (f, p) -> happen c s (Turn 0) = mksys f (fun i => if Nat.eqb i 0 then p else s_rank s i).
Proof. intros H. cbn [happen]. rewrite ONE. cbn [Nat.ltb Nat.leb]. now rewrite H. Qed.
Lemma together s : waiting c (s_rank s 0) = true -> happen c s Together = mksys (s_files s) (fun r => onward c r (s_rank s r)).
Proof. intros H. cbn [happen]. rewrite ONE. cbn [seq forallb]. now rewrite H. Qed.
Lemma ends_end s ok : s_rank s 0 = AtEnd ok -> ends c s.
Proof.
  intros E. destruct (c_barrier c) eqn:B.
  - exists [Together], ok. cbn [fold_left]. rewrite together by (rewrite E; exact B). cbn [s_rank]. now rewrite E.
  - exists [Turn 0], ok. cbn [fold_left]. rewrite (turn s (s_files s) (Left ok)); [reflexivity|]. rewrite E. cbn [solo]. now rewrite B.
Qed.
Lemma ends_cleaning l : forall s, s_rank s 0 = Cleaning l -> ends c s.
Proof.
  induction l as [|x l IH]; intros s E; apply (ends_step c s (Turn 0)).
  - destruct (dg (s_files s) (c_prefix c)) as [[k|[|e0 t]]|] eqn:D.
    all: (erewrite turn by (rewrite E; cbn [solo]; rewrite D; reflexivity)); now apply (ends_end _ false).
  - erewrite turn by (rewrite E; reflexivity). now apply IH.
Qed.
Lemma ends_cleanup s : s_rank s 0 = Cleanup -> ends c s.
Proof.
  intros E. apply (ends_step c s (Turn 0)). destruct (dg (s_files s) (c_prefix c)) as [[k|es]|] eqn:D.
  all: (erewrite turn by (rewrite E; cbn [solo]; rewrite D; reflexivity)).
  - now apply (ends_end _ false).
  - now apply (ends_cleaning (map fst es)).
  - now apply (ends_end _ false).
Qed.
Lemma ends_raised s : s_rank s 0 = raised c 0 -> ends c s.
Proof.
  unfold raised. destruct (c_place c); cbn [Nat.eqb]; intros E; [now apply ends_cleanup|now apply (ends_end _ false)].
Qed.
Lemma ends_work l : forall s, s_rank s 0 = Work l -> ends c s.
Proof.
  induction l as [|[n|n x| |] l IH]; intros s E.
  - apply (ends_step c s (Turn 0)). erewrite turn by (rewrite E; reflexivity). now apply (ends_end _ true).
  - apply (ends_step c s (Turn 0)). destruct (target_exists c (s_files s) n && negb (c_overwrite c)) eqn:T.
    all: erewrite turn by (rewrite E; cbn [solo]; rewrite T; reflexivity).
    + now apply ends_raised.
    + now apply IH.
  - apply (ends_step c s (Turn 0)). destruct (written c (s_files s) n x) as [g|] eqn:T.
    all: erewrite turn by (rewrite E; cbn [solo]; rewrite T; reflexivity).
    + now apply IH.
    + now apply ends_raised.
  - apply (ends_step c s Together). rewrite together by (now rewrite E). apply IH. cbn [s_rank]. now rewrite E.
  - apply (ends_step c s (Turn 0)). erewrite turn by (rewrite E; reflexivity). now apply ends_raised.
Qed.
Lemma ends_left s ok : s_rank s 0 = Left ok -> ends c s.
Proof. intros E. now exists [], ok. Qed.
Lemma ends_entry s : s_rank s 0 = Entry -> ends c s.
Proof. intros E. apply (ends_step c s Together). rewrite together by (now rewrite E). apply (ends_work (acts c 0)). cbn [s_rank]. now rewrite E. Qed.
Lemma ends_making s : s_rank s 0 = Making -> ends c s.
Proof.
  intros E. apply (ends_step c s (Turn 0)). destruct (dg (s_files s) (c_prefix c)) as [k|] eqn:D.
  all: erewrite turn by (rewrite E; cbn [solo]; rewrite D; reflexivity).
  - now apply (ends_left _ false).
  - now apply ends_entry.
Qed.
Lemma ends_removing l : forall s, s_rank s 0 = Removing l -> ends c s.
Proof.
  induction l as [|x l IH]; intros s E; apply (ends_step c s (Turn 0)).
  - destruct (dg (s_files s) (c_prefix c)) as [[k|[|e0 t]]|] eqn:D.
    all: erewrite turn by (rewrite E; cbn [solo]; rewrite D; reflexivity).
    2: now apply ends_making.
    all: now apply (ends_left _ false).
  - erewrite turn by (rewrite E; reflexivity). now apply IH.
Qed.
Lemma one_ends s : ends c s.
Proof.
  destruct (s_rank s 0) as [|l| | |l| |l|ok|ok] eqn:E.
  - apply (ends_step c s (Turn 0)). destruct (dg (s_files s) (c_prefix c)) as [[k|es]|] eqn:D.
    all: erewrite turn by (rewrite E; cbn [solo]; rewrite D; reflexivity).
    + now apply (ends_left _ false).
    + destruct (c_overwrite c); [now apply (ends_removing (map fst es))|now apply (ends_left _ false)].
    + now apply ends_making.
  - now apply (ends_removing l).
  - now apply ends_making.
  - now apply ends_entry.
  - now apply (ends_work l).
  - now apply ends_cleanup.
  - now apply (ends_cleaning l).
  - now apply (ends_end _ ok).
  - now apply (ends_left _ ok).
Qed.
Lemma one_run f es : exists es' ok, s_rank (run c f (es ++ es')) 0 = Left ok.
Proof. destruct (one_ends (run c f es)) as (es' & ok & H). exists es', ok. now rewrite run_app. Qed.
End One.

(** ** Results *)
Lemma exact_output c f es : c_place c = Own -> ranked c -> succeeded c (run c f es) -> exists d,
  at_name (s_files (run c f es)) (c_prefix c) = Some (Dir d) /\ content c d (acts c).
Proof.
  intros O R S'. pose proof (inv_run c f es O R) as I. unfold inv in I. rewrite (S' 0%nat R) in I.
  destruct I as (_ & d & done & SL & PR & (A & B & C)). exists d. split; [exact SL|].
  assert (D : forall r, (r < size c)%nat -> acts c r = done r).
  { intros r L. specialize (PR r). rewrite (S' r L) in PR. exact PR. }
  split; [|split].
  - intros m x E. destruct (A m x E) as (r & L & J). exists r. split; [exact L|]. now rewrite D.
  - intros r m x L J. rewrite D in J by exact L. now apply (B r m x).
  - intros r m L SW. rewrite D by exact L. now apply C.
Qed.
Lemma still_there c f es ok : c_place c = Own -> ranked c -> ok = true -> s_rank (run c f es) 0 = Left ok ->
  exists d, at_name (s_files (run c f es)) (c_prefix c) = Some (Dir d).
Proof. intros O R -> L. pose proof (inv_run c f es O R) as I. unfold inv in I. rewrite L in I. destruct I as (_ & d & done & SL & _). now exists d. Qed.
Lemma removed c f es : c_place c = Own -> ranked c -> mute c -> makeable c f -> s_rank (run c f es) 0 = Left false ->
  at_name (s_files (run c f es)) (c_prefix c) = None.
Proof.
  intros O R MU M L. pose proof (inv_run c f es O R) as I. unfold inv in I. rewrite L in I. destruct I as [(Q & _)|(_ & _ & Q)]; [easy|now apply Q].
Qed.

(** Without a directory of its own: after any events. *)
Definition shared_inv (c : cfg) (f : fs) (s : sys) (done : nat -> list act) : Prop :=
  (forall r, prog (acts c r) (s_rank s r) (done r)) /\
  (forall r n, (r < size c)%nat -> sole_writer c r n -> at_name (s_files s) n = match last_write (done r) n with Some x => Some (File x) | None => at_name f n end).
Lemma shared_run c f es : c_place c = Shared -> exists done, shared_inv c f (run c f es) done.
Proof.
  intros O. apply (run_inv (fun s => exists done, shared_inv c f s done)).
  - exists (fun _ => []). split.
    + intros r. cbn [start s_rank]. now rewrite O.
    + intros r n _ _. reflexivity.
  - intros s e (done & PR & CO). destruct (happen_cases c s e) as [-> | [(r & f' & p & R & H & ->)|(W & ->)]]; [now exists done| |].
    + pose proof (PR r) as Pr. unfold solo in H. cbv zeta in H.
      assert (K : forall q d, prog (acts c r) q d -> (forall n, last_write d n = last_write (done r) n) -> shared_inv c f (mksys (s_files s) (fun i => if Nat.eqb i r then q else s_rank s i)) (fun i => if Nat.eqb i r then d else done i)).
      { intros q d Q L. split.
        - intros i. cbn [s_rank]. destruct (Nat.eqb_spec i r) as [->|_]; [exact Q|apply PR].
        - intros i n Ri S'. cbn [s_files]. rewrite (CO i n Ri S'). destruct (Nat.eqb_spec i r) as [->|_]; [now rewrite L|reflexivity]. }
      assert (RA : raised c r = AtEnd false) by (unfold raised; now rewrite O).
      destruct (s_rank s r) as [| | | |[|[n|n x| |] l]| |l|ok|ok]; cbn [prog] in Pr; try easy.
      * injection H as <- <-. eexists. apply (K (AtEnd true) (done r)); [cbn; now rewrite app_nil_r in Pr|reflexivity].
      * injection H as <- <-. destruct (target_exists c (s_files s) n && negb (c_overwrite c)).
        -- eexists. rewrite RA. apply (K (AtEnd false) (done r)); [now exists (Check n :: l)|reflexivity].
        -- eexists. apply (K (Work l) (done r ++ [Check n])%list); [cbn; now rewrite <- app_assoc|]. intros m. now rewrite last_app.
      * unfold written in H. rewrite O in H.
        assert (K2 : f' = ds (s_files s) n (File x) -> p = Work l -> exists d, shared_inv c f (mksys f' (fun i => if Nat.eqb i r then p else s_rank s i)) d).
        { intros -> ->. exists (fun i => if Nat.eqb i r then (done r ++ [Write n x])%list else done i). split.
          - intros i. cbn [s_rank]. destruct (Nat.eqb_spec i r) as [->|_]; [cbn; now rewrite <- app_assoc|apply PR].
          - intros i m Ri S'. cbn [s_files]. destruct (String.eqb_spec m n) as [->|N].
            + unfold at_name. rewrite dget_same. destruct (Nat.eqb_spec i r) as [->|Nr]; [rewrite last_app; cbn; now rewrite String.eqb_refl|].
              destruct (S' r R (not_eq_sym Nr) x). rewrite Pr. apply in_app_iff. right. now left.
            + unfold at_name. rewrite dget_other by exact N. change (at_name (s_files s) m = match last_write (if Nat.eqb i r then (done r ++ [Write n x])%list else done i) m with Some x0 => Some (File x0) | None => at_name f m end).
              rewrite (CO i m Ri S'). destruct (Nat.eqb_spec i r) as [->|_]; [|reflexivity]. rewrite last_app. cbn. destruct (String.eqb_spec n m) as [->|_]; [easy|reflexivity]. }
        destruct (dg (s_files s) n) as [[k|es0]|]; injection H as <- <-; try (now apply K2).
        eexists. rewrite RA. apply (K (AtEnd false) (done r)); [now exists (Write n x :: l)|reflexivity].
      * injection H as <- <-. eexists. rewrite RA. apply (K (AtEnd false) (done r)); [now exists (Fail :: l)|reflexivity].
      * destruct (c_barrier c); [easy|]. injection H as <- <-. eexists. apply (K (Left ok) (done r)); [destruct ok; exact Pr|reflexivity].
    + exists (fun r => match s_rank s r with Work (Sync :: _) => (done r ++ [Sync])%list | _ => done r end). split.
      * intros r. cbn [s_rank]. specialize (PR r). destruct (s_rank s r) as [| | | |[|[n|n x| |] l]| |l|[]|[]]; cbn in *; try easy. now rewrite <- app_assoc.
      * intros r n R S'. cbn [s_files]. rewrite (CO r n R S').
        assert (L : last_write (match s_rank s r with Work (Sync :: _) => (done r ++ [Sync])%list | _ => done r end) n = last_write (done r) n).
        { destruct (s_rank s r) as [| | | |[|[m|m x| |] l]| |l|ok|ok]; try reflexivity. now rewrite last_app. }
        now rewrite L.
Qed.

(** ** Interruptions *)
Definition ours (c : cfg) (s : sys) : Prop := forall d m x, at_name (s_files s) (c_prefix c) = Some (Dir d) -> dg d m = Some x ->
  exists r, (r < size c)%nat /\ In (Write m x) (acts c r).
Definition begun (s : sys) : Prop := match s_rank s 0 with Start | Removing _ | Making => False | _ => True end.
Definition member (c : cfg) (s : sys) : Prop := forall r, match s_rank s r with Work l => exists d, acts c r = (d ++ l)%list | _ => True end.
Definition owned (c : cfg) (f0 : fs) (s : sys) : Prop := makeable c f0 -> begun s -> ours c s.

Lemma member_step c s e : member c s -> member c (happen c s e).
Proof.
  intros M. destruct (happen_cases c s e) as [-> | [(r & f & p & R & H & ->)|(W & ->)]]; [exact M| |]; intros i; cbn [s_rank].
  - destruct (Nat.eqb_spec i r) as [->|_]; [|apply M]. specialize (M r). unfold solo in H. cbv zeta in H.
    assert (RA : match raised c r with Work l => exists d, acts c r = (d ++ l)%list | _ => True end) by (unfold raised; destruct (c_place c); [destruct (Nat.eqb r 0)|]; exact I).
    destruct (s_rank s r) as [|[|x l]| | |[|[n|n x| |] l]| |[|x l]|ok|ok]; try discriminate; try (injection H as <- <-; exact I).
    + destruct (dg (s_files s) (c_prefix c)) as [[|es]|]; injection H as <- <-; try exact I. now destruct (c_overwrite c).
    + destruct (dg (s_files s) (c_prefix c)) as [[|[|]]|]; injection H as <- <-; exact I.
    + destruct (dg (s_files s) (c_prefix c)); injection H as <- <-; exact I.
    + injection H as <- <-. destruct (target_exists c (s_files s) n && negb (c_overwrite c)); [exact RA|]. destruct M as [d D]. exists (d ++ [Check n])%list. now rewrite <- app_assoc.
    + destruct (written c (s_files s) n x); injection H as <- <-; [|exact RA]. destruct M as [d D]. exists (d ++ [Write n x])%list. now rewrite <- app_assoc.
    + injection H as <- <-. exact RA.
    + destruct (dg (s_files s) (c_prefix c)) as [[|es]|]; injection H as <- <-; exact I.
    + destruct (dg (s_files s) (c_prefix c)) as [[|[|]]|]; injection H as <- <-; exact I.
    + destruct (c_barrier c); [easy|]. injection H as <- <-. exact I.
  - specialize (M i). destruct (s_rank s i) as [| | | |[|[n|n x| |] l]| |l|ok|ok]; cbn; try easy.
    + now exists [].
    + destruct M as [d D]. exists (d ++ [Sync])%list. now rewrite <- app_assoc.
Qed.
Lemma member_run c f es : member c (run c f es).
Proof.
  apply (run_inv (member c)); [|intros s e; apply member_step]. intros r. cbn [start s_rank]. destruct (c_place c); [now destruct (Nat.eqb r 0)|now exists []].
Qed.
Lemma ours_files c s f p r d0 : at_name (s_files s) (c_prefix c) = Some (Dir d0) -> c_place c = Own -> (r < size c)%nat -> member c s -> ours c s -> s_rank s r <> Making ->
  solo c r (s_files s) (s_rank s r) = Some (f, p) -> ours c (mksys f (fun i => if Nat.eqb i r then p else s_rank s i)).
Proof.
  intros D O R M OU NM H d m x E G. cbn [s_files] in E. unfold at_name in *. unfold solo in H. cbv zeta in H.
  assert (SAME : f = s_files s -> exists r, (r < size c)%nat /\ In (Write m x) (acts c r)) by (intros ->; now apply (OU d m x)).
  assert (UN : forall y, f = unlink (s_files s) (c_prefix c) y -> exists r, (r < size c)%nat /\ In (Write m x) (acts c r)).
  { intros y ->. rewrite (unlink_dir _ _ _ _ D) in E. injection E as <-. destruct (String.eqb_spec m y) as [->|N]; [now rewrite without_same in G|].
    rewrite without_other in G by exact N. now apply (OU d0 m x D). }
  assert (WO : f = without (s_files s) (c_prefix c) -> exists r, (r < size c)%nat /\ In (Write m x) (acts c r)) by (intros ->; now rewrite without_same in E).
  pose proof (M r) as Mr. destruct (s_rank s r) as [|[|y l]| | |[|[n|n y| |] l]| |[|y l]|ok|ok]; try discriminate; try (injection H as <- <-; first [now apply SAME|now apply (UN y)]).
  - rewrite D in H. injection H as <- <-. now apply SAME.
  - rewrite D in H. destruct d0; injection H as <- <-; [now apply WO|now apply SAME].
  - now destruct NM.
  - unfold written in H. rewrite O, D in H. injection H as <- <-. rewrite dget_same in E. injection E as <-.
    destruct (String.eqb_spec m n) as [->|N].
    + rewrite dget_same in G. injection G as <-. exists r. split; [exact R|]. destruct Mr as [q ->]. apply in_app_iff. right. now left.
    + rewrite dget_other in G by exact N. now apply (OU d0 m x D).
  - rewrite D in H. injection H as <- <-. now apply SAME.
  - rewrite D in H. destruct d0; injection H as <- <-; [now apply WO|now apply SAME].
  - destruct (c_barrier c); [easy|]. injection H as <- <-. now apply SAME.
Qed.
Lemma ours_none c s f p r : (forall d, at_name (s_files s) (c_prefix c) <> Some (Dir d)) -> c_place c = Own -> s_rank s r <> Making ->
  solo c r (s_files s) (s_rank s r) = Some (f, p) -> f = s_files s.
Proof.
  intros D O NM H. unfold at_name in D. unfold solo in H. cbv zeta in H.
  assert (UN : forall y, unlink (s_files s) (c_prefix c) y = s_files s).
  { intros y. unfold unlink. destruct (dg (s_files s) (c_prefix c)) as [[k|es]|] eqn:E; [reflexivity|now destruct (D es)|reflexivity]. }
  destruct (s_rank s r) as [|[|y l]| | |[|[n|n y| |] l]| |[|y l]|ok|ok]; try discriminate; try (injection H as <- <-; first [reflexivity|apply UN]).
  - destruct (dg (s_files s) (c_prefix c)) as [[k|es]|] eqn:E; injection H as <- <-; reflexivity.
  - destruct (dg (s_files s) (c_prefix c)) as [[k|[|e0 t]]|] eqn:E; injection H as <- <-; try reflexivity. now destruct (D []).
  - now destruct NM.
  - unfold written in H. rewrite O in H. destruct (dg (s_files s) (c_prefix c)) as [[k|es]|] eqn:E; [|now destruct (D es)|]; injection H as <- <-; reflexivity.
  - destruct (dg (s_files s) (c_prefix c)) as [[k|es]|] eqn:E; injection H as <- <-; reflexivity.
  - destruct (dg (s_files s) (c_prefix c)) as [[k|[|e0 t]]|] eqn:E; injection H as <- <-; try reflexivity. now destruct (D []).
  - destruct (c_barrier c); [easy|]. now injection H as <- <-.
Qed.

Lemma alone_happen c s e : alone s -> alone (happen c s e) \/ waiting c (s_rank s 0) = true \/ size c = 0%nat.
Proof.
  intros A. destruct (happen_cases c s e) as [-> | [(r & f & p & R & H & ->)|(W & _)]].
  - now left.
  - left. intros i N. cbn [s_rank]. destruct (Nat.eqb_spec i r) as [->|_]; [|now apply A]. rewrite (A r N) in H. discriminate.
  - right. destruct (size c) as [|k] eqn:Z'; [now right|]. left. apply W. lia.
Qed.
Lemma owned_step c f0 s e : c_place c = Own -> ranked c -> inv c f0 s -> member c s -> owned c f0 s -> owned c f0 (happen c s e).
Proof.
  intros O RK I ME OW MK B'. pose proof (inv_step c f0 s e O RK I) as I'.
  assert (D : (exists d, at_name (s_files (happen c s e)) (c_prefix c) = Some (Dir d) /\ forall m x, dg d m = Some x -> exists r, (r < size c)%nat /\ In (Write m x) (acts c r)) \/ behind c (happen c s e)).
  { unfold begun in B'. unfold inv in I'.
    assert (WK : working c (happen c s e) -> exists d, at_name (s_files (happen c s e)) (c_prefix c) = Some (Dir d) /\ forall m x, dg d m = Some x -> exists r, (r < size c)%nat /\ In (Write m x) (acts c r)).
    { intros (d & done & SL & PR & (A & _)). exists d. split; [exact SL|]. intros m x G. destruct (A m x G) as (r & R & J). exists r. split; [exact R|].
      specialize (PR r). destruct (s_rank (happen c s e) r) as [|ll| | |ll| |ll|[]|[]]; cbn [prog] in PR; try contradiction.
      - rewrite PR. apply in_app_iff. now left.
      - now rewrite PR.
      - destruct PR as [rest PR]. rewrite PR. apply in_app_iff. now left.
      - now rewrite PR.
      - destruct PR as [rest PR]. rewrite PR. apply in_app_iff. now left. }
    destruct (s_rank (happen c s e) 0) as [|ll| | |ll| |ll|[]|[]]; try contradiction; try (now left; apply WK); try (now right; apply I').
    - left. exists []. split; [apply I'|discriminate].
    - destruct I' as [(Q & _)|(_ & Q & _)]; [contradiction|now right]. }
  destruct D as [(d & SL & Q)|BH]; [intros d' m x E G; rewrite SL in E; injection E as <-; now apply Q|].
  assert (BG : begun s).
  { unfold begun. unfold inv in I.
    assert (NO : alone s -> waiting c (s_rank s 0) = false -> False).
    { intros A W. destruct (alone_happen c s e A) as [A'|[W'|Z']]; [|congruence|unfold ranked in RK; lia].
      specialize (BH 1%nat). rewrite (A' 1%nat) in BH by discriminate. now apply BH. }
    destruct (s_rank s 0) as [|ll| | |ll| |ll|ok|ok]; try exact Logic.I; apply NO; try reflexivity; apply I. }
  specialize (OW MK BG).
  destruct (happen_cases c s e) as [-> | [(r & f & p & R & H & ->)|(W & ->)]]; [exact OW| |exact OW].
  assert (NM : s_rank s r <> Making).
  { intros E. destruct (Nat.eq_dec r 0) as [->|N]; [unfold begun in BG; now rewrite E in BG|].
    unfold inv in I. unfold begun in BG.
    assert (BK : behind c s -> False) by (intros K; specialize (K r N); now rewrite E in K).
    assert (AK : alone s -> False) by (intros K; specialize (K r N); congruence).
    destruct (s_rank s 0) as [|ll| | |ll| |ll|[]|[]]; try contradiction; try (apply BK; apply I); try (apply AK; apply I).
    1,2,3: (destruct I as (_ & d & done & _ & PR & _); specialize (PR r); now rewrite E in PR).
    destruct I as [(_ & K & _)|(_ & K & _)]; [now apply AK|now apply BK]. }
  destruct (at_name (s_files s) (c_prefix c)) as [[k|d0]|] eqn:SL.
  - assert (F : f = s_files s) by (apply (ours_none c s f p r); try assumption; intros d; congruence). subst f. exact OW.
  - now apply (ours_files c s f p r d0).
  - assert (F : f = s_files s) by (apply (ours_none c s f p r); try assumption; intros d; congruence). subst f. exact OW.
Qed.
Lemma owned_run c f es : c_place c = Own -> ranked c -> owned c f (run c f es).
Proof.
  intros O R. assert (K : inv c f (run c f es) /\ member c (run c f es) /\ owned c f (run c f es)); [|apply K].
  apply (run_inv (fun s => inv c f s /\ member c s /\ owned c f s)).
  - split; [now apply inv_start|]. split; [apply (member_run c f [])|]. intros _ B. unfold begun in B. cbn [start s_rank] in B. rewrite O in B. destruct B.
  - intros s e (I & M & W). split; [now apply inv_step|]. split; [now apply member_step|now apply owned_step].
Qed.

Lemma no_file c f es : c_place c = Own -> (forall k, at_name f (c_prefix c) <> Some (File k)) -> forall k, at_name (s_files (run c f es)) (c_prefix c) <> Some (File k).
Proof.
  intros O N. apply (run_inv (fun s => forall k, at_name (s_files s) (c_prefix c) <> Some (File k))); [exact N|]. intros s e I.
  destruct (happen_cases c s e) as [-> | [(r & f' & p & R & H & ->)|(W & ->)]]; [exact I| |exact I]. cbn [s_files]. unfold at_name in *.
  unfold solo in H. cbv zeta in H.
  assert (UN : forall y k, dg (unlink (s_files s) (c_prefix c) y) (c_prefix c) <> Some (File k)).
  { intros y k. destruct (dg (s_files s) (c_prefix c)) as [[q|es']|] eqn:E.
    - now destruct (I q).
    - rewrite (unlink_dir _ _ _ _ E). discriminate.
    - unfold unlink. rewrite E, E. discriminate. }
  assert (WO : forall k, dg (without (s_files s) (c_prefix c)) (c_prefix c) <> Some (File k)) by (intros k; rewrite without_same; discriminate).
  destruct (s_rank s r) as [|[|y l]| | |[|[n|n y| |] l]| |[|y l]|ok|ok]; try discriminate; try (injection H as <- <-; first [exact I|apply UN]).
  - destruct (dg (s_files s) (c_prefix c)) as [[q|es']|] eqn:E; injection H as <- <-; rewrite E; exact I.
  - destruct (dg (s_files s) (c_prefix c)) as [[q|[|e0 t]]|] eqn:E; injection H as <- <-; try apply WO; rewrite E; exact I.
  - destruct (dg (s_files s) (c_prefix c)) as [q|] eqn:E; injection H as <- <-; [rewrite E; exact I|]. intros k. rewrite dget_same. discriminate.
  - unfold written in H. rewrite O in H. destruct (dg (s_files s) (c_prefix c)) as [[q|es']|] eqn:E; injection H as <- <-; try (rewrite E; exact I). intros k. rewrite dget_same. discriminate.
  - destruct (dg (s_files s) (c_prefix c)) as [[q|es']|] eqn:E; injection H as <- <-; rewrite E; exact I.
  - destruct (dg (s_files s) (c_prefix c)) as [[q|[|e0 t]]|] eqn:E; injection H as <- <-; try apply WO; rewrite E; exact I.
  - destruct (c_barrier c); [easy|]. injection H as <- <-. exact I.
Qed.
Lemma makeable_file c f k : makeable c f -> at_name f (c_prefix c) <> Some (File k).
Proof. intros [->|(_ & d & ->)]; discriminate. Qed.
Lemma makeable_dec c f : makeable c f \/ ~ makeable c f.
Proof.
  unfold makeable. destruct (at_name f (c_prefix c)) as [[k|d]|].
  - right. intros [Q|(_ & d & Q)]; discriminate.
  - destruct (c_overwrite c); [left; right; split; [reflexivity|now exists d]|]. right. intros [Q|(Q & _)]; discriminate.
  - left. now left.
Qed.

(** What may be found at the directory of a run wherever it is interrupted. *)
Lemma interrupted c f es : c_place c = Own -> ranked c ->
  at_name (s_files (run c f es)) (c_prefix c) = at_name f (c_prefix c) \/
  at_name (s_files (run c f es)) (c_prefix c) = None \/
  (exists d d', at_name f (c_prefix c) = Some (Dir d) /\ at_name (s_files (run c f es)) (c_prefix c) = Some (Dir d') /\ incl d' d) \/
  (exists d, at_name (s_files (run c f es)) (c_prefix c) = Some (Dir d) /\ forall m x, dg d m = Some x -> exists r, (r < size c)%nat /\ In (Write m x) (acts c r)).
Proof.
  intros O R. destruct (makeable_dec c f) as [MK|NM]; [|left; now apply refused].
  pose proof (inv_run c f es O R) as I. pose proof (owned_run c f es O R MK) as W. unfold inv in I. unfold begun in W.
  assert (FIN : ours c (run c f es) -> at_name (s_files (run c f es)) (c_prefix c) = None \/
    (exists d, at_name (s_files (run c f es)) (c_prefix c) = Some (Dir d) /\ forall m x, dg d m = Some x -> exists r, (r < size c)%nat /\ In (Write m x) (acts c r))).
  { intros OU. pose proof (no_file c f es O (fun k => makeable_file c f k MK)) as NF.
    destruct (at_name (s_files (run c f es)) (c_prefix c)) as [[k|d]|] eqn:SL; [now destruct (NF k)| |now left].
    right. exists d. split; [reflexivity|]. intros m x G. now apply (OU d m x). }
  destruct (s_rank (run c f es) 0) as [|ll| | |ll| |ll|ok|ok].
  - left. apply I.
  - right. right. left. destruct I as (_ & _ & d & d' & A & B & _ & C). now exists d, d'.
  - right. left. apply I.
  - destruct (FIN (W Logic.I)) as [Q|Q]; tauto.
  - destruct (FIN (W Logic.I)) as [Q|Q]; tauto.
  - destruct (FIN (W Logic.I)) as [Q|Q]; tauto.
  - destruct (FIN (W Logic.I)) as [Q|Q]; tauto.
  - destruct (FIN (W Logic.I)) as [Q|Q]; tauto.
  - destruct (FIN (W Logic.I)) as [Q|Q]; tauto.
Qed.

(** ** No rank waits for ever *)
Definition fine (c : cfg) (p : pstate) : Prop :=
  match p with
  | Cleanup | Cleaning _ | AtEnd false | Left false => False
  | Work l => harmless c l
  | _ => True
  end.
Definition rem (c : cfg) (r : nat) (p : pstate) : nat :=
  let b := if c_barrier c then 1%nat else 0%nat in
  match p with
  | Start | Removing _ | Making | Entry => (1 + syncs (acts c r) + b)%nat
  | Work l => (syncs l + b)%nat
  | AtEnd _ => b
  | _ => 0%nat
  end.
Definition smooth (c : cfg) (s : sys) : Prop := forall r, (r < size c)%nat -> fine c (s_rank s r) /\ rem c r (s_rank s r) = rem c 0 (s_rank s 0).
Lemma harmless_tail c a l : harmless c (a :: l) -> harmless c l.
Proof. intros [A B]. split; [intros K; apply A; now right|]. destruct B as [B|B]; [now left|right]. intros n K. apply (B n). now right. Qed.

Section Smooth.
Variables (c : cfg) (f0 : fs).
Hypotheses (O : c_place c = Own) (RK : ranked c) (MK : makeable c f0).
Hypothesis HA : forall r, (r < size c)%nat -> harmless c (acts c r).
Hypothesis SY : forall r, (r < size c)%nat -> syncs (acts c r) = syncs (acts c 0).

Lemma smooth_solo s r f p : (r < size c)%nat -> inv c f0 s -> smooth c s -> solo c r (s_files s) (s_rank s r) = Some (f, p) ->
  fine c p /\ rem c r p = rem c r (s_rank s r) /\ p <> s_rank s r.
Proof.
  intros R I SM H. destruct (SM r R) as [FI _]. destruct (SM 0%nat RK) as [FI0 _].
  assert (DIR : (exists l, s_rank s r = Work l) -> exists d, at_name (s_files s) (c_prefix c) = Some (Dir d)).
  { intros [l E]. unfold inv in I. assert (AK : alone s -> s_rank s 0 <> Work l -> False).
    { intros A N. destruct (Nat.eq_dec r 0) as [->|Nr]; [now apply N|]. rewrite (A r Nr) in E. discriminate. }
    destruct (s_rank s 0) as [|ll| | |ll| |ll|[]|[]]; cbn [fine] in FI0; try contradiction; try (exfalso; apply AK; [apply I|discriminate]);
      destruct I as (_ & d & done & SL & _); now exists d. }
  assert (Z' : match s_rank s r with Start | Removing _ | Making => r = 0%nat | _ => True end).
  { destruct (Nat.eq_dec r 0) as [->|N]; [now destruct (s_rank s 0)|]. unfold inv in I.
    assert (AK : alone s -> match s_rank s r with Start | Removing _ | Making => r = 0%nat | _ => True end) by (intros A; now rewrite (A r N)).
    assert (WK : working c s -> match s_rank s r with Start | Removing _ | Making => r = 0%nat | _ => True end).
    { intros (d & done & _ & PR & _). specialize (PR r). destruct (s_rank s r) as [|lx| | |lx| |lx|[]|[]]; cbn in PR; try contradiction; exact Logic.I. }
    destruct (s_rank s 0) as [|ll| | |ll| |ll|[]|[]]; cbn [fine] in FI0; try contradiction; try (apply AK; apply I); apply WK; apply I. }
  unfold solo in H. cbv zeta in H.
  destruct (s_rank s r) as [|[|x l]| | |[|[n|n x| |] l]| |l|[]|ok] eqn:E; cbn [fine] in FI; try contradiction; try discriminate.
  - subst r. unfold inv in I. rewrite E in I. destruct I as [SL A]. unfold at_name in *. destruct (dg (s_files s) (c_prefix c)) as [[k|d]|] eqn:D; injection H as <- <-.
    + now destruct (makeable_file c f0 k MK).
    + destruct (c_overwrite c) eqn:V; [now split|]. destruct MK as [Q|(Q & _)]; [unfold at_name in Q; congruence|congruence].
    + now split.
  - subst r. unfold inv in I. rewrite E in I. destruct I as (_ & _ & d & d' & _ & SL & IK & _). unfold at_name in SL. rewrite SL in H. destruct d' as [|e0 t].
    + injection H as <- <-. now split.
    + destruct (IK (fst e0) (or_introl eq_refl)).
  - injection H as <- <-. split; [exact Logic.I|]. split; [reflexivity|]. intros K. injection K as K. apply (f_equal (@List.length _)) in K. cbn in K. lia.
  - subst r. unfold inv in I. rewrite E in I. destruct I as (_ & _ & SL). unfold at_name in SL. rewrite SL in H. injection H as <- <-. now split.
  - injection H as <- <-. split; [exact Logic.I|]. now split.
  - injection H as <- <-. destruct FI as [_ B]. assert (T : target_exists c (s_files s) n && negb (c_overwrite c) = false).
    { destruct B as [-> |B]; [apply andb_false_r|]. destruct (B n). now left. }
    rewrite T. destruct (SM r R) as [FI _]. rewrite E in FI. split; [now apply harmless_tail in FI|]. split; [reflexivity|].
    intros K. injection K as K. apply (f_equal (@List.length _)) in K. cbn in K. lia.
  - destruct (DIR (ex_intro _ _ eq_refl)) as [d D]. unfold at_name in D. unfold written in H. rewrite O, D in H. injection H as <- <-.
    split; [now apply harmless_tail in FI|]. split; [reflexivity|]. intros K. injection K as K. apply (f_equal (@List.length _)) in K. cbn in K. lia.
  - destruct FI as [B _]. destruct B. now left.
  - destruct (c_barrier c) eqn:BA; [easy|]. injection H as <- <-. split; [exact Logic.I|]. split; [|discriminate]. cbn [rem]. now rewrite BA.
Qed.
Lemma smooth_onward r p : (r < size c)%nat -> fine c p -> waiting c p = true -> fine c (onward c r p) /\ (1 + rem c r (onward c r p) = rem c r p)%nat.
Proof.
  intros R F W. destruct p as [|[|x l]| | |[|[n|n x| |] l]| |l|[]|[]]; cbn [waiting] in W; try discriminate; cbn [fine] in F; try contradiction; cbn [onward].
  - split; [now apply HA|]. cbn [rem]. lia.
  - split; [now apply harmless_tail in F|]. cbn [rem syncs]. lia.
  - split; [exact Logic.I|]. cbn [rem]. rewrite W. reflexivity.
Qed.
Lemma smooth_step s e : inv c f0 s -> smooth c s -> smooth c (happen c s e).
Proof.
  intros I SM. destruct (happen_cases c s e) as [-> | [(r & f & p & R & H & ->)|(W & ->)]]; [exact SM| |].
  - destruct (smooth_solo s r f p R I SM H) as (F & Q & _). intros i Ri. cbn [s_rank].
    assert (Q0 : rem c 0 (if Nat.eqb 0 r then p else s_rank s 0) = rem c 0 (s_rank s 0)) by (destruct (Nat.eqb_spec 0 r) as [<-|_]; [exact Q|reflexivity]).
    rewrite Q0. destruct (Nat.eqb_spec i r) as [->|_]; [|now apply SM]. split; [exact F|]. rewrite Q. now apply SM.
  - intros i Ri. cbn [s_rank]. destruct (SM i Ri) as [F Q]. destruct (SM 0%nat RK) as [F0 _].
    destruct (smooth_onward i _ Ri F (W i Ri)) as [F' Q']. destruct (smooth_onward 0 _ RK F0 (W 0%nat RK)) as [_ Q0]. split; [exact F'|lia].
Qed.
Lemma smooth_run es : smooth c (run c f0 es).
Proof.
  assert (K : inv c f0 (run c f0 es) /\ smooth c (run c f0 es)); [|apply K].
  apply (run_inv (fun s => inv c f0 s /\ smooth c s)).
  - split; [now apply inv_start|]. intros r R. cbn [start s_rank]. rewrite O. split.
    + now destruct (Nat.eqb r 0).
    + cbn [Nat.eqb]. destruct (Nat.eqb r 0); cbn [rem]; now rewrite (SY r R).
  - intros s e [I SM]. split; [now apply inv_step|now apply smooth_step].
Qed.
Lemma goes_on es : succeeded c (run c f0 es) \/ exists e r, s_rank (happen c (run c f0 es) e) r <> s_rank (run c f0 es) r.
Proof.
  pose proof (smooth_run es) as SM. pose proof (inv_run c f0 es O RK) as I. set (s := run c f0 es) in *.
  set (rest := fun r => match s_rank s r with Left _ => true | p => waiting c p end).
  destruct (forallb rest (seq 0 (size c))) eqn:A.
  - rewrite forallb_forall in A. assert (A' : forall r, (r < size c)%nat -> rest r = true) by (intros r R; apply A; apply in_seq; lia).
    destruct (s_rank s 0) as [|ll| | |ll| |ll|b|b] eqn:E0.
    9: { left. intros r R. destruct (SM r R) as [F Q]. rewrite E0 in Q. cbn [rem] in Q. specialize (A' r R). unfold rest in A'.
         destruct (s_rank s r) as [|[|x l]| | |[|[n|n x| |] l]| |l|[]|[]]; cbn [waiting] in A'; cbn [rem syncs] in Q; cbn [fine] in F; try discriminate; try contradiction; try reflexivity.
         rewrite A' in Q. discriminate. }
    all: right; exists Together, 0%nat.
    all: assert (WA : forall r, (r < size c)%nat -> waiting c (s_rank s r) = true) by
      (intros r R; pose proof (A' r R) as Ar; pose proof (A' 0%nat RK) as A0; unfold rest in Ar, A0; destruct (SM r R) as [F Q]; rewrite E0 in A0, Q;
       destruct (s_rank s r) as [|lx| | |lx| |lx|bx|bx]; try exact Ar; exfalso; cbn [rem] in Q; cbn [waiting] in A0;
       first [discriminate|lia|(destruct ll as [|[n|n x| |] t]; try discriminate; cbn [syncs] in Q; lia)|(rewrite A0 in Q; discriminate)]).
    all: assert (WB : forallb (fun r => waiting c (s_rank s r)) (seq 0 (size c)) = true) by (apply forallb_forall; intros r J; apply WA; apply in_seq in J; lia).
    all: cbn [happen]; rewrite WB; cbn [s_rank].
    all: pose proof (WA 0%nat RK) as W0; rewrite E0 in *; cbn [waiting] in W0; try discriminate; cbn [onward]; try discriminate.
    destruct ll as [|[n|n x| |] t]; try discriminate. intros K. injection K as K. apply (f_equal (@List.length _)) in K. cbn in K. lia.
  - right. assert (X : exists r, (r < size c)%nat /\ rest r = false).
    { assert (Y : forall l, (forall r, In r l -> (r < size c)%nat) -> forallb rest l = false -> exists r, (r < size c)%nat /\ rest r = false).
      { induction l as [|r l IH]; [discriminate|]. intros B. cbn. destruct (rest r) eqn:Er; [|intros _; exists r; split; [apply B; now left|exact Er]].
        cbn. apply IH. intros q J. apply B. now right. }
      apply (Y (seq 0 (size c))); [|exact A]. intros r J. apply in_seq in J. lia. }
    destruct X as (r & R & Er). exists (Turn r), r. unfold rest in Er.
    destruct (solo c r (s_files s) (s_rank s r)) as [[f p]|] eqn:H.
    + cbn [happen]. rewrite (proj2 (Nat.ltb_lt _ _) R), H. cbn [s_rank]. rewrite Nat.eqb_refl. now apply (smooth_solo s r f p R I SM H).
    + exfalso. unfold solo in H. cbv zeta in H. destruct (SM r R) as [F _].
      destruct (s_rank s r) as [|[|x l]| | |[|[n|n x| |] l]| |l|[]|ok]; cbn [waiting] in Er; cbn [fine] in F; try discriminate; try contradiction.
      * destruct (dg (s_files s) (c_prefix c)) as [[k|d]|]; discriminate.
      * destruct (dg (s_files s) (c_prefix c)) as [[k|[|e0 t]]|]; discriminate.
      * destruct (dg (s_files s) (c_prefix c)); discriminate.
      * destruct (written c (s_files s) n x); discriminate.
      * rewrite Er in H. discriminate.
Qed.
End Smooth.
