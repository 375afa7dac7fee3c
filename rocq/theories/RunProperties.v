(** C129-C133: the files of a run, on any number of ranks, for every schedule and
    wherever it is interrupted. *)
From Coq Require Import List String Bool Arith Lia.
From Verif Require Import Py RunModel RunSpec RunProofs RunMore DmapProofs RequestNames.
Import ListNotations.
Local Open Scope string_scope.

(** Two ranks that write a file each, with a directory of their own; an old output. *)
Definition two (overwrite barrier : bool) (w0 w1 : list act) : cfg := mkcfg Own "out" overwrite true barrier [w0; w1].
Definition old : fs := [("other.nc", File "a"); ("out", Dir [("out.nc", "old"); ("out_did.csv", "old")])].
Definition w0 : list act := [Check "out.nc"; Sync; Write "out.nc" "new"; Sync; Write "out_metadata.txt" "m"].
Definition w1 : list act := [Check "out.nc"; Sync; Sync; Write "part.nc" "p"].
Definition all_turns : list event := concat (repeat [Turn 0; Turn 1; Together] 20).

(** ** C129: existing output *)

(** Without permission to overwrite, a run with a directory of its own changes
    nothing at all if something is there ... *)
Theorem C129_directory : forall c f es, c_place c = Own -> ranked c -> c_overwrite c = false -> at_name f (c_prefix c) <> None ->
  forall n, at_name (s_files (run c f es)) n = at_name f n.
Proof.
  intros c f es O R V E. apply (refused c f es O R). intros [Q|(Q & _)]; [contradiction|congruence].
Qed.
Example C129_directory_case : c_overwrite (two false true w0 w1) = false /\ ranked (two false true w0 w1) /\ at_name old "out" <> None.
Proof. split; [reflexivity|]. split; [cbv; lia|discriminate]. Qed.
Print Assumptions C129_directory.

(** ... nor a file that is there under its name, even with permission ... *)
Theorem C129_not_a_directory : forall c f es x, c_place c = Own -> ranked c -> at_name f (c_prefix c) = Some (File x) ->
  forall n, at_name (s_files (run c f es)) n = at_name f n.
Proof.
  intros c f es x O R E. apply (refused c f es O R). intros [Q|(_ & d & Q)]; congruence.
Qed.
Example C129_not_a_directory_case : at_name [("out", File "x")] "out" = Some (File "x").
Proof. reflexivity. Qed.
Print Assumptions C129_not_a_directory.

(** ... and never anything else than its directory. *)
Theorem C129_others : forall c f es n, c_place c = Own -> n <> c_prefix c -> at_name (s_files (run c f es)) n = at_name f n.
Proof. intros c f es n O N. now apply others_kept. Qed.
Example C129_others_case : "other.nc" <> c_prefix (two true true w0 w1) /\ at_name (s_files (run (two true true w0 w1) old all_turns)) "other.nc" = Some (File "a").
Proof. split; [discriminate|reflexivity]. Qed.
Print Assumptions C129_others.

(** Without a directory of its own: nothing changes if the file that is checked is there ... *)
Theorem C129_file_partial : forall c f n, c_place c = Shared -> c_overwrite c = false -> at_name f n <> None ->
  (forall r, (r < size c)%nat -> exists l, nth r (c_works c) [] = Check n :: l) ->
  forall es, s_files (run c f es) = f /\ forall r, (r < size c)%nat -> s_rank (run c f es) r <> Left true.
Proof. exact shared_refused. Qed.
Definition flat (overwrite : bool) (l : list act) : cfg := mkcfg Shared "out" overwrite false true [l].
Example C129_file_case : forall r, (r < size (flat false w0))%nat -> exists l, nth r (c_works (flat false w0)) [] = Check "out.nc" :: l.
Proof. intros [|r] H; [now eexists|]. cbn in H. lia. Qed.
Print Assumptions C129_file_partial.
(** ... but a companion of it (the geometries of the user beside a shapefile) is
    overwritten without permission. *)
Theorem C129_companion_refuted : forall c f a b x y l, c_place c = Shared -> c_overwrite c = false -> c_works c = [Check a :: Write b x :: l] ->
  at_name f a = None -> at_name f b = Some (File y) ->
  at_name (s_files (run c f [Turn 0; Turn 0])) b = Some (File x).
Proof.
  intros c f a b x y l O V W A B. unfold at_name in *. unfold run. cbn [fold_left].
  assert (N : size c = 1%nat) by (unfold size; now rewrite W).
  assert (S0 : s_rank (start c f) 0 = Work (Check a :: Write b x :: l)) by (cbn [start s_rank]; unfold acts; rewrite O, W; reflexivity).
  assert (D : dmem String.eqb f a = false).
  { destruct (dmem String.eqb f a) eqn:D; [|reflexivity]. apply dmem_iff in D. now apply dget_none in A. }
  rewrite (turn c N (start c f) f (Work (Write b x :: l))).
  - rewrite (turn c N _ (ds f b (File x)) (Work l)); [apply dget_same|]. cbn [s_rank s_files Nat.eqb solo]. unfold written. now rewrite O, B.
  - rewrite S0. cbn [solo start s_files]. unfold target_exists. now rewrite O, D.
Qed.
Example C129_companion_case : at_name (s_files (run (flat false [Check "out.shp"; Write "out_ugid.shp" "new"]) [("out_ugid.shp", File "old")] all_turns)) "out_ugid.shp" = Some (File "new").
Proof. reflexivity. Qed.
Print Assumptions C129_companion_refuted.

(** ** C130: every rank comes to an end *)

(** A run that meets no exception goes on until every rank has returned. *)
Theorem C130_goes_on_partial : forall c f es, c_place c = Own -> ranked c -> makeable c f ->
  (forall r, (r < size c)%nat -> harmless c (acts c r)) -> (forall r, (r < size c)%nat -> syncs (acts c r) = syncs (acts c 0)) ->
  succeeded c (run c f es) \/ exists e r, s_rank (happen c (run c f es) e) r <> s_rank (run c f es) r.
Proof. intros c f es O R M H S'. now apply goes_on. Qed.
Example C130_goes_on_case : makeable (two true true w0 w1) old /\
  (forall r, (r < 2)%nat -> harmless (two true true w0 w1) (acts (two true true w0 w1) r)) /\
  (forall r, (r < 2)%nat -> syncs (acts (two true true w0 w1) r) = 3%nat) /\ succeeded (two true true w0 w1) (run (two true true w0 w1) old all_turns).
Proof.
  split; [right; split; [reflexivity|now eexists]|].
  split; [intros [|[|r]] H; [| |lia]; (split; [cbn; intuition discriminate|now left])|].
  split; [intros [|[|r]] H; [reflexivity|reflexivity|lia]|]. intros [|[|r]] H; [reflexivity|reflexivity|cbn in H; lia].
Qed.
Print Assumptions C130_goes_on_partial.
(** One rank alone ends from wherever it is, with exceptions or without. *)
Theorem C130_one_partial : forall c f es, size c = 1%nat -> exists es' ok, s_rank (run c f (es ++ es')) 0 = Left ok.
Proof. intros c f es ONE. now apply one_run. Qed.
Example C130_one_case : size (flat false w0) = 1%nat.
Proof. reflexivity. Qed.
Print Assumptions C130_one_partial.
(** When the directory is there already, the other ranks wait for ever. *)
Theorem C130_refused_refuted : forall c f es r, c_place c = Own -> c_overwrite c = false -> at_name f (c_prefix c) <> None ->
  (0 < r < size c)%nat -> s_rank (run c f es) r = Entry.
Proof.
  intros c f es r O V E R. assert (RK : ranked c) by (unfold ranked; lia).
  assert (NM : ~ makeable c f) by (intros [Q|(Q & _)]; [contradiction|congruence]).
  destruct (refused c f es O RK NM) as (_ & A & _). apply A. lia.
Qed.
Example C130_refused_case : s_rank (run (two false true w0 w1) old all_turns) 0 = Left false /\ s_rank (run (two false true w0 w1) old all_turns) 1 = Entry.
Proof. now split. Qed.
Print Assumptions C130_refused_refuted.
(** A rank that still has to wait for others does not return once one has left. *)
Theorem C130_failed_refuted : forall c f es q ok r l, (q < size c)%nat -> s_rank (run c f es) q = Left ok -> s_rank (run c f es) r = Work l -> In Sync l ->
  forall es', s_rank (run c f (es ++ es')) r <> Left true.
Proof. exact stuck_forever. Qed.
Example C130_failed_case : s_rank (run (two true false w0 [Fail]) old all_turns) 1 = Left false /\
  s_rank (run (two true false w0 [Fail]) old all_turns) 0 = Work (skipn 1 w0).
Proof. now split. Qed.
Print Assumptions C130_failed_refuted.

(** ** C131: the output of a run *)

(** The directory holds what was written, and nothing of what was there before. *)
Theorem C131_exact : forall c f es, c_place c = Own -> ranked c -> succeeded c (run c f es) -> exists d,
  at_name (s_files (run c f es)) (c_prefix c) = Some (Dir d) /\
  (forall n x, dget String.eqb d n = Some x -> exists r, (r < size c)%nat /\ In (Write n x) (acts c r)) /\
  (forall r n x, (r < size c)%nat -> In (Write n x) (acts c r) -> dget String.eqb d n <> None) /\
  (forall r n, (r < size c)%nat -> sole_writer c r n -> dget String.eqb d n = last_write (acts c r) n).
Proof. intros c f es O R S'. exact (exact_output c f es O R S'). Qed.
Example C131_exact_case : succeeded (two true true w0 w1) (run (two true true w0 w1) old all_turns) /\
  at_name (s_files (run (two true true w0 w1) old all_turns)) "out" = Some (Dir [("logs", ""); ("out.nc", "new"); ("out_metadata.txt", "m"); ("part.nc", "p")]).
Proof. split; [|reflexivity]. intros [|[|r]] H; [reflexivity|reflexivity|cbn in H; lia]. Qed.
Print Assumptions C131_exact.

(** It does not depend on the schedule, nor on what was there. *)
Theorem C131_same : forall c f f' es es', c_place c = Own -> ranked c -> (forall n, exists r, (r < size c)%nat /\ sole_writer c r n) ->
  succeeded c (run c f es) -> succeeded c (run c f' es') -> exists d d',
  at_name (s_files (run c f es)) (c_prefix c) = Some (Dir d) /\ at_name (s_files (run c f' es')) (c_prefix c) = Some (Dir d') /\
  forall n, dget String.eqb d n = dget String.eqb d' n.
Proof.
  intros c f f' es es' O R SW S1 S2. destruct (exact_output c f es O R S1) as (d & D & _ & _ & C). destruct (exact_output c f' es' O R S2) as (d' & D' & _ & _ & C').
  exists d, d'. split; [exact D|]. split; [exact D'|]. intros n. destruct (SW n) as (r & L & W). now rewrite (C r n L W), (C' r n L W).
Qed.
Example C131_same_case : forall n, exists r, (r < size (two true true w0 w1))%nat /\ sole_writer (two true true w0 w1) r n.
Proof.
  intros n. destruct (String.eqb_spec n "part.nc") as [->|N].
  - exists 1%nat. split; [cbn; lia|]. intros [|[|r]] L Nr x; [cbn; intuition discriminate|easy|cbn in L; lia].
  - exists 0%nat. split; [cbn; lia|]. intros [|[|r]] L Nr x; [easy| |cbn in L; lia]. cbn. intros H. repeat (destruct H as [H|H]; [try discriminate|]); [|destruct H]. injection H as H _. now apply N.
Qed.
Print Assumptions C131_same.

(** Without a directory of its own: what one rank alone writes to is what it
    wrote last, what no rank writes to is as it was. *)
Theorem C131_shared : forall c f es r n, c_place c = Shared -> (r < size c)%nat -> sole_writer c r n -> s_rank (run c f es) r = Left true ->
  at_name (s_files (run c f es)) n = match last_write (acts c r) n with Some x => Some (File x) | None => at_name f n end.
Proof.
  intros c f es r n O R SW L. destruct (shared_run c f es O) as (done & PR & CO). rewrite (CO r n R SW). specialize (PR r). rewrite L in PR. cbn [prog] in PR. now rewrite PR.
Qed.
Example C131_shared_case : at_name (s_files (run (flat true w0) [("out.nc", File "old"); ("b", File "b")] all_turns)) "out.nc" = Some (File "new") /\
  s_rank (run (flat true w0) [("out.nc", File "old"); ("b", File "b")] all_turns) 0 = Left true.
Proof. now split. Qed.
Print Assumptions C131_shared.

(** ** C132: a run that fails *)

(** The directory is removed if only the first rank writes and it is the one that fails. *)
Theorem C132_removed_partial : forall c f es, c_place c = Own -> ranked c -> (forall r, (r < size c)%nat -> r <> 0%nat -> silent (acts c r)) ->
  makeable c f -> s_rank (run c f es) 0 = Left false -> at_name (s_files (run c f es)) (c_prefix c) = None.
Proof. intros c f es O R MU M L. now apply removed. Qed.
Definition failing : list act := [Write "out.nc" "half"; Fail].
Example C132_removed_case : s_rank (run (two false true failing []) [] all_turns) 0 = Left false /\ (forall r, (r < 2)%nat -> r <> 0%nat -> silent (acts (two false true failing []) r)).
Proof. split; [reflexivity|]. intros [|[|r]] L N n x; [easy|cbn; intuition discriminate|lia]. Qed.
Print Assumptions C132_removed_partial.
(** Then the output of an earlier run is lost as well. *)
Theorem C132_old_refuted : forall c f es d, c_place c = Own -> ranked c -> (forall r, (r < size c)%nat -> r <> 0%nat -> silent (acts c r)) ->
  c_overwrite c = true -> at_name f (c_prefix c) = Some (Dir d) -> s_rank (run c f es) 0 = Left false -> at_name (s_files (run c f es)) (c_prefix c) = None.
Proof. intros c f es d O R MU V D L. apply removed; try assumption. right. split; [exact V|now exists d]. Qed.
Example C132_old_case : s_rank (run (two true true failing []) old all_turns) 0 = Left false /\ at_name (s_files (run (two true true failing []) old all_turns)) "out" = None.
Proof. now split. Qed.
Print Assumptions C132_old_refuted.
(** If another rank fails and the first does not, the directory stays. *)
Theorem C132_other_refuted : forall c f es r, c_place c = Own -> ranked c -> s_rank (run c f es) r = Left false -> s_rank (run c f es) 0 = Left true ->
  exists d, at_name (s_files (run c f es)) (c_prefix c) = Some (Dir d).
Proof. intros c f es r O R _ L. now apply (still_there c f es true). Qed.
Example C132_other_case : s_rank (run (two true true [Write "out.nc" "x"] failing) old all_turns) 1 = Left false /\
  s_rank (run (two true true [Write "out.nc" "x"] failing) old all_turns) 0 = Left true.
Proof. now split. Qed.
Print Assumptions C132_other_refuted.
(** If another rank writes while the first removes, the directory stays although both fail. *)
Theorem C132_race_refuted : exists c f es, c_place c = Own /\ makeable c f /\
  (forall r, (r < size c)%nat -> s_rank (run c f es) r = Left false) /\ at_name (s_files (run c f es)) (c_prefix c) = Some (Dir [("part.nc", "p")]).
Proof.
  exists (mkcfg Own "out" false false true [[Fail]; [Write "part.nc" "p"; Fail]]), [],
    [Turn 0; Turn 0; Together; Turn 0; Turn 0; Turn 1; Turn 0; Turn 1; Together]. split; [reflexivity|]. split; [now left|].
  split; [|reflexivity]. intros [|[|r]] L; [reflexivity|reflexivity|cbn in L; lia].
Qed.
Print Assumptions C132_race_refuted.
(** Without a directory of its own, what was written before an exception stays. *)
Lemma writes_stay c l : size c = 1%nat -> c_place c = Shared -> forall pre s, (forall n x, In (Write n x) pre -> forall d, at_name (s_files s) n <> Some (Dir d)) ->
  (forall a, In a pre -> exists n x, a = Write n x) -> s_rank s 0 = Work (pre ++ l) ->
  exists es, s_rank (fold_left (happen c) es s) 0 = Work l /\
    forall n, at_name (s_files (fold_left (happen c) es s)) n = match last_write pre n with Some x => Some (File x) | None => at_name (s_files s) n end.
Proof.
  intros ONE O. induction pre as [|a pre IH]; intros s ND W E; [exists []; now split|].
  destruct (W a (or_introl eq_refl)) as (n & x & ->).
  assert (T : happen c s (Turn 0) = mksys (ds (s_files s) n (File x)) (fun i => if Nat.eqb i 0 then Work (pre ++ l) else s_rank s i)).
  { apply (turn c ONE). rewrite E. cbn [app solo]. unfold written. rewrite O. pose proof (ND n x (or_introl eq_refl)) as Q. unfold at_name in Q.
    destruct (dg (s_files s) n) as [[k|d]|]; [reflexivity|now destruct (Q d)|reflexivity]. }
  destruct (IH (happen c s (Turn 0))) as (es & L & F).
  - intros m y J d. rewrite T. unfold at_name. cbn [s_files]. destruct (String.eqb_spec m n) as [->|N]; [rewrite dget_same; discriminate|].
    rewrite dget_other by exact N. apply (ND m y). now right.
  - intros b J. apply W. now right.
  - rewrite T. reflexivity.
  - exists (Turn 0 :: es). cbn [fold_left]. split; [exact L|]. intros m. rewrite F. cbn [last_write]. destruct (last_write pre m) as [y|]; [reflexivity|].
    rewrite T. unfold at_name. cbn [s_files]. destruct (String.eqb_spec n m) as [->|N]; [apply dget_same|]. rewrite dget_other by congruence. reflexivity.
Qed.
Theorem C132_shared_refuted : forall c f pre l, c_place c = Shared -> c_works c = [(pre ++ Fail :: l)%list] -> c_barrier c = true ->
  (forall a, In a pre -> exists n x, a = Write n x) -> (forall n x d, In (Write n x) pre -> at_name f n <> Some (Dir d)) ->
  exists es, s_rank (run c f es) 0 = Left false /\ forall n x, last_write pre n = Some x -> at_name (s_files (run c f es)) n = Some (File x).
Proof.
  intros c f pre l O W B P ND. assert (ONE : size c = 1%nat) by (unfold size; now rewrite W).
  destruct (writes_stay c (Fail :: l) ONE O pre (start c f)) as (es & L & F).
  - intros n x J d. exact (ND n x d J).
  - exact P.
  - cbn [start s_rank]. unfold acts. rewrite O, W. reflexivity.
  - exists (es ++ [Turn 0; Together])%list. rewrite run_app. unfold run. set (s := fold_left (happen c) es (start c f)) in *. cbn [fold_left].
    assert (T : happen c s (Turn 0) = mksys (s_files s) (fun i => if Nat.eqb i 0 then AtEnd false else s_rank s i)).
    { apply (turn c ONE). rewrite L. cbn [solo]. unfold raised. now rewrite O. }
    rewrite T, (together c ONE) by (cbn [s_rank Nat.eqb waiting]; exact B). cbn [s_files s_rank Nat.eqb onward]. split; [reflexivity|].
    intros n x E. rewrite F, E. reflexivity.
Qed.
Example C132_shared_case : at_name (s_files (run (flat false failing) [] all_turns)) "out.nc" = Some (File "half") /\ s_rank (run (flat false failing) [] all_turns) 0 = Left false.
Proof. now split. Qed.
Print Assumptions C132_shared_refuted.

(** ** C133: a run that is interrupted *)

(** Wherever it is, old and new files are never mixed: the directory is as it was,
    or some of what was there, or absent, or only has files of this run. *)
Theorem C133_unmixed : forall c f es, c_place c = Own -> ranked c ->
  at_name (s_files (run c f es)) (c_prefix c) = at_name f (c_prefix c) \/
  at_name (s_files (run c f es)) (c_prefix c) = None \/
  (exists d d', at_name f (c_prefix c) = Some (Dir d) /\ at_name (s_files (run c f es)) (c_prefix c) = Some (Dir d') /\ incl d' d) \/
  (exists d, at_name (s_files (run c f es)) (c_prefix c) = Some (Dir d) /\
     forall n x, dget String.eqb d n = Some x -> exists r, (r < size c)%nat /\ In (Write n x) (acts c r)).
Proof. exact interrupted. Qed.
Example C133_unmixed_case : at_name (s_files (run (two true true w0 w1) old [Turn 0; Turn 0])) "out" = Some (Dir [("out_did.csv", "old")]) /\
  at_name (s_files (run (two true true w0 w1) old (firstn 24 all_turns))) "out" = Some (Dir [("logs", ""); ("out.nc", "new")]).
Proof. split; reflexivity. Qed.
Print Assumptions C133_unmixed.

(** With permission to overwrite, a run after the interruption can be made, and
    its output is that of a run that was never interrupted. *)
Theorem C133_again : forall c f es, c_place c = Own -> ranked c -> c_overwrite c = true -> (forall x, at_name f (c_prefix c) <> Some (File x)) ->
  (forall n, exists r, (r < size c)%nat /\ sole_writer c r n) ->
  makeable c (s_files (run c f es)) /\
  forall es1 es2, succeeded c (run c (s_files (run c f es)) es1) -> succeeded c (run c f es2) -> exists d d',
    at_name (s_files (run c (s_files (run c f es)) es1)) (c_prefix c) = Some (Dir d) /\ at_name (s_files (run c f es2)) (c_prefix c) = Some (Dir d') /\
    forall n, dget String.eqb d n = dget String.eqb d' n.
Proof.
  intros c f es O R V NF SW. split; [|intros es1 es2 S1 S2; now apply C131_same].
  pose proof (no_file c f es O NF) as N. unfold makeable. destruct (at_name (s_files (run c f es)) (c_prefix c)) as [[k|d]|]; [now destruct (N k)| |now left].
  right. split; [exact V|now exists d].
Qed.
Example C133_again_case : succeeded (two true true w0 w1) (run (two true true w0 w1) (s_files (run (two true true w0 w1) old (firstn 24 all_turns))) all_turns).
Proof. intros [|[|r]] H; [reflexivity|reflexivity|cbn in H; lia]. Qed.
Print Assumptions C133_again.
(** One rank then succeeds if it meets no exception. *)
Theorem C133_succeeds_partial : forall c f es, c_place c = Own -> size c = 1%nat -> c_overwrite c = true -> (forall x, at_name f (c_prefix c) <> Some (File x)) ->
  ~ In Fail (acts c 0) -> exists es1, succeeded c (run c (s_files (run c f es)) es1).
Proof.
  intros c f es O ONE V NF HF. assert (R : ranked c) by (unfold ranked; lia).
  destruct (one_run c ONE (s_files (run c f es)) []) as (es1 & ok & L). exists es1. cbn [app] in L.
  assert (M : makeable c (s_files (run c f es))).
  { pose proof (no_file c f es O NF) as N. unfold makeable. destruct (at_name (s_files (run c f es)) (c_prefix c)) as [[k|d]|]; [now destruct (N k)| |now left].
    right. split; [exact V|now exists d]. }
  assert (SM : smooth c (run c (s_files (run c f es)) es1)).
  { apply smooth_run; try assumption; intros r H; (assert (r = 0%nat) as -> by lia); [|reflexivity]. split; [exact HF|now left]. }
  intros r H. assert (r = 0%nat) as -> by lia. destruct (SM 0%nat R) as [F _]. rewrite L in *. destruct ok; [reflexivity|destruct F].
Qed.
Example C133_succeeds_case : ~ In Fail (acts (mkcfg Own "out" true true true [w0]) 0).
Proof. cbn. intuition discriminate. Qed.
Print Assumptions C133_succeeds_partial.
(** Without permission, a run interrupted at work blocks every later one. *)
Theorem C133_blocked_refuted : forall c f es l, c_place c = Own -> ranked c -> c_overwrite c = false -> s_rank (run c f es) 0 = Work l ->
  forall es', ~ succeeded c (run c (s_files (run c f es)) es').
Proof.
  intros c f es l O R V W es' S'. pose proof (inv_run c f es O R) as I. unfold inv in I. rewrite W in I. destruct I as (_ & d & done & SL & _).
  assert (NM : ~ makeable c (s_files (run c f es))) by (intros [Q|(Q & _)]; congruence).
  destruct (refused c _ es' O R NM) as (K & _). rewrite (S' 0%nat R) in K. destruct K; discriminate.
Qed.
Example C133_blocked_case : s_rank (run (two false true w0 w1) [] [Turn 0; Turn 0; Together]) 0 = Work (acts (two false true w0 w1) 0).
Proof. reflexivity. Qed.
Print Assumptions C133_blocked_refuted.
