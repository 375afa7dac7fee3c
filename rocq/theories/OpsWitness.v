(** Concrete cases of OpsProperties. *)
From Coq Require Import QArith Ascii Sorted Permutation.
From Verif Require Import Py Lib Spec TimeModel TimeSpec CalcModel OpsModel OpsSpec OpsProofs GroupingProofs EnvProofs.
From Verif Require CalcSpec.
Local Open Scope string_scope. Local Open Scope Z_scope.

Lemma slice_case :
  let v := PList [PNone; PInt 3; PInt (-1); PList [PInt 1; PInt 4]; PList [PInt 0; PInt (-1)]] in
  let rs := [RAll; RIndex 3; RIndex (-1); RRange 1 4; RRange 0 (-1)] in
  (exists vs, Sequence v vs /\ Forall2 request_value rs vs) /\
  exists d, slice_set v = Ok (Some d) /\ map (fun kv => apply_slice (snd kv) [10; 11; 12; 13; 14; 15]) d =
    [Some [10; 11; 12; 13; 14; 15]; Some [13]; Some [15]; Some [11; 12; 13]; Some [10; 11; 12; 13; 14]].
Proof.
  cbv zeta. split.
  - eexists. split; [left; reflexivity|]. repeat (apply Forall2_cons; [cbn; try reflexivity; left; reflexivity|]). constructor.
  - destruct (slice_set _) as [[d|]|e] eqn:E; vm_compute in E; try discriminate. injection E as <-. eexists. split; [reflexivity|]. vm_compute. reflexivity.
Qed.

Lemma slice_negative : exists d args, slice_set (PList [PNone; PInt (-2); PNone; PNone; PNone]) = Ok (Some d) /\
  In ("time", args) d /\ ~ exists out, apply_slice args [10; 11; 12] = Some out /\ Picks (Asked (RIndex (-2)) 3) [10; 11; 12] out.
Proof.
  destruct (slice_set (PList [PNone; PInt (-2); PNone; PNone; PNone])) as [[d|]|e] eqn:E; vm_compute in E; try discriminate. injection E as <-.
  eexists _, _. split; [reflexivity|]. split; [right; left; reflexivity|]. intros (out & E & H). vm_compute in E. injection E as <-.
  destruct H as (ks & _ & Hin & Hm).
  assert (H2 : In 2%nat ks).
  { destruct ks as [|a [|b [|c t]]]; cbn in Hm; try discriminate. injection Hm as Ha Hb.
    assert (X : b = 2%nat). { destruct b as [|[|[|b]]]; cbn in Hb; try discriminate; try reflexivity. destruct b; discriminate. } subst b. right. left. reflexivity. }
  apply Hin in H2. destruct H2 as [_ H2]. vm_compute in H2. discriminate.
Qed.

Lemma slice_extra x : (exists a, slice_elem x = Ok a) ->
  slice_set (PList [PNone; PNone; PNone; PNone; PNone; x]) = slice_set (PList [PNone; PNone; PNone; PNone; PNone]).
Proof. intros (a & E). unfold slice_set. cbn. rewrite E. reflexivity. Qed.

Lemma grouping_case :
  let l := [GText "unique"; GSeason [12; 1; 2]; GSeason [6; 7; 8]] in
  AtMostOneFlag l /\ GoodGrouping l /\
  calc_grouping_set (PList (map item_value l)) = Ok (Some (PTuple (map item_value [GSeason [12; 1; 2]; GSeason [6; 7; 8]; GText "unique"]))) /\
  calc_grouping_set (PList (map item_value [GSeason [12; 1]; GSeason [1; 2]])) = Err DefinitionValidationError.
Proof.
  cbv zeta. split; [|split; [|split; vm_compute; reflexivity]].
  - assert (N : forall i a, nth_error [GText "unique"; GSeason [12; 1; 2]; GSeason [6; 7; 8]] i = Some a -> IsFlag a -> i = 0%nat).
    { intros i a H Hf. destruct i as [|[|[|i]]]; cbn in H; [reflexivity| | |destruct i; discriminate]; injection H as <-; destruct Hf; discriminate. }
    intros i j a b Ha Hb Fa Fb. rewrite (N i a Ha Fa), (N j b Hb Fb). reflexivity.
  - right. right. split; [|split; [|split]].
    + intros s [H|[H|[H|[]]]]; try discriminate. injection H as <-. left. reflexivity.
    + intros ms m [H|[H|[H|[]]]]; try discriminate; injection H as <-; cbn; lia.
    + intros ms [H|[H|[H|[]]]]; try discriminate; injection H as <-; repeat constructor; cbn; lia.
    + intros i j a b m Hij Ha Hb. destruct i as [|[|[|i]]]; cbn in Ha; try discriminate; [| |destruct i; discriminate];
      (destruct j as [|[|[|j]]]; cbn in Hb; try discriminate; [| |destruct j; discriminate]); try (exfalso; lia);
      injection Ha as <-; injection Hb as <-; cbn; lia.
Qed.

Lemma calc_case :
  let reg s := String.eqb s "mean" in let valid (_ : calc_out) := true in
  let l := [KExpr "x=y*2"; KFunc "mean" "a"; KFunc "mean" "b"] in
  Forall WellSpelled l /\ Forall (Known reg) l /\ NamesDiffer l /\
  calc_set reg valid (map calc_value l) = Ok (map item_out l) /\
  calc_set reg valid (map calc_value [KFunc "mean" "a"; KFunc "mean" "a"]) = Err DefinitionValidationError.
Proof.
  cbv zeta. split; [|split; [|split; [|split; vm_compute; reflexivity]]].
  - repeat (apply Forall_cons; [cbn; unfold HasEquals; cbn; first [intuition discriminate|tauto]|]). constructor.
  - repeat (apply Forall_cons; [cbn; first [exact I|reflexivity]|]). constructor.
  - split; [cbn; repeat constructor; cbn; intuition discriminate|]. intros i j s t Hi Hj.
    destruct i as [|[|[|i]]]; cbn in Hi; try discriminate; [|destruct i; discriminate].
    destruct j as [|[|[|j]]]; cbn in Hj; try discriminate; [reflexivity|destruct j; discriminate].
Qed.

Lemma years_case : CalcSpec.ValidDate (mkdate 2000 6 1 0 0 0) /\ CalcSpec.ValidDate (mkdate 2003 2 1 0 0 0) /\
  validate_time_subset (Some (mkdate 2000 6 1 0 0 0, mkdate 2003 2 1 0 0 0)) (Some (None, Some [2001; 2003])) = Ok true /\
  validate_time_subset (Some (mkdate 2000 6 1 0 0 0, mkdate 2003 2 1 0 0 0)) (Some (None, Some [2004])) = Ok false.
Proof. split; [|split; [|split; vm_compute; reflexivity]]; unfold CalcSpec.ValidDate; vm_compute; intuition discriminate. Qed.

Lemma years_missed : exists t0 t1 l d, DateIn t0 t1 d /\ MeetsRegion None (Some l) d /\
  validate_time_subset (Some (t0, t1)) (Some (None, Some l)) = Ok false.
Proof.
  exists (mkdate 2005 1 1 0 0 0), (mkdate 2005 12 1 0 0 0), [2005; 2020], (mkdate 2005 3 1 0 0 0). split; [|split; [|vm_compute; reflexivity]].
  - split; [unfold CalcSpec.ValidDate; vm_compute; intuition discriminate|]. split; intros H; unfold DateLt in H; cbn in H; lia.
  - split; [discriminate|]. intros l E. injection E as <-. left. reflexivity.
Qed.

Lemma months_wrong : exists t0 t1, CalcSpec.ValidDate t0 /\ CalcSpec.ValidDate t1 /\ DateLe t0 t1 /\
  (exists d, DateIn t0 t1 d /\ MeetsRegion (Some [1]) None d) /\
  validate_time_subset (Some (t0, t1)) (Some (Some [1], None)) = Ok false /\
  (~ exists d, DateIn t0 t1 d /\ MeetsRegion (Some [2]) None d) /\
  validate_time_subset (Some (t0, t1)) (Some (Some [2], None)) = Ok true.
Proof.
  exists (mkdate 2005 1 10 0 0 0), (mkdate 2005 1 20 0 0 0).
  assert (V0 : CalcSpec.ValidDate (mkdate 2005 1 10 0 0 0)) by (unfold CalcSpec.ValidDate; vm_compute; intuition discriminate).
  assert (V1 : CalcSpec.ValidDate (mkdate 2005 1 20 0 0 0)) by (unfold CalcSpec.ValidDate; vm_compute; intuition discriminate).
  assert (L : DateLe (mkdate 2005 1 10 0 0 0) (mkdate 2005 1 20 0 0 0)) by (intros H; unfold DateLt in H; cbn in H; lia).
  split; [exact V0|]. split; [exact V1|]. split; [exact L|]. split; [|split; [vm_compute; reflexivity|split; [|vm_compute; reflexivity]]].
  - exists (mkdate 2005 1 10 0 0 0). split; [split; [exact V0|split; [intros H; unfold DateLt in H; cbn in H; lia|exact L]]|].
    split; [|discriminate]. intros l E. injection E as <-. left. reflexivity.
  - intros (d & (_ & H1 & H2) & Hm & _). destruct (Hm [2] eq_refl) as [E|[]]. unfold DateLe, DateLt in *. cbn in *. lia.
Qed.

Lemma empty_region : exists t0 t1, DateIn t0 t1 t0 /\ MeetsRegion None None t0 /\
  validate_time_subset (Some (t0, t1)) (Some (None, None)) = Err TypeError.
Proof.
  exists (mkdate 2005 1 1 0 0 0), (mkdate 2005 12 1 0 0 0). split; [|split; [|vm_compute; reflexivity]].
  - split; [unfold CalcSpec.ValidDate; vm_compute; intuition discriminate|]. split; intros H; unfold DateLt in H; cbn in H; lia.
  - split; discriminate.
Qed.

Lemma ocgis_good cwd conf float rtree cfunits esmf icclim mpi4py prefer nc_par :
  let su := ocgis_setup cwd conf float rtree cfunits esmf icclim mpi4py prefer nc_par in
  GoodSetup su /\ List.length (su_table su) = 34%nat /\
  (forall p q, In p (su_table su) -> In q (su_computed su) -> ep_name q <> ep_name p) /\
  (forall p, In p (su_table su) -> ep_name p <> "PREFER_NETCDFTIME" -> ep_name p <> "USE_NETCDF4_MPI" -> PlainParameter su p).
Proof.
  cbv zeta. set (su := ocgis_setup _ _ _ _ _ _ _ _ _ _).
  assert (N : map ep_name (su_table su) = map ep_name (su_table (ocgis_setup "" "" (fun _ => Err ValueError) false false false false false false false))) by reflexivity.
  set (names := map ep_name (su_table (ocgis_setup _ _ _ _ _ _ _ _ _ _))) in N.
  assert (A : forallb (fun n => negb (String.eqb n "ops") && negb (String.eqb n "DEFAULT_COORDSYS") && match n with String "_"%char _ => false | _ => true end) names = true) by (vm_compute; reflexivity).
  rewrite forallb_forall in A.
  assert (Hin : forall p, In p (su_table su) -> In (ep_name p) names) by (intros p Hp; rewrite <- N; apply in_map; exact Hp).
  assert (C : forall p q, In p (su_table su) -> In q (su_computed su) -> ep_name q <> ep_name p).
  { intros p q Hp [<-|[]] E. specialize (A _ (Hin p Hp)). rewrite <- E in A. discriminate. }
  split; [|split; [reflexivity|split; [exact C|]]].
  - split.
    + rewrite N. clear. assert (D : forall l : list string, nodup string_dec l = l -> NoDup l) by (intros l <-; apply NoDup_nodup).
      apply D. vm_compute. reflexivity.
    + intros p Hp. specialize (A _ (Hin p Hp)). split; [intros E; rewrite E in A; discriminate|]. intros t E. rewrite E in A. rewrite andb_false_r in A. discriminate.
  - intros p Hp H1 H2. split; [exact Hp|]. split; [intros q Hq; apply C; assumption|]. intros v [E|[E|[]]]; injection E as E _; congruence.
Qed.

Lemma env_case :
  let su := ocgis_setup "/here" "/conf" (fun _ => Err ValueError) false false false false false true false in
  let os name := if String.eqb name "OCGIS_PREFIX" then Some "from_process" else None in
  let h := [ESet "PREFIX" (PStr "a"); EReset os; ESet "DEBUG" (PBool true)] in
  Explicit h "DEBUG" (PBool true) /\ Unset h "PREFIX" /\
  env_get su os (env_run su os h) "DEBUG" = Ok (PBool true) /\
  env_get su os (env_run su os h) "PREFIX" = Ok (PStr "from_process") /\
  env_get su os (env_run su os h) "MODE" = Ok (PStr "raw").
Proof.
  cbv zeta. split; [|split; [|split; [|split]; vm_compute; reflexivity]].
  - eexists [_; _], []. split; [reflexivity|]. split; intros x [].
  - intros h1 h2 v E. destruct h1 as [|a [|b [|c h1]]]; cbn in E; try discriminate.
    + injection E as _ E. subst h2. eexists. left. reflexivity.
    + injection E as _ _ _ E. destruct h1; discriminate.
Qed.

Lemma fixed_parameter : let su := ocgis_setup "/here" "/conf" (fun _ => Err ValueError) false false false false false true false in
  exists p os, In p (su_table su) /\ Unset [] (ep_name p) /\
  env_get su os (env_run su (fun _ => None) []) (ep_name p) = Ok (PBool true) /\ from_process os p = Ok (PBool false).
Proof.
  cbv zeta. exists (mkeparm "PREFER_NETCDFTIME" PNone (Some fmt_bool) use_env), (fun _ => Some "false"). split; [|split; [|split; vm_compute; reflexivity]].
  - apply (nth_error_In _ 29). reflexivity.
  - intros h1 h2 v E. destruct h1; discriminate.
Qed.
