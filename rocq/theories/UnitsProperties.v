(** Conforming units (C101), failures of it (C102), several selections (C103), times (C104),
    what is read of times (C105) and units of requests (C106). *)
From Coq Require Import QArith Qround Lia.
From Verif Require Import Py UnitsModel UnitsSpec UnitsProofs UnitsMore UnitsTime UnitsWitness.
Local Close Scope Q_scope.
Local Open Scope nat_scope.

(** * C101 *)

Lemma same_trans a b c l1 l2 l3 : SameQuantities a b l1 l2 -> SameQuantities b c l2 l3 -> SameQuantities a c l1 l3.
Proof.
  intros H. revert l3. induction H as [|x y l1 l2 X H IH]; intros l3 K; inversion K as [|y' z l2' l3' Y K']; subst; constructor.
  - now rewrite X.
  - now apply IH.
Qed.

Lemma same_sym a b l1 l2 : SameQuantities a b l1 l2 -> SameQuantities b a l2 l1.
Proof. intros H. induction H as [|x y l1 l2 X H IH]; constructor; [now symmetry | exact IH]. Qed.

Lemma same_numbers a l1 l2 : ~ (u_scale a == 0)%Q -> SameQuantities a a l1 l2 -> SameNumbers l1 l2.
Proof. intros N H. induction H as [|x y l1 l2 X H IH]; constructor; [now apply (to_base_inj a) | exact IH]. Qed.

(** Missing: variables for which an integer data type was asked.

    The value and the bounds say the same in the new units as before in the old. *)
Theorem C101_float_partial : forall tbl bk h v to from s su du,
  GoodTable tbl -> GoodBvar h v -> NotInt v -> FromUnits v from s ->
  tbl s = Some su -> tbl to = Some du -> u_dim su = u_dim du ->
  exists h' v', cfunits_conform tbl bk h v to from = (h', v', Ok tt) /\ BothSayTheSame su du to h v h' v'.
Proof.
  intros tbl bk h v to from s su du G Gv N F Es Et D.
  destruct (conform_ok tbl bk h v to from s su du G Gv N F Es Et D) as [h' [v' [E [B _]]]]. eauto.
Qed.
Print Assumptions C101_float_partial.

Example C101_example : GoodTable units_db /\ GoodBvar kelvin_heap kelvin_var /\ NotInt kelvin_var /\ FromUnits kelvin_var None 1 /\
  (exists su du, units_db 1 = Some su /\ units_db 2 = Some du /\ u_dim su = u_dim du) /\
  let '(h', v', r) := cfunits_conform units_db CfUnits kelvin_heap kelvin_var 2 None in
  r = Ok tt /\ map Qred (read h' (v_arr (b_main v'))) = [537 # 20; 557 # 20; 577 # 20]%Q.
Proof.
  split; [exact units_db_good|]. split; [exact kelvin_good|]. split; [exact kelvin_not_int|]. split; [right; split; reflexivity|].
  split; [do 2 eexists; repeat (split; [reflexivity|]); reflexivity|]. vm_compute. split; reflexivity.
Qed.

(** There and back: the numbers are the same as before. *)
Theorem C101_back_partial : forall tbl bk h v to s su du,
  GoodTable tbl -> GoodBvar h v -> NotInt v -> v_units (b_main v) = Some s ->
  tbl s = Some su -> tbl to = Some du -> u_dim su = u_dim du ->
  exists h1 v1 h2 v2, cfunits_conform tbl bk h v to None = (h1, v1, Ok tt) /\ cfunits_conform tbl bk h1 v1 s None = (h2, v2, Ok tt) /\
    SameNumbers (read h (v_arr (b_main v))) (read h2 (v_arr (b_main v2))) /\
    (forall b, b_bounds v = Some b -> exists b2, b_bounds v2 = Some b2 /\ SameNumbers (read h (v_arr b)) (read h2 (v_arr b2))).
Proof.
  intros tbl bk h v to s su du G Gv N U Es Et D.
  destruct (conform_ok tbl bk h v to None s su du G Gv N (or_intror (conj eq_refl U)) Es Et D) as [h1 [v1 [E1 [[M1 B1] [N1 [G1 _]]]]]].
  destruct (conform_ok tbl bk h1 v1 s None to du su G G1 N1 (or_intror (conj eq_refl (proj2 (proj2 M1)))) Et Es (eq_sym D)) as [h2 [v2 [E2 [[M2 B2] _]]]].
  exists h1, v1, h2, v2. split; [exact E1|]. split; [exact E2|]. split.
  - apply (same_numbers su); [exact (G _ _ Es)|]. exact (same_trans _ _ _ _ _ _ (proj1 M1) (proj1 M2)).
  - intros b Eb. rewrite Eb in B1. destruct (b_bounds v1) as [b1|]; [|easy]. destruct (b_bounds v2) as [b2|]; [|easy].
    exists b2. split; [reflexivity|]. apply (same_numbers su); [exact (G _ _ Es)|]. exact (same_trans _ _ _ _ _ _ (proj1 B1) (proj1 B2)).
Qed.
Print Assumptions C101_back_partial.

(** Through other units: the numbers are those of the conversion at once. *)
Theorem C101_via_partial : forall tbl bk h v w to s su du wu,
  GoodTable tbl -> GoodBvar h v -> NotInt v -> v_units (b_main v) = Some s ->
  tbl s = Some su -> tbl w = Some wu -> tbl to = Some du -> u_dim su = u_dim wu -> u_dim su = u_dim du ->
  exists h1 v1 h2 v2 h3 v3, cfunits_conform tbl bk h v w None = (h1, v1, Ok tt) /\ cfunits_conform tbl bk h1 v1 to None = (h2, v2, Ok tt) /\
    cfunits_conform tbl bk h v to None = (h3, v3, Ok tt) /\
    SameNumbers (read h2 (v_arr (b_main v2))) (read h3 (v_arr (b_main v3))).
Proof.
  intros tbl bk h v w to s su du wu G Gv N U Es Ew Et D1 D2.
  destruct (conform_ok tbl bk h v w None s su wu G Gv N (or_intror (conj eq_refl U)) Es Ew D1) as [h1 [v1 [E1 [[M1 B1] [N1 [G1 _]]]]]].
  destruct (conform_ok tbl bk h1 v1 to None w wu du G G1 N1 (or_intror (conj eq_refl (proj2 (proj2 M1)))) Ew Et) as [h2 [v2 [E2 [[M2 B2] _]]]]; [congruence|].
  destruct (conform_ok tbl bk h v to None s su du G Gv N (or_intror (conj eq_refl U)) Es Et D2) as [h3 [v3 [E3 [[M3 B3] _]]]].
  exists h1, v1, h2, v2, h3, v3. repeat (split; [assumption|]). apply (same_numbers du); [exact (G _ _ Et)|].
  apply (same_trans _ su _ _ (read h (v_arr (b_main v)))).
  - apply same_sym. exact (same_trans _ _ _ _ _ _ (proj1 M1) (proj1 M2)).
  - exact (proj1 M3).
Qed.
Print Assumptions C101_via_partial.

Example C101_via_example : GoodBvar kelvin_heap kelvin_var /\ NotInt kelvin_var /\ v_units (b_main kelvin_var) = Some 1%Z /\
  units_db 1 <> None /\ units_db 2 <> None.
Proof. split; [exact kelvin_good|]. split; [exact kelvin_not_int|]. repeat (split; [easy|]). easy. Qed.

(** With an integer data type the fractions of the right numbers are dropped, and the
    units attribute tells the new units all the same. *)
Theorem C101_int_refuted : forall tbl h v to from s su du,
  GoodTable tbl -> InMemory h (v_arr (b_main v)) -> b_bounds v = None -> v_dt (b_main v) = DInt -> FromUnits v from s ->
  tbl s = Some su -> tbl to = Some du -> u_dim su = u_dim du -> cfu_eqb su du = false ->
  exists h' v' l, cfunits_conform tbl CfUnits h v to from = (h', v', Ok tt) /\
    SameQuantities su du (read h (v_arr (b_main v))) l /\ read h' (v_arr (b_main v')) = map qtrunc l /\ v_units (b_main v') = Some to.
Proof. exact @conform_int. Qed.
Print Assumptions C101_int_refuted.

Example C101_int_example : InMemory int_heap (v_arr (b_main int_var)) /\ FromUnits int_var None 1 /\
  (exists su du, units_db 1 = Some su /\ units_db 2 = Some du /\ u_dim su = u_dim du /\ cfu_eqb su du = false) /\
  let '(h', v', r) := cfunits_conform units_db CfUnits int_heap int_var 2 None in
  r = Ok tt /\ map Qred (read h' (v_arr (b_main v'))) = [26; 27]%Q.
Proof.
  split; [apply in_memory_dec; [cbn; lia | nodup | cbn; intuition lia]|]. split; [right; split; reflexivity|].
  split; [do 2 eexists; repeat (split; [reflexivity|]); reflexivity|]. vm_compute. split; reflexivity.
Qed.

(** * C102 *)

(** The variable has other units afterwards although its numbers were not converted,
    whenever the units asked for are unknown or of another kind. *)
Theorem C102_refuted : forall tbl bk h v to from s su,
  FromUnits v from s -> tbl s = Some su -> (forall du, tbl to = Some du -> u_dim su <> u_dim du) -> v_units (b_main v) <> Some to ->
  exists v', cfunits_conform tbl bk h v to from = (h, v', Err ValueError) /\
    v_units (b_main v') = Some to /\ v_units (b_main v') <> v_units (b_main v) /\ v_arr (b_main v') = v_arr (b_main v).
Proof.
  intros tbl bk h v to from s su F Es H N. exists (set_units v to).
  split; [apply (conform_not_convertible tbl bk h v to from s F); eauto|]. split; [reflexivity|]. split; [cbn; congruence | reflexivity].
Qed.
Print Assumptions C102_refuted.

Example C102_example : FromUnits kelvin_var None 1 /\ (exists su, units_db 1 = Some su /\ forall du, units_db 3 = Some du -> u_dim su <> u_dim du) /\
  v_units (b_main kelvin_var) <> Some 3%Z.
Proof.
  split; [right; split; reflexivity|]. split; [|discriminate]. eexists. split; [reflexivity|]. intros du X. injection X as <-. discriminate.
Qed.

(** Without units, and with units of the variable that are unknown, nothing changes. *)
Theorem C102_no_source_partial : forall tbl bk h v to,
  (v_units (b_main v) = None -> cfunits_conform tbl bk h v to None = (h, v, Err NoUnitsError)) /\
  (forall s, v_units (b_main v) = Some s -> tbl s = None -> cfunits_conform tbl bk h v to None = (h, v, Err ValueError)).
Proof.
  intros tbl bk h v to. split; intros; apply conform_no_source; unfold source_units; [now rewrite H | now rewrite H, H0].
Qed.
Print Assumptions C102_no_source_partial.

(** Missing: the units attribute.  A call that raises an exception, whatever it is, leaves the
    memory and the arrays, masks and data types of value and bounds as they were: the value
    is never converted without the bounds. *)
Theorem C102_values_partial : forall tbl bk h v to from h' v' e,
  cfunits_conform tbl bk h v to from = (h', v', Err e) ->
  h' = h /\ v_arr (b_main v') = v_arr (b_main v) /\ v_mask (b_main v') = v_mask (b_main v) /\ v_dt (b_main v') = v_dt (b_main v) /\
  match b_bounds v, b_bounds v' with
  | None, None => True
  | Some b, Some b' => v_arr b' = v_arr b /\ v_mask b' = v_mask b /\ v_dt b' = v_dt b
  | _, _ => False
  end.
Proof.
  intros tbl bk h v to from h' v' e E. destruct (conform_err tbl _ _ _ _ _ _ _ _ E) as [-> [-> | ->]].
  - destruct (b_bounds v); auto 10.
  - cbn. destruct (b_bounds v); auto 10.
Qed.
Print Assumptions C102_values_partial.

Example C102_values_example : exists v', cfunits_conform units_db CfUnits kelvin_heap kelvin_var 3 None = (kelvin_heap, v', Err ValueError).
Proof. eexists. reflexivity. Qed.

(** * C103 *)

(** Missing: the package [cfunits].  With [cf_units] the variables may share memory in any
    way: each of them says the same as before. *)
Theorem C103_shared_partial : forall tbl h vs to, GoodTable tbl ->
  (forall v, In v vs -> GoodBvar h v /\ NotInt v /\ CanConform tbl to v) ->
  exists h' vs', conform_all tbl CfUnits h vs to = (h', vs', Ok tt) /\ Forall2 (fun v v' => Converted tbl to h v h' v') vs vs'.
Proof. intros tbl h vs to. exact (all_ok_cf tbl vs h to). Qed.
Print Assumptions C103_shared_partial.

(** And no array that was in memory before changes, also if there is an exception: not those
    of the field the selections were taken from. *)
Theorem C103_source_partial : forall tbl h vs to a, InMemory h a ->
  read (fst (fst (conform_all tbl CfUnits h vs to))) a = read h a.
Proof. intros tbl h vs to a M. destruct (all_cf tbl vs h to) as [l ->]. now apply grows_read. Qed.
Print Assumptions C103_source_partial.

(** With either package, for selections without common elements; and arrays apart from
    them stay as they are. *)
Theorem C103_apart_partial : forall tbl bk h vs to, GoodTable tbl -> AllApart vs ->
  (forall v, In v vs -> GoodBvar h v /\ NotInt v /\ CanConform tbl to v) ->
  exists h' vs', conform_all tbl bk h vs to = (h', vs', Ok tt) /\ Forall2 (fun v v' => Converted tbl to h v h' v') vs vs' /\
    forall c, InMemory h c -> (forall v a, In v vs -> In a (arrays_of v) -> Apart a c) -> read h' c = read h c.
Proof.
  intros tbl bk h vs to G A H. destruct (all_ok tbl bk vs h to G A H) as [h' [vs' [E [F [_ P]]]]]. eauto.
Qed.
Print Assumptions C103_apart_partial.

Example C103_example :
  (forall v, In v [sel [0; 1]; sel [1; 2]] -> GoodBvar kelvin_heap v /\ NotInt v /\ CanConform units_db 2 v) /\
  numbers (conform_all units_db CfUnits kelvin_heap [sel [0; 1]; sel [1; 2]] 2) = Some [[537 # 20; 557 # 20]; [557 # 20; 577 # 20]]%Q.
Proof.
  split; [|vm_compute; reflexivity]. intros v [<-|[<-|[]]]; (apply sel_ok; [nodup | cbn; intuition lia]).
Qed.

Example C103_apart_example : AllApart [sel [0; 1]; sel [2]] /\
  (forall v, In v [sel [0; 1]; sel [2]] -> GoodBvar kelvin_heap v /\ NotInt v /\ CanConform units_db 2 v).
Proof.
  split.
  - cbn. split; [|split; [intros; contradiction|exact I]]. intros w a b [<-|[]] [<-|[]] [<-|[]]. right. cbn. intuition lia.
  - intros v [<-|[<-|[]]]; (apply sel_ok; [nodup | cbn; intuition lia]).
Qed.

(** With [cfunits] a common element is converted twice, in both selections. *)
Theorem C103_refuted :
  (forall v, In v [sel [0; 1]; sel [1; 2]] -> GoodBvar kelvin_heap v /\ NotInt v /\ CanConform units_db 2 v) /\
  numbers (conform_all units_db Cfunits kelvin_heap [sel [0; 1]; sel [1; 2]] 2) = Some [[537 # 20; -2453 # 10]; [-2453 # 10; 577 # 20]]%Q.
Proof.
  split; [|vm_compute; reflexivity]. intros v [<-|[<-|[]]]; (apply sel_ok; [nodup | cbn; intuition lia]).
Qed.
Print Assumptions C103_refuted.

(** * C104 *)

(** Missing: bounds that are dates whose numbers were not read before.

    The instants of times and bounds are those of before; the masks too. *)
Theorem C104_instants_partial : forall tbl D v b to,
  GoodTable tbl -> FreshTime tbl D v -> FreshTime tbl D b -> t_units b = t_units v -> AllNum (t_val b) ->
  (exists d, tbl to = Some d /\ u_dim d = D) ->
  exists v' b' u d, tb_conform tbl v b to = (v', b', Ok tt) /\ tbl (t_units v) = Some u /\ tbl to = Some d /\
    t_units v' = to /\ t_units b' = to /\ t_mask v' = t_mask v /\ t_mask b' = t_mask b /\
    Forall2 Qeq (instants d (t_val v')) (instants u (t_val v)) /\ Forall2 Qeq (instants d (t_val b')) (instants u (t_val b)).
Proof.
  intros tbl D v b to G Fv Fb E A H. destruct (fresh_inv tbl D v Fv) as [Iv _]. destruct (fresh_inv tbl D b Fb) as [Ib _].
  exact (tb_conform_ok tbl D _ _ v b to G Iv Ib E (or_introl A) H).
Qed.
Print Assumptions C104_instants_partial.

(** The same for any bounds after their numbers have been read. *)
Theorem C104_read_partial : forall tbl D v b to,
  GoodTable tbl -> FreshTime tbl D v -> FreshTime tbl D b -> t_units b = t_units v ->
  (exists d, tbl to = Some d /\ u_dim d = D) ->
  exists v' b' u d, tb_conform tbl v (t_step tbl b ReadNum) to = (v', b', Ok tt) /\ tbl (t_units v) = Some u /\ tbl to = Some d /\
    t_units v' = to /\ t_units b' = to /\ t_mask v' = t_mask v /\ t_mask b' = t_mask b /\
    Forall2 Qeq (instants d (t_val v')) (instants u (t_val v)) /\ Forall2 Qeq (instants d (t_val b')) (instants u (t_val b)).
Proof.
  intros tbl D v b to G Fv Fb E H. destruct (fresh_inv tbl D v Fv) as [Iv _]. destruct (fresh_inv tbl D b Fb) as [Ib Ub].
  destruct (run_inv tbl D [ReadNum] b _ false G Ib (fun _ => Ub) I) as [k Ib1]. unfold t_run in Ib1. cbn [fold_left] in Ib1.
  destruct (numtime_ok tbl D _ b G Ib) as [b1 [l [Eb [Nb [Vb [Uu [Mb _]]]]]]]. cbn [t_step] in Ib1 |- *. rewrite Eb in Ib1 |- *. cbn [fst] in Ib1 |- *.
  rewrite <- Vb, <- Mb. apply (tb_conform_ok tbl D _ k v b1 to G Iv Ib1); [congruence | right; congruence | exact H].
Qed.
Print Assumptions C104_read_partial.

(** Bounds that are dates: afterwards they stand for the instants that the number of the date
    in the new units has in the old units. *)
Theorem C104_dates_refuted : forall tbl D v b to u d,
  GoodTable tbl -> FreshTime tbl D v -> AllDat (t_val b) -> t_val b <> [] -> t_num b = None ->
  tbl (t_units v) = Some u -> tbl to = Some d -> u_dim d = D ->
  exists v' b', tb_conform tbl v b to = (v', b', Ok tt) /\
    Forall2 Qeq (instants d (t_val b')) (map (fun s => to_base u (of_base d s)) (map raw (t_val b))).
Proof. intros tbl D v b to u d G Fv. destruct (fresh_inv tbl D v Fv) as [Iv _]. exact (tb_conform_dates tbl D _ v b to u d G Iv). Qed.
Print Assumptions C104_dates_refuted.

(** The bounds of the days 0 and 1 end up ten days earlier as dates, and stay as numbers. *)
Example C104_example : FreshTime units_db 2 two_days /\ FreshTime units_db 2 day_bounds /\ AllNum (t_val day_bounds) /\
  bound_dates (tb_conform units_db two_days day_bounds 5) = Some [0; 86400; 86400; 172800]%Q /\
  AllDat (t_val day_bounds_dates) /\
  bound_dates (tb_conform units_db two_days day_bounds_dates 5) = Some [-864000 # 1; -777600 # 1; -777600 # 1; -691200 # 1]%Q.
Proof.
  split; [exact two_days_fresh|]. split; [exact day_bounds_fresh|]. split; [intros x [<-|[<-|[<-|[<-|[]]]]]; eauto|].
  split; [vm_compute; reflexivity|]. split; [intros x [<-|[<-|[<-|[<-|[]]]]]; eauto|]. vm_compute. reflexivity.
Qed.

(** * C105 *)

(** Missing: histories in which units, value or mask are set after something was read.

    At the end of the history the numbers and dates read are those of the value, in the units
    of the variable, masked as the variable is. *)
Theorem C105_orderly_partial : forall tbl D v os,
  GoodTable tbl -> FreshTime tbl D v -> Orderly tbl D false (length (t_val v)) os ->
  exists u ln ld, tbl (t_units (t_run tbl v os)) = Some u /\
    snd (value_numtime tbl (t_run tbl v os)) = Ok (ln, t_mask (t_run tbl v os)) /\ Forall2 (number_of u) (t_val (t_run tbl v os)) ln /\
    snd (value_datetime tbl (t_run tbl v os)) = Ok (ld, t_mask (t_run tbl v os)) /\ Forall2 (date_of u) (t_val (t_run tbl v os)) ld.
Proof.
  intros tbl D v os G F O. destruct (fresh_inv tbl D v F) as [Iv Uv].
  destruct (run_inv tbl D os v _ false G Iv (fun _ => Uv) O) as [n In_].
  destruct (numtime_ok tbl D n _ G In_) as [v1 [l1 [E1 [_ [_ [_ [_ [_ [u1 [U1 F1]]]]]]]]]].
  destruct (datetime_ok tbl D n _ In_) as [v2 [l2 [E2 [_ [_ [_ [_ [_ [u2 [U2 F2]]]]]]]]]].
  rewrite U1 in U2. injection U2 as <-. exists u1, l1, l2. rewrite E1, E2. auto.
Qed.
Print Assumptions C105_orderly_partial.

Example C105_example : FreshTime units_db 2 two_days /\ Orderly units_db 2 false (length (t_val two_days)) orderly_history.
Proof. split; [exact two_days_fresh | exact orderly_ok]. Qed.

(** A conversion in an orderly history keeps all instants and the mask. *)
Theorem C105_conform_partial : forall tbl D v os to,
  GoodTable tbl -> FreshTime tbl D v -> Orderly tbl D false (length (t_val v)) os -> (exists d, tbl to = Some d /\ u_dim d = D) ->
  let w := t_run tbl v os in
  exists w' u d, t_conform tbl w to = (w', Ok tt) /\ t_units w' = to /\ t_mask w' = t_mask w /\
    tbl (t_units w) = Some u /\ tbl to = Some d /\ Forall2 Qeq (instants d (t_val w')) (instants u (t_val w)).
Proof.
  intros tbl D v os to G F O H w. destruct (fresh_inv tbl D v F) as [Iv Uv].
  destruct (run_inv tbl D os v _ false G Iv (fun _ => Uv) O) as [n In_].
  destruct (t_conform_ok tbl D n _ to G In_ H) as [w' [E [E1 [E2 [_ [_ [u [d [U [T X]]]]]]]]]]. exists w', u, d. auto 10.
Qed.
Print Assumptions C105_conform_partial.

(** What was read once is read again, whatever units, value and mask are set in between. *)
Theorem C105_stale_refuted : forall tbl v v1 v2 rn rd os, Forall plain os ->
  (value_numtime tbl v = (v1, Ok rn) -> snd (value_numtime tbl (t_run tbl v1 os)) = Ok rn) /\
  (value_datetime tbl v = (v2, Ok rd) -> snd (value_datetime tbl (t_run tbl v2 os)) = Ok rd).
Proof.
  intros tbl v v1 v2 rn rd os P. split; intros E.
  - unfold value_numtime. now rewrite (plain_run tbl os v1 rn P (numtime_caches tbl _ _ _ E)).
  - unfold value_datetime. now rewrite (plain_run_dat tbl os v2 rd P (datetime_caches tbl _ _ _ E)).
Qed.
Print Assumptions C105_stale_refuted.

(** A value set after a read of the numbers is lost by a conversion: the result is the
    conversion of what was read. *)
Theorem C105_lost_refuted : forall tbl v v1 l m new to w, value_numtime tbl v = (v1, Ok (l, m)) ->
  t_conform tbl (t_set_value v1 new) to = (w, Ok tt) ->
  exists u d, tbl (t_units v) = Some u /\ tbl to = Some d /\ t_val w = map Num (map (lib_convert u d) l).
Proof.
  intros tbl v v1 l m new to w E. assert (U : t_units v1 = t_units v).
  { unfold value_numtime in E. destruct (t_num v) eqn:En; [now injection E as <- _|]. destruct (t_val v); [discriminate|].
    destruct (is_dates _); [destruct (get_numtime tbl (t_units v) _); [|discriminate]|]; now injection E as <- _. }
  unfold t_conform, t_conform_from. cbn [t_set_value t_units]. rewrite U. destruct (tbl (t_units v)) as [u|] eqn:Eu; [|discriminate].
  unfold value_numtime. cbn [t_set_value t_num]. rewrite (numtime_caches tbl _ _ _ E). unfold convert_list. rewrite Eu.
  destruct (tbl to) as [d|]; [|discriminate]. destruct (convertible u d); [|discriminate]. intros X. injection X as <-.
  exists u, d. auto.
Qed.
Print Assumptions C105_lost_refuted.

Example C105_stale_example :
  snd (value_numtime units_db (t_run units_db two_days [ReadNum; SetValue [Num 7; Num 8]%Q; SetUnits 6; SetMask [true; true]])) =
    Ok ([0; 1]%Q, [false; false]) /\
  snd (value_numtime units_db (t_run units_db two_days [SetValue [Num 7; Num 8]%Q; SetUnits 6; SetMask [true; true]])) = Ok ([7; 8]%Q, [true; true]).
Proof. split; vm_compute; reflexivity. Qed.

(** * C106 *)

(** Missing: units objects, unknown units, integers.

    Units given for all variables, then units to conform to that are of the same kinds: the
    request is accepted, whether or not the units package is in use; each variable loaded
    says in the units to conform to what its numbers say in the units given. *)
Theorem C106_load_partial : forall tbl use vs units conform lu lc,
  GoodTable tbl -> given units lu -> given conform lc -> length lu = length vs ->
  Forall2 (fun u c => exists s d su du, u = Some (s, false) /\ c = Some (d, false) /\ tbl s = Some su /\ tbl d = Some du /\ u_dim su = u_dim du) lu lc ->
  exists vs', request tbl use vs units conform = Ok vs' /\ map r_name vs' = map r_name vs /\
    forall i r' s d su du, nth_error vs' i = Some r' -> nth_error lu i = Some (Some (s, false)) -> nth_error lc i = Some (Some (d, false)) ->
      tbl s = Some su -> tbl d = Some du ->
      forall bk h dt a m, InMemory h a -> dt <> DInt ->
      exists h' v', load tbl bk h r' dt a m = (h', v', Ok tt) /\ SameQuantities su du (read h a) (read h' (v_arr (b_main v'))) /\
        v_mask (b_main v') = m /\ v_units (b_main v') = Some d.
Proof.
  intros tbl use vs units conform lu lc G Gu Gc Lu F.
  destruct (set_units_ok tbl use vs units lu Gu Lu) as [vs1 [E1 F1]].
  { intros y Y. clear - F Y. induction F as [|u c lu lc X F IH]; [easy|]. destruct Y as [<-|Y]; [|now apply IH].
    destruct X as [s [d [su [du [-> [_ [Es _]]]]]]]. exists s, false. split; [reflexivity|congruence]. }
  assert (As : Forall2 (AskedFor tbl) vs1 lc).
  { clear - F F1 Lu. revert vs vs1 Lu F1. induction F as [|u c lu lc X F IH]; intros vs vs1 Lu F1.
    - destruct vs; [|discriminate]. inversion F1. constructor.
    - destruct vs as [|v vs]; [discriminate|]. cbn [combine] in F1. inversion F1 as [|p r' l l' R F1']; subst. constructor.
      + destruct X as [s [d [su [du [-> [-> [Es [Ed D]]]]]]]]. destruct R as [_ [R _]]. exists s, d, su, du. cbn in R. auto.
      + apply (IH vs); [now injection Lu | exact F1']. }
  destruct (set_conform_ok tbl use vs1 conform lc Gc As) as [vs2 [E2 F2]].
  exists vs2. unfold request. rewrite E1. cbn [bind]. split; [exact E2|].
  assert (Lc : length lc = length vs1) by (clear - As; induction As; cbn; congruence).
  split.
  - transitivity (map r_name vs1).
    + clear - F2 Lc. revert vs1 vs2 Lc F2. induction lc as [|c lc IH]; intros vs1 vs2 Lc F2; destruct vs1 as [|v vs1]; try discriminate.
      * inversion F2. reflexivity.
      * cbn [combine] in F2. inversion F2 as [|p r' l l' R F2']; subst. cbn [map]. f_equal; [apply R|]. apply IH; [now injection Lc | exact F2'].
    + clear - F1 Lu. revert vs vs1 Lu F1. induction lu as [|u lu IH]; intros vs vs1 Lu F1; destruct vs as [|v vs]; try discriminate.
      * inversion F1. reflexivity.
      * cbn [combine] in F1. inversion F1 as [|p r' l l' R F1']; subst. cbn [map]. f_equal; [apply R|]. apply IH; [now injection Lu | exact F1'].
  - intros i r' s d su du Hr Hu Hc Es Ed bk h dt a m M N.
    assert (R : r_units r' = Some (s, false) /\ r_conform r' = Some (d, false)).
    { clear - F1 F2 Lu Lc Hr Hu Hc. revert vs vs1 vs2 lu lc Lu Lc F1 F2 Hr Hu Hc.
      induction i as [|i IH]; intros vs vs1 vs2 lu lc Lu Lc F1 F2 Hr Hu Hc;
        (destruct lu as [|u lu]; [discriminate|]); (destruct lc as [|c lc]; [discriminate|]);
        (destruct vs as [|v vs]; [discriminate|]); (destruct vs1 as [|v1 vs1]; [discriminate|]);
        cbn [combine] in F1, F2; inversion F1 as [|p1 q1 l1 l1' R1 F1']; subst; inversion F2 as [|p2 q2 l2 l2' R2 F2']; subst; cbn [nth_error] in *.
      - injection Hr as <-. injection Hu as ->. injection Hc as ->. cbn in R1, R2. destruct R1 as [_ [R1 _]], R2 as [_ [R2 R3]]. split; congruence.
      - apply (IH vs vs1 l2' lu lc); auto. }
    destruct R as [R1 R2].
    assert (D : u_dim su = u_dim du).
    { clear - F Hu Hc Es Ed. revert lu lc F Hu Hc. induction i as [|i IH]; intros lu lc F Hu Hc; destruct F as [|u c lu lc X F]; try discriminate; cbn [nth_error] in *.
      - injection Hu as ->. injection Hc as ->. destruct X as [s' [d' [su' [du' [X1 [X2 [X3 [X4 X5]]]]]]]]. injection X1 as <-. injection X2 as <-. congruence.
      - now apply (IH lu lc). }
    exact (load_ok tbl bk h r' dt a m s d su du G M N R1 R2 Es Ed D).
Qed.
Print Assumptions C106_load_partial.

Example C106_example : given (USeq [Some (2%Z, false); Some (3%Z, false)]) [Some (2%Z, false); Some (3%Z, false)] /\
  Forall2 (fun u c => exists s d su du, u = Some (s, false) /\ c = Some (d, false) /\ units_db s = Some su /\ units_db d = Some du /\ u_dim su = u_dim du)
    [Some (2%Z, false); Some (3%Z, false)] [Some (1%Z, false); Some (3%Z, false)] /\
  is_ok (request units_db true two_vars (USeq [Some (2%Z, false); Some (3%Z, false)]) (USeq [Some (1%Z, false); Some (3%Z, false)])) = true.
Proof.
  split; [reflexivity|]. split; [|vm_compute; reflexivity].
  constructor; [|constructor; [|constructor]]; do 4 eexists; repeat (split; [reflexivity|]); reflexivity.
Qed.

(** Without units to conform to, the numbers are loaded as they are, in the units given. *)
Theorem C106_plain : forall tbl bk h r dt a m, r_conform r = None ->
  exists v', load tbl bk h r dt a m = (h, v', Ok tt) /\ v_arr (b_main v') = a /\ v_mask (b_main v') = m /\
    v_units (b_main v') = option_map fst (r_units r).
Proof. intros tbl bk h r dt a m E. unfold load. rewrite E. eexists. split; [reflexivity|]. cbn. auto. Qed.
Print Assumptions C106_plain.

(** Too many or too few units, and units of another kind, are refused. *)
Theorem C106_refused : forall tbl use vs,
  (forall l : list uval, length l <> length vs -> set_request_units tbl use vs (USeq l) = Err RequestValidationError /\
     set_request_conform tbl use vs (USeq l) = Err RequestValidationError) /\
  (forall (l : list uval) i s d su du, length l = length vs -> nth_error (map r_units vs) i = Some (Some (s, false)) -> nth_error l i = Some (Some (d, false)) ->
     tbl s = Some su -> tbl d = Some du -> u_dim su <> u_dim du ->
     (forall x, In x (map r_units vs) \/ In x l -> exists k, x = Some (k, false) /\ tbl k <> None) ->
     set_request_conform tbl use vs (USeq l) = Err RequestValidationError).
Proof.
  intros tbl use vs. split; [intros l N; split; [now apply units_length | now apply conform_length]|].
  intros l i s d su du Len Hu Hl Es Ed D K. unfold set_request_conform. cbn [get_tuple_uarg bind]. rewrite Len, Nat.eqb_refl. cbn [negb].
  assert (V : validate_units tbl l = Ok tt).
  { apply validate_units_ok. intros x X. destruct (K x (or_intror X)) as [k [-> N]]. eauto. }
  assert (U : units_tuple vs = Ok (map r_units vs)).
  { unfold units_tuple. destruct (map r_units vs) as [|x t]; [reflexivity|]. destruct (K x (or_introl (or_introl eq_refl))) as [k [-> _]]. destruct t; reflexivity. }
  assert (B : validate_unit_equivalence tbl (map r_units vs) l = Err RequestValidationError).
  { apply (equiv_bad tbl _ _ i s d su du false false Hu Hl Es Ed D). intros x X. destruct (K x X) as [k [-> N]]. exact N. }
  rewrite U. destruct use; [rewrite V|]; cbn [bind]; rewrite B; reflexivity.
Qed.
Print Assumptions C106_refused.

Example C106_refused_example : set_request_conform units_db true two_vars (USeq [Some (2%Z, false); Some (1%Z, false)]) = Err RequestValidationError.
Proof. reflexivity. Qed.

(** Unknown units are not refused as a request, but raise AttributeError. *)
Theorem C106_message_refuted : forall tbl vs (l : list uval) k, length l = length vs -> In (Some (k, false)) l -> tbl k = None ->
  set_request_units tbl true vs (USeq l) = Err AttributeError /\ set_request_conform tbl true vs (USeq l) = Err AttributeError.
Proof.
  intros tbl vs l k Len I N. assert (V : validate_units tbl l = Err AttributeError) by (eapply validate_units_bad; eauto).
  apply Nat.eqb_eq in Len. unfold set_request_units, set_request_conform. cbn [get_tuple_uarg bind]. rewrite Len, V. split; reflexivity.
Qed.
Print Assumptions C106_message_refuted.

(** A single units object is not accepted, neither alone nor, for the units of the source, in
    a sequence. *)
Theorem C106_object_refuted : forall tbl use v k, 
  set_request_conform tbl use [v] (UOne k true) = Err TypeError /\ set_request_units tbl use [v] (UOne k true) = Err TypeError /\
  (tbl k <> None -> forall c b, tbl c <> None -> request tbl use [v] (USeq [Some (k, true)]) (USeq [Some (c, b)]) = Err TypeError).
Proof.
  intros tbl use v k. split; [reflexivity|]. split; [reflexivity|]. intros N c b Nc. unfold request, set_request_units. cbn [get_tuple_uarg bind length Nat.eqb negb].
  assert (V : validate_units tbl [Some (k, true)] = Ok tt) by (apply validate_units_ok; intros x [<-|[]]; eauto).
  assert (W : validate_units tbl [Some (c, b)] = Ok tt) by (apply validate_units_ok; intros x [<-|[]]; eauto).
  rewrite V. assert (Z : (if use then Ok tt else Ok tt : res unit) = Ok tt) by (now destruct use). rewrite Z. cbn [bind combine map].
  unfold set_request_conform. cbn [get_tuple_uarg bind length Nat.eqb negb fst snd]. rewrite W, Z. reflexivity.
Qed.
Print Assumptions C106_object_refuted.

Example C106_object_example : units_db 1 <> None /\ units_db 2 <> None /\
  request units_db true (firstn 1 two_vars) (USeq [Some (1%Z, false)]) (USeq [Some (2%Z, true)]) <> Err TypeError.
Proof. repeat split; vm_compute; discriminate. Qed.
