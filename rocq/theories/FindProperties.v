From Verif Require Import Py Lib FindModel FindSpec FindProofs.
From Coq Require Import String Lia.
Local Open Scope string_scope.
Local Notation length := List.length.
Local Open Scope nat_scope.

(** ** C161: searching a collection *)

(** With a key: the variables that match, each once, in the order of the collection. *)
Theorem C161_key_partial : forall k value pred vars,
  (forall v, In v vars -> NoDup (map fst (sv_attrs v))) -> value <> None \/ pred <> None ->
  exists found, find_by_attribute (Some k) value pred vars = Ok found /\ Subsequence found vars /\
    (NoDup vars -> NoDup found) /\
    forall v, In v found <-> In v vars /\ Matches (Some k) value pred v.
Proof.
  intros k value pred vars Hd Ha. eexists. split; [apply find_key; exact Ha|]. split; [apply filter_sub|]. split; [apply NoDup_filter|].
  intros v. rewrite filter_In. split; intros [H1 H2]; (split; [exact H1|]).
  - destruct (dget String.eqb (sv_attrs v) k) as [x|] eqn:E; [|discriminate]. exists k, x. split; [apply (dget_in _ String.eqb_spec); exact E|].
    split; [intros k' [= <-]; reflexivity|]. apply fits_iff. exact H2.
  - destruct H2 as [k' [x [I1 [K F]]]]. rewrite <- (K k eq_refl). rewrite (in_dget _ String.eqb_spec _ _ _ (Hd v H1) I1). apply fits_iff. exact F.
Qed.
Print Assumptions C161_key_partial.

(** Without a key: the variables that match, and each as often as it has attributes that match. *)
Theorem C161_any_partial : forall value pred vars, value <> None \/ pred <> None ->
  exists found, find_by_attribute None value pred vars = Ok found /\
    (forall v, In v found <-> In v vars /\ Matches None value pred v) /\
    found = flat_map (fun v => repeat v (hits value pred v)) vars.
Proof.
  intros value pred vars Ha. eexists. split; [apply find_any; exact Ha|]. split; [|reflexivity].
  intros v. rewrite in_flat_map. split.
  - intros [w [H1 H2]]. apply repeat_spec in H2 as E. subst w. split; [exact H1|]. apply hits_pos. destruct (hits value pred v); [contradiction|lia].
  - intros [H1 H2]. exists v. split; [exact H1|]. apply hits_pos in H2. destruct (hits value pred v); [lia|]. left. reflexivity.
Qed.
Print Assumptions C161_any_partial.

Definition example_vars : list svar :=
  [mksvar "tas" ["time"; "y"; "x"] [("units", "K"); ("axis", "T")]; mksvar "time" ["time"] [("axis", "T"); ("long_name", "T")]; mksvar "crs" [] []].
Example C161_key_case : find_by_attribute (Some "axis") (Some "T") None example_vars = Ok (firstn 2 example_vars).
Proof. reflexivity. Qed.

(** A variable of which two attributes match is found twice. *)
Theorem C161_twice_refuted : forall value pred v, value <> None \/ pred <> None -> 2 <= hits value pred v ->
  exists found, find_by_attribute None value pred [v] = Ok found /\ ~ NoDup found.
Proof.
  intros value pred v Ha H. eexists. split; [apply find_any; exact Ha|]. cbn [flat_map]. rewrite app_nil_r.
  destruct (hits value pred v) as [|[|n]]; [lia|lia|]. cbn [repeat]. intros N. inversion N as [|? ? C _]. apply C. left. reflexivity.
Qed.
Print Assumptions C161_twice_refuted.
Example C161_twice_case : hits (Some "T") None (mksvar "time" ["time"] [("axis", "T"); ("long_name", "T")]) = 2.
Proof. reflexivity. Qed.

(** Neither a value nor a predicate, which is to be refused, passes when no variable has the
    attribute. *)
Theorem C161_nothing_refuted : forall k vars, (forall v, In v vars -> ~ In k (map fst (sv_attrs v))) ->
  find_by_attribute (Some k) None None vars = Ok [].
Proof.
  intros k vars. induction vars as [|v t IH]; intros H; [reflexivity|]. cbn [find_by_attribute find_in_variable].
  rewrite (proj2 (dget_none _ String.eqb_spec _ _) (H v (or_introl eq_refl))). cbn [bind]. rewrite IH; [reflexivity|].
  intros w Hw. apply H. right. exact Hw.
Qed.
Print Assumptions C161_nothing_refuted.
Theorem C161_nothing_partial : forall k vars v, In v vars -> In k (map fst (sv_attrs v)) ->
  find_by_attribute (Some k) None None vars = Err ValueError.
Proof.
  intros k vars v Hv Hk. induction vars as [|w t IH]; [contradiction|]. cbn [find_by_attribute find_in_variable].
  destruct (dget String.eqb (sv_attrs w) k) as [x|] eqn:E; [reflexivity|]. cbn [bind].
  destruct Hv as [->|Hv]; [apply (dget_none _ String.eqb_spec) in E; contradiction|]. rewrite (IH Hv). reflexivity.
Qed.
Print Assumptions C161_nothing_partial.
Example C161_nothing_case : find_by_attribute (Some "calendar") None None example_vars = Ok [] /\
  find_by_attribute (Some "units") None None example_vars = Err ValueError.
Proof. split; reflexivity. Qed.

(** By dimensions: the variables that have all of them, each once, in the order of the collection. *)
Theorem C161_dimensions_partial : forall names vars, NoDup names ->
  Subsequence (iter_variables_by_dimensions names vars) vars /\
  forall v, In v (iter_variables_by_dimensions names vars) <-> In v vars /\ incl names (sv_dims v).
Proof.
  intros names vars H. split; [apply filter_sub|]. intros v. unfold iter_variables_by_dimensions. rewrite filter_In, Nat.eqb_eq, common_full by exact H. reflexivity.
Qed.
Print Assumptions C161_dimensions_partial.
Example C161_dimensions_case : iter_variables_by_dimensions ["x"; "time"] example_vars = firstn 1 example_vars.
Proof. reflexivity. Qed.

(** A name given twice finds nothing. *)
Theorem C161_dimensions_refuted : forall names vars, ~ NoDup names -> iter_variables_by_dimensions names vars = [].
Proof.
  intros names vars H. unfold iter_variables_by_dimensions. induction vars as [|v t IH]; [reflexivity|]. cbn [filter].
  destruct (Nat.eqb_spec (length (common (sv_dims v) names)) (length names)) as [E|_]; [|exact IH].
  exfalso. exact (common_repeated _ _ H E).
Qed.
Print Assumptions C161_dimensions_refuted.
Example C161_dimensions_refuted_case : iter_variables_by_dimensions ["x"; "x"] example_vars = [].
Proof. reflexivity. Qed.

(** ** C162: the type of a geometry variable *)

(** The type is that of one of the geometries, a multi type when one of them is, and their common
    kind when they have one. *)
Theorem C162_type_partial : forall l, HasGeometry l ->
  exists k, get_geom_type l = Ok k /\ In (Some k) l /\
    (gk_multi k = true <-> exists j, In (Some j) l /\ gk_multi j = true) /\
    (forall b, (forall j, In (Some j) l -> gk_base j = b) -> gk_base k = b).
Proof.
  intros l H. destruct (scan_some l H) as [k Hk]. exists k. unfold get_geom_type. rewrite Hk.
  assert (In (Some k) l) as I1 by (destruct (scan_in l None k (Hk None)) as [E|I1]; [discriminate|exact I1]).
  split; [reflexivity|]. split; [exact I1|]. split; [|intros b Hb; apply Hb; exact I1]. split.
  - intros M. exists k. auto.
  - intros [j [J M]]. destruct (scan_has_multi l None j J M) as [k' [E M']]. rewrite Hk in E. injection E as <-. exact M'.
Qed.
Print Assumptions C162_type_partial.
Theorem C162_none : forall l, ~ HasGeometry l -> get_geom_type l = Err AssertionError.
Proof.
  intros l H. unfold get_geom_type. destruct (scan_type None l) as [k|] eqn:E; [|reflexivity].
  destruct (scan_in l None k E) as [C|C]; [discriminate|]. exfalso. apply H. exists k. exact C.
Qed.
Print Assumptions C162_none.

(** Over any distribution to ranks, each with a geometry, the type is that of all the geometries. *)
Theorem C162_ranks : forall parts types, parts <> [] ->
  Forall2 (fun part k => get_geom_type part = Ok k) parts types ->
  exists k, geom_type_global types = Some k /\ get_geom_type (List.concat parts) = Ok k.
Proof.
  intros parts types Hn H. pose proof (global_scan parts types None H ltac:(discriminate)) as G. unfold geom_type_global, get_geom_type. rewrite G.
  destruct (scan_type None (List.concat parts)) as [k|] eqn:E; [exists k; auto|]. exfalso.
  destruct types as [|k types]; [inversion H; congruence|]. cbn [pick_global] in G. destruct (gk_multi k); [discriminate|].
  assert (forall l j, exists m, pick_global (Some j) l = Some m) as P.
  { induction l as [|x t IH]; intros j; cbn [pick_global]; [eexists; reflexivity|]. destruct (gk_multi x); [eexists; reflexivity|apply IH]. }
  destruct (P types k) as [m Hm]. congruence.
Qed.
Print Assumptions C162_ranks.
Example C162_ranks_case :
  let polygon := mkgkind 2 false in let multi := mkgkind 2 true in
  let parts := [[Some polygon; None]; [Some polygon; Some multi]; [Some polygon]] in
  Forall2 (fun part k => get_geom_type part = Ok k) parts [polygon; multi; polygon] /\
  geom_type_global [polygon; multi; polygon] = Some multi.
Proof. split; [repeat constructor|reflexivity]. Qed.

(** The type is kept once it was read: after other geometries are set it is still the old one. *)
Theorem C162_kept_refuted : forall g k g' l, read_type g = Ok (k, g') -> exists g2, read_type (set_values g' l) = Ok (k, g2) /\ gv_values g2 = l.
Proof.
  intros g k g' l H. unfold read_type in H. destruct (gv_type g) as [j|] eqn:E.
  - injection H as -> <-. exists (mkgvar l (gv_type g)). unfold read_type, set_values. cbn [gv_type]. rewrite E. split; reflexivity.
  - destruct (get_geom_type (gv_values g)) as [j|]; [|discriminate]. cbn [bind] in H. injection H as -> <-. eexists. split; reflexivity.
Qed.
Print Assumptions C162_kept_refuted.
Example C162_kept_case :
  let point := mkgkind 0 false in let multi := mkgkind 2 true in
  exists g', read_type (mkgvar [Some point] None) = Ok (point, g') /\
    (exists g2, read_type (set_values g' [Some multi]) = Ok (point, g2)) /\ get_geom_type [Some multi] = Ok multi.
Proof. eexists. split; [reflexivity|]. split; [eexists; reflexivity|reflexivity]. Qed.

(** Read for the first time, it is the type of the geometries. *)
Theorem C162_first : forall l k, get_geom_type l = Ok k -> read_type (mkgvar l None) = Ok (k, mkgvar l (Some k)).
Proof. intros l k H. unfold read_type. cbn [gv_type gv_values]. rewrite H. reflexivity. Qed.
Print Assumptions C162_first.

(** Points and polygons together have the type of the last. *)
Theorem C162_mixed_refuted : forall l a, gk_multi a = false -> (forall j, In (Some j) l -> gk_multi j = false) ->
  get_geom_type (l ++ [Some a]) = Ok a.
Proof.
  intros l a Ha Hl. unfold get_geom_type.
  rewrite scan_app by (intros k Hk; destruct (scan_in l None k Hk) as [C|C]; [discriminate|apply Hl; exact C]).
  cbn [scan_type]. rewrite Ha. reflexivity.
Qed.
Print Assumptions C162_mixed_refuted.
Example C162_mixed_case : get_geom_type [Some (mkgkind 2 false); Some (mkgkind 0 false)] = Ok (mkgkind 0 false).
Proof. reflexivity. Qed.
