(** More proofs about the axes of a file: bounds, order, groups, distribution. *)
From Coq Require Import List String ZArith Bool Lia Permutation.
From Verif Require Import Py Lib DmapModel DmapSpec DmapProofs AxisModel AxisSpec AxisProofs RequestNames.
Import ListNotations.
Local Open Scope string_scope.
Local Open Scope Z_scope.

(** ** Axes found *)

Lemma axis_key key A : In (key, A) axes -> In key axis_keys.
Proof. cbn. intuition (match goal with H : _ = _ |- _ => injection H as <- <- end; auto 10). Qed.

Lemma cf_axis crs spherical strict ms st key A : cf_map crs spherical strict ms = Ok st -> In (key, A) axes ->
  spherical = false \/ (key <> "x" /\ key <> "y") ->
  exists o, axis_out strict ms "axis" (mkwanted key A A) = Ok o /\ at_axis st key o.
Proof.
  intros H I S'. destruct (cf_spec crs spherical strict ms st H) as (_ & _ & T & X).
  cbn in I. destruct I as [[= <- <-]|[[= <- <-]|[[= <- <-]|[[= <- <-]|[[= <- <-]|[]]]]]].
  - apply (T (mkwanted "realization" "R" "R")). cbn. auto.
  - apply (T (mkwanted "time" "T" "T")). cbn. auto.
  - apply (T (mkwanted "level" "Z" "Z")). cbn. auto.
  - destruct (X "x" "X" "longitude") as (o & o' & O & _ & A); [cbn; auto|]. exists o. split; [exact O|].
    destruct S' as [->|[F _]]; [exact A|now destruct F].
  - destruct (X "y" "Y" "latitude") as (o & o' & O & _ & A); [cbn; auto|]. exists o. split; [exact O|].
    destruct S' as [->|[_ F]]; [exact A|now destruct F].
Qed.

Lemma axis_out_some strict ms a w n d b : plain ms -> axis_out strict ms a w = Ok (Some (n, d, b)) ->
  exists v, the_only (candidate strict ms (w_axis w) a (w_value w)) n /\ In (n, v) ms /\ d = along strict (w_axis w) (m_dims v) /\ entry_bounds (w_key w) n ms = Ok b.
Proof.
  intros P. unfold axis_out. destruct (create_entry_cases (w_axis w) (w_value w) ms strict a P) as [(n' & v & T & I & E)|[T E]]; rewrite E; cbn [bind]; [|discriminate].
  destruct (entry_bounds (w_key w) n' ms) as [b'|] eqn:B; cbn [bind]; [|discriminate]. intros [= -> <- ->]. exists v. auto.
Qed.
Lemma axis_out_none strict ms a w : plain ms -> axis_out strict ms a w = Ok None -> forall n, ~ the_only (candidate strict ms (w_axis w) a (w_value w)) n.
Proof.
  intros P. unfold axis_out. destruct (create_entry_cases (w_axis w) (w_value w) ms strict a P) as [(n' & v & T & I & E)|[T E]]; rewrite E; cbn [bind]; [|easy].
  destruct (entry_bounds (w_key w) n' ms); cbn [bind]; discriminate.
Qed.
Lemma the_only_unique (P : string -> Prop) a b : the_only P a -> the_only P b -> a = b.
Proof. intros [Ha _] [_ Ub]. now apply Ub. Qed.

Lemma found_iff strict ms a w o st key : plain ms -> axis_out strict ms a w = Ok o -> shown st key o -> forall k,
  var_of st key = Ok (Some k) <-> the_only (candidate strict ms (w_axis w) a (w_value w)) k.
Proof.
  intros P O S' k. destruct o as [[[n d] b]|].
  - destruct (axis_out_some _ _ _ _ _ _ _ P O) as (v & T & _). cbn [shown] in S'. destruct S' as (-> & _). split.
    + intros [= <-]. exact T.
    + intros T'. f_equal. f_equal. exact (the_only_unique _ _ _ T T').
  - pose proof (axis_out_none _ _ _ _ P O k) as N. cbn [shown] in S'. destruct S' as (-> & _). split; [discriminate|]. intros T. now apply N in T.
Qed.

Lemma found_dims strict ms a w o st key : plain ms -> axis_out strict ms a w = Ok o -> shown st key o -> forall k v,
  var_of st key = Ok (Some k) -> In (k, v) ms -> dims_of st key = Ok (along strict (w_axis w) (m_dims v)).
Proof.
  intros P O S' k v V I. destruct o as [[[n d] b]|]; cbn [shown] in S'; destruct S' as (V' & D & _); rewrite V in V'; [|discriminate].
  injection V' as <-. destruct (axis_out_some _ _ _ _ _ _ _ P O) as (v' & _ & I' & -> & _). rewrite D.
  pose proof (dget_nodup ms k v (proj1 P) I) as E1. rewrite (dget_nodup ms k v' (proj1 P) I') in E1. now injection E1 as ->.
Qed.

(** ** Bounds *)

Lemma entry_bounds_iff ms key n v b : plain ms -> In (n, v) ms -> entry_bounds key n ms = Ok b -> forall x,
  b = Some x <-> names_bounds key v x /\ In x (map fst ms).
Proof.
  intros P I H x. unfold entry_bounds in H. unfold names_bounds, attr. destruct (String.eqb_spec key "realization") as [->|N].
  - injection H as <-. split; [discriminate|]. intros ((F & _) & _). now destruct F.
  - rewrite (dget_nodup ms n v (proj1 P) I) in H. destruct (m_attrs v) as [a|]; [|discriminate].
    destruct (String.eqb_spec key "time") as [->|N'].
    + cbn [by_key_list] in H. destruct (dg a "bounds") as [x1|]; destruct (dg a "climatology") as [x2|]; cbn [bind] in H; try discriminate.
      * injection H as <-. destruct (dmem String.eqb ms x1) eqn:M.
        -- apply dmem_iff in M. split; [intros [= <-]; auto 6|]. intros ((_ & [[= <-]|[_ F]]) & _); [reflexivity|discriminate].
        -- split; [discriminate|]. intros ((_ & [[= <-]|[_ F]]) & J); [|discriminate]. apply dmem_iff in J. congruence.
      * injection H as <-. destruct (dmem String.eqb ms x2) eqn:M.
        -- apply dmem_iff in M. split; [intros [= <-]; auto 6|]. intros ((_ & [F|[_ [= <-]]]) & _); [discriminate|reflexivity].
        -- split; [discriminate|]. intros ((_ & [F|[_ [= <-]]]) & J); [discriminate|]. apply dmem_iff in J. congruence.
      * injection H as <-. split; [discriminate|]. intros ((_ & [F|[_ F]]) & _); discriminate.
    + cbn [by_key_list] in H. destruct (dg a "bounds") as [x1|]; cbn [bind] in H; injection H as <-.
      * destruct (dmem String.eqb ms x1) eqn:M.
        -- apply dmem_iff in M. split; [intros [= <-]; auto 6|]. intros ((_ & [[= <-]|[F _]]) & _); [reflexivity|congruence].
        -- split; [discriminate|]. intros ((_ & [[= <-]|[F _]]) & J); [|congruence]. apply dmem_iff in J. congruence.
      * split; [discriminate|]. intros ((_ & [F|[F _]]) & _); [discriminate|congruence].
Qed.

Lemma found_bounds strict ms a w o st : plain ms -> axis_out strict ms a w = Ok o -> shown st (w_key w) o -> forall k v,
  var_of st (w_key w) = Ok (Some k) -> In (k, v) ms -> exists b, bounds_of st (w_key w) = Ok b /\
    forall x, b = Some x <-> names_bounds (w_key w) v x /\ In x (map fst ms).
Proof.
  intros P O S' k v V I. destruct o as [[[n d] b]|]; cbn [shown] in S'; destruct S' as (V' & D & B); rewrite V in V'; [|discriminate].
  injection V' as <-. exists b. split; [exact B|]. destruct (axis_out_some _ _ _ _ _ _ _ P O) as (v' & _ & I' & _ & E).
  exact (entry_bounds_iff ms (w_key w) k v b P I E).
Qed.

Lemma entry_bounds_total ms key n v : plain ms -> In (n, v) ms -> (key = "time" -> attr v "bounds" = None \/ attr v "climatology" = None) ->
  exists b, entry_bounds key n ms = Ok b.
Proof.
  intros P I T. unfold entry_bounds. destruct (String.eqb key "realization"); [now eexists|].
  rewrite (dget_nodup ms n v (proj1 P) I). destruct (proj2 P n v I) as (_ & _ & a & E). unfold attr in T. rewrite E in *.
  destruct (String.eqb_spec key "time") as [->|N]; cbn [by_key_list].
  - destruct (T eq_refl) as [F|F]; rewrite F; [destruct (dg a "climatology")|destruct (dg a "bounds")]; cbn [bind]; now eexists.
  - destruct (dg a "bounds"); cbn [bind]; now eexists.
Qed.

Lemma entry_bounds_both ms n v b c : plain ms -> In (n, v) ms -> attr v "bounds" = Some b -> attr v "climatology" = Some c ->
  entry_bounds "time" n ms = Err ValueError.
Proof.
  intros P I B C. unfold entry_bounds. cbn [String.eqb Ascii.eqb Bool.eqb]. change (String.eqb "time" "realization") with false. cbv iota.
  rewrite (dget_nodup ms n v (proj1 P) I). unfold attr in *. destruct (m_attrs v) as [a|]; [|discriminate].
  change (String.eqb "time" "time") with true. cbv iota. cbn [by_key_list]. now rewrite B, C.
Qed.

Lemma axis_out_total strict ms a w : plain ms ->
  (w_key w = "time" -> forall k v, In (k, v) ms -> candidate strict ms (w_axis w) a (w_value w) k -> attr v "bounds" = None \/ attr v "climatology" = None) ->
  exists o, axis_out strict ms a w = Ok o.
Proof.
  intros P T. unfold axis_out. destruct (create_entry_cases (w_axis w) (w_value w) ms strict a P) as [(n & v & [C _] & I & E)|[_ E]]; rewrite E; cbn [bind]; [|now eexists].
  destruct (entry_bounds_total ms (w_key w) n v P I) as [b B]; [intros K; now apply (T K n)|]. rewrite B. cbn [bind]. now eexists.
Qed.

Lemma cf_opens crs spherical strict ms : plain ms ->
  (forall k v, In (k, v) ms -> candidate strict ms "T" "axis" "T" k -> attr v "bounds" = None \/ attr v "climatology" = None) ->
  exists st, cf_map crs spherical strict ms = Ok st.
Proof.
  intros P T. unfold cf_map.
  assert (A : exists st1, abstract_map "netcdf-cf" crs strict ms = Ok st1).
  { unfold abstract_map, set_driver. change (existsb (String.eqb "netcdf-cf") driver_keys) with true. cbv iota. unfold settle at 1. cbn [snd fst bind].
    change (ds [] "driver" (ISpecial "netcdf-cf")) with [("driver", ISpecial "netcdf-cf")].
    destruct (entries_total time_level_axes ms strict "axis") as [es E].
    { intros w I. apply axis_out_total; [exact P|]. cbn in I. destruct I as [<-|[<-|[<-|[]]]]; cbn; try discriminate. intros _. exact T. }
    rewrite E. cbn [bind]. destruct (entries_spec _ _ _ _ _ E) as (N & I & W).
    { cbn. repeat (constructor; [cbn; intuition discriminate|]). constructor. }
    destruct (update_spec es [("driver", ISpecial "netcdf-cf")] (good_driver _) N) as (st1 & U & G1 & F1 & S1).
    { intros k J. apply I in J. cbn in *. tauto. }
    rewrite U. cbn [bind].
    assert (F0 : forall k, In k (map fst es) -> k = "realization" \/ k = "time" \/ k = "level") by (intros k J; apply I in J; cbn in J; intuition).
    destruct (abstract_rest st1 crs ms G1) as (st2 & E2 & _).
    { split; rewrite F1; try reflexivity; intros J; apply F0 in J; intuition discriminate. }
    rewrite E2. now eexists. }
  destruct A as [st1 A]. rewrite A. cbn [bind].
  destruct (abstract_spec "netcdf-cf" crs strict ms st1 eq_refl A) as (G1 & _).
  destruct (entries_total horizontal_axes ms strict "axis") as [es E].
  { intros w I. apply axis_out_total; [exact P|]. cbn in I. destruct I as [<-|[<-|[]]]; cbn; discriminate. }
  rewrite E. cbn [bind]. assert (HN : NoDup (map w_key horizontal_axes)) by (cbn; repeat (constructor; [cbn; intuition discriminate|]); constructor).
  destruct (entries_spec _ _ _ _ _ E HN) as (N & I & W).
  destruct (update_spec es st1 G1 N) as (st2 & U & G2 & _).
  { intros k J. apply I in J. cbn in *. tauto. }
  rewrite U. cbn [bind]. destruct spherical; [|now eexists].
  destruct (entries_total spherical_axes ms strict "standard_name") as [es2 E2].
  { intros w J. apply axis_out_total; [exact P|]. cbn in J. destruct J as [<-|[<-|[]]]; cbn; discriminate. }
  rewrite E2. cbn [bind]. destruct (entries_spec _ _ _ _ _ E2 HN) as (N2 & I2 & W2).
  destruct (update_spec es2 st2 G2 N2) as (st3 & U3 & _).
  { intros k J. apply I2 in J. cbn in *. tauto. }
  now exists st3.
Qed.

Lemma cf_both crs spherical strict ms k v b c : plain ms -> the_only (candidate strict ms "T" "axis" "T") k -> In (k, v) ms ->
  attr v "bounds" = Some b -> attr v "climatology" = Some c -> cf_map crs spherical strict ms = Err ValueError.
Proof.
  intros P T I B C. unfold cf_map, abstract_map, set_driver. change (existsb (String.eqb "netcdf-cf") driver_keys) with true. cbv iota. unfold settle at 1. cbn [snd fst bind].
  assert (E : entries_of time_level_axes ms strict "axis" = Err ValueError).
  { unfold entries_of, time_level_axes. cbn [map_res w_axis w_value w_key].
    destruct (create_entry_cases "R" "R" ms strict "axis" P) as [(n1 & v1 & T1 & I1 & E1)|[T1 E1]]; rewrite E1; cbn [bind];
      rewrite (create_entry_some "T" "T" ms strict "axis" k v P T I); cbn [bind];
      destruct (create_entry_cases "Z" "Z" ms strict "axis" P) as [(n2 & v2 & T2 & I2 & E2)|[T2 E2]]; rewrite E2; cbn [bind map_res snd fst];
      change (entry_bounds "realization" n1 ms) with (@Ok (option string) None) || idtac; cbn [bind];
      rewrite (entry_bounds_both ms k v b c P I B C); reflexivity. }
  rewrite E. reflexivity.
Qed.

(** ** Order *)

Lemma dget_perm {V} (ms ms' : list (string * V)) k : NoDup (map fst ms) -> Permutation ms ms' -> dget String.eqb ms k = dget String.eqb ms' k.
Proof.
  intros N P. assert (N' : NoDup (map fst ms')) by (apply (Permutation_NoDup (l := map fst ms)); [now apply Permutation_map|exact N]).
  destruct (dget String.eqb ms k) as [v|] eqn:E.
  - symmetry. apply dget_nodup; [exact N'|]. apply dget_in in E. now apply (Permutation_in _ P).
  - symmetry. apply dget_none. apply dget_none in E. intros I. apply E. apply (Permutation_in _ (Permutation_map fst (Permutation_sym P))). exact I.
Qed.

Lemma filter_perm {A} (p : A -> bool) l l' : Permutation l l' -> Permutation (filter p l) (filter p l').
Proof.
  induction 1 as [|x l l' H IH|x y l|l l' l'' H1 IH1 H2 IH2]; cbn [filter].
  - constructor.
  - destruct (p x); [now constructor|exact IH].
  - destruct (p x), (p y); try constructor; apply Permutation_refl.
  - now transitivity (filter p l').
Qed.

Lemma create_entry_perm A x ms ms' strict a : NoDup (map fst ms) -> Permutation ms ms' -> create_entry A x ms strict a = create_entry A x ms' strict a.
Proof.
  intros N P. rewrite !create_entry_unfold.
  assert (C : Permutation (candidates strict ms A a x) (candidates strict ms' A a x)).
  { unfold candidates. cbv zeta.
    assert (B : Permutation (by_attribute ms a x) (by_attribute ms' a x)) by (unfold by_attribute; apply Permutation_map, filter_perm, P).
    assert (Z' : zlen (by_attribute ms a x) = zlen (by_attribute ms' a x)) by (unfold zlen; now rewrite (Permutation_length B)).
    rewrite Z'. destruct (negb strict && _); [|exact B].
    unfold by_name. replace (flat_map (fun pn => match dget String.eqb ms pn with Some v => [m_name v] | None => [] end) (axis_names A))
      with (flat_map (fun pn => match dget String.eqb ms' pn with Some v => [m_name v] | None => [] end) (axis_names A)); [apply Permutation_refl|].
    induction (axis_names A) as [|n l IH]; [reflexivity|]. cbn [flat_map]. now rewrite IH, (dget_perm ms ms' n N P). }
  destruct (candidates strict ms A a x) as [|n [|n' l]].
  - apply Permutation_nil in C. now rewrite C.
  - apply Permutation_length_1_inv in C. rewrite C. now rewrite (dget_perm ms ms' n N P).
  - apply Permutation_length in C. cbn [List.length] in C. destruct (candidates strict ms' A a x) as [|? [|? ?]]; cbn in C; [lia|lia|reflexivity].
Qed.

Lemma entry_bounds_perm key n ms ms' : NoDup (map fst ms) -> Permutation ms ms' -> entry_bounds key n ms = entry_bounds key n ms'.
Proof.
  intros N P. unfold entry_bounds. destruct (String.eqb key "realization"); [reflexivity|]. rewrite (dget_perm ms ms' n N P).
  destruct (dget String.eqb ms' n) as [v|]; [|reflexivity]. destruct (m_attrs v) as [a|]; [|reflexivity].
  destruct (by_key_list _ _ _) as [[x|]|]; cbn [bind]; [|reflexivity|reflexivity]. unfold dmem. now rewrite (dget_perm ms ms' x N P).
Qed.

Lemma map_res_ext {A B} (f g : A -> res B) l : (forall x, f x = g x) -> map_res f l = map_res g l.
Proof. intros H. induction l as [|x l IH]; [reflexivity|]. cbn [map_res]. now rewrite H, IH. Qed.

Lemma entries_perm l ms ms' strict a : NoDup (map fst ms) -> Permutation ms ms' -> entries_of l ms strict a = entries_of l ms' strict a.
Proof.
  intros N P. unfold entries_of.
  rewrite (map_res_ext (fun w => do e <- create_entry (w_axis w) (w_value w) ms strict a; Ok (w_key w, e))
             (fun w => do e <- create_entry (w_axis w) (w_value w) ms' strict a; Ok (w_key w, e)))
    by (intros w; now rewrite (create_entry_perm _ _ ms ms' strict a N P)).
  destruct (map_res _ l) as [f|]; cbn [bind]; [|reflexivity].
  match goal with |- bind (map_res ?f1 _) _ = bind (map_res ?f2 _) _ => rewrite (map_res_ext f1 f2); [reflexivity|] end.
  intros [k [[n d]|]]; cbn [snd fst]; [|reflexivity]. now rewrite (entry_bounds_perm k n ms ms' N P).
Qed.

Lemma mask_perm ms ms' : NoDup (map fst ms) -> Permutation ms ms' -> one_mask ms -> mask_of ms = mask_of ms'.
Proof.
  intros N P O. unfold mask_of. destruct (find _ ms) as [[k v]|] eqn:E; destruct (find _ ms') as [[k' v']|] eqn:E'; [| | |reflexivity].
  - apply find_some in E. apply find_some in E'. destruct E as [I H], E' as [I' H']. cbn [snd] in *. apply has_attr_iff in H. apply has_attr_iff in H'.
    apply (Permutation_in _ (Permutation_sym P)) in I'. pose proof (O k k' v v' I I' H H') as <-.
    pose proof (dget_nodup ms k v N I) as D. rewrite (dget_nodup ms k v' N I') in D. now injection D as ->.
  - exfalso. apply find_some in E. destruct E as [I H]. apply (Permutation_in _ P) in I. pose proof (find_none _ _ E' _ I) as F. congruence.
  - exfalso. apply find_some in E'. destruct E' as [I H]. apply (Permutation_in _ (Permutation_sym P)) in I. pose proof (find_none _ _ E _ I) as F. congruence.
Qed.

Lemma cf_perm crs spherical strict ms ms' : NoDup (map fst ms) -> Permutation ms ms' -> one_mask ms ->
  cf_map crs spherical strict ms = cf_map crs spherical strict ms'.
Proof.
  intros N P O. unfold cf_map, abstract_map. rewrite !(entries_perm _ ms ms' _ _ N P), (mask_perm ms ms' N P O).
  apply f_equal2; [reflexivity|]. reflexivity.
Qed.
