(** The main theorems of C66. *)
From Verif Require Import Py Lib Spec PartitionModel DimensionModel DimensionSpec NdModel NdProofs ScopeModel ScopeSpec ScopeProofs ScopeInside SliceModel SliceSpec SliceProofs FieldModel FieldSpec FieldProofs.
From Verif Require SliceVarProofs.
From Coq Require Import Permutation.

Lemma scope_same {A} (f : field A) mapping (g : option exc) : WellKeyed (fi_coll f) ->
  exists c3, renamed_dimensions_on_variables (fi_coll f) mapping (fun c => (c, g)) =
      (c3, match snd (rename_enter (fi_coll f) mapping) with Some e => Some e | None => g end) /\
    SameField f (with_coll f c3).
Proof.
  intros WK. pose proof (renamed_on_variables_spec (fi_coll f) mapping (fun c => (c, g)) WK) as S.
  destruct (rename_enter (fi_coll f) mapping) as [[c1 back] e1] eqn:EN. destruct (enter_keeps _ _ _ _ _ EN) as [EV EVN].
  assert (WK' := WK). destruct WK' as [_ [_ [_ [_ KV]]]].
  assert (C2 : (match e1 with Some _ => c1 | None => fst (c1, g) end) = c1) by (destruct e1; reflexivity).
  cbv zeta in S. rewrite C2 in S.
  destruct S as [c3 [E [E1 [E2 [E3 [E4 E5]]]]]].
  { intros k v I. rewrite EV in I. rewrite EVN, (KV k v I). apply (in_map fst) in I. exact I. }
  exists c3. split; [rewrite E; destruct e1; reflexivity|]. split; [exact E1|]. cbn [with_coll fi_coll]. split; [rewrite E3; exact EV|].
  unfold view, with_coll. cbn [fi_coll fi_dim fi_data]. rewrite E1, E3, EV. f_equal.
  - apply map_ext_in. intros [k d] I. cbn [fst snd]. rewrite (E2 k d I). reflexivity.
  - apply map_ext_in. intros [k v] I. cbn [fst snd]. rewrite (E5 k v v); [reflexivity| |].
    + rewrite E3, EV. exact I.
    + rewrite E4, EVN, (KV k v I). exact I.
Qed.

Lemma view_names {A} (f : field A) : map fst (sc_dims (view f)) = map fst (cs_dims (fi_coll f)).
Proof. unfold view. cbn [sc_dims]. rewrite map_map. apply map_ext. reflexivity. Qed.

Lemma keeps_filter (P : string -> Prop) (b : string -> bool) l l' : (forall k, b k = true <-> P k) -> Keeps P l l' -> filter (fun p => b (fst p)) l = l'.
Proof.
  intros HB K. induction K as [|p l l' H K IH|p l l' H K IH]; [reflexivity|..]; cbn [filter].
  - apply HB in H. rewrite H, IH. reflexivity.
  - destruct (b (fst p)) eqn:E; [apply HB in E; contradiction|exact IH].
Qed.

Theorem field_slice_spec {A} (f : field A) mapping dslice kept own (strict : bool) :
  WellKeyed (fi_coll f) -> CleanMapping mapping (map fst (cs_dims (fi_coll f))) -> Congruent (view f) ->
  (if strict then kept = dslice else Keeps (fun m => exists n, In n (map fst (cs_dims (fi_coll f))) /\ RenamesTo mapping n m) dslice kept) ->
  Translates mapping (map fst (cs_dims (fi_coll f))) kept own -> Sliceable (view f) own ->
  exists f' r, get_field_slice f mapping dslice strict = (f', kept, Ok r) /\ SameField f f' /\ SlicedField (view f) own r.
Proof.
  intros WK CL CG KP TR SL. set (c := fi_coll f) in *. set (names := map fst (cs_dims c)) in *. set (rho := rn mapping).
  assert (VN : map fst (sc_dims (view f)) = names) by apply view_names.
  assert (VIN : forall k v, In (k, v) (cs_vars c) -> In (k, mksvar (cs_vdims c v) (fst (fi_data f v)) (snd (fi_data f v))) (sc_vars (view f))).
  { intros k v I. unfold view. fold c. cbn [sc_vars]. apply (in_map (fun p => (fst p, mksvar (cs_vdims c (snd p)) (fst (fi_data f (snd p))) (snd (fi_data f (snd p)))))) in I. exact I. }
  assert (DK : DimsKnown c).
  { intros k v n I J. fold names. rewrite <- VN. apply (vdims_known (view f) CG k _ n (VIN k v I)). exact J. }
  destruct (enter_full c mapping WK DK CL) as [c1 [back [EN [N1 [DM [NM [EV [EVN [VD [NB BK]]]]]]]]]].
  assert (INJ : forall n n', In n names -> In n' names -> rho n = rho n' -> n = n') by (apply rn_inj, CL).
  assert (C1K : forall m, In m (map fst (cs_dims c1)) <-> exists n, In n names /\ m = rho n).
  { intros m. split.
    - intros I. apply in_map_iff in I. destruct I as [[m' d] [E I]]. cbn in E. subst m'. apply (dget_str_In _ _ _ N1) in I. apply DM in I.
      destruct I as [n [J E]]. exists n. split; [apply (in_map fst) in J; exact J|exact E].
    - intros [n [I ->]]. apply in_map_iff in I. destruct I as [[n' d] [E I]]. cbn in E. subst n'.
      assert (X : dget String.eqb (cs_dims c1) (rho n) = Some d) by (apply DM; exists n; auto).
      apply (dget_str_In _ _ _ N1) in X. apply (in_map fst) in X. exact X. }
  assert (WK' := WK). destruct WK' as [ND [NDo [KD [NV KV]]]].
  assert (RN : Renamed rho (view f) (view (with_coll f c1))).
  { split; [|split; [|split]].
    - rewrite view_names. exact N1.
    - unfold view, with_coll. cbn [sc_dims fi_coll fi_dim]. fold c. intros n d I. apply in_map_iff in I. destruct I as [[n' o] [E I]]. injection E as <- <-. cbn [fst snd].
      assert (X : dget String.eqb (cs_dims c1) (rho n') = Some o) by (apply DM; exists n'; auto). apply (dget_str_In _ _ _ N1) in X.
      rewrite named_named. fold rho in NM. apply in_map_iff. exists (rho n', o). split; [|exact X]. cbn [fst snd]. rewrite (NM n' o I). reflexivity.
    - unfold view, with_coll. cbn [sc_dims fi_coll fi_dim]. fold c. intros m d1 I. apply in_map_iff in I. destruct I as [[m' o] [E I]]. injection E as <- <-. cbn [fst snd].
      apply (dget_str_In _ _ _ N1) in I. apply DM in I. destruct I as [n [J ->]]. exists n, (named (fi_dim f o) (cs_names c o)). split; [|split; [reflexivity|]].
      + apply (in_map (fun p => (fst p, named (fi_dim f (snd p)) (cs_names c (snd p))))) in J. exact J.
      + rewrite named_named, (NM n o J). reflexivity.
    - unfold view, with_coll. cbn [sc_vars fi_coll fi_data]. fold c. rewrite EV. clear - VD. revert VD. generalize (cs_vars c). induction l as [|[k v] t IH]; intros VD; [constructor|]. cbn [map fst snd]. constructor.
      + split; [reflexivity|]. cbn [snd sv_dims sv_value sv_mask]. rewrite (VD k v (or_introl eq_refl)). reflexivity.
      + apply IH. intros k' v' I. apply (VD k' v'). right. exact I. }
  assert (TR' : Forall2 (fun p q : string * item => snd p = snd q /\ In (fst q) (map fst (sc_dims (view f))) /\ fst p = rho (fst q)) kept own).
  { rewrite VN. clear - TR CL. induction TR as [|p q l l' [E1 [E2 E3]] F IH]; [constructor|]. constructor; [|exact IH].
    split; [exact E1|]. split; [exact E2|]. apply (renames_rn mapping names); assumption. }
  rewrite <- VN in INJ.
  assert (CG1 := renamed_congruent rho (view f) (view (with_coll f c1)) CG INJ RN).
  assert (SL1 := renamed_sliceable rho (view f) (view (with_coll f c1)) CG INJ RN kept own TR' SL).
  destruct (slice_collection_spec _ _ CG1 SL1) as [c2 [E2 S2]].
  assert (BI : forall n m, In (n, m) back -> In n (map fst (sc_dims (view f))) /\ m = rho n).
  { intros n m I. apply (dget_str_In _ _ _ NB) in I. apply BK in I. destruct I as [I [v [J K]]]. rewrite VN. split; [exact I|]. symmetry. apply (rn_key mapping names CL m v n J K). }
  destruct (sliced_back rho (view f) (view (with_coll f c1)) kept own back (original_vdims c) c2 CG INJ RN TR' NB BI) as [r [ER SR]].
  { intros n I R. apply (dget_str_In _ _ _ NB). apply BK. split; [rewrite VN in I; exact I|].
    destruct (rn_renames mapping n) as [[v [J K]]|[_ E]]; [exists v; auto|]. contradiction. }
  { intros n n' I I' R E. rewrite VN in I, I'. destruct (rn_renames mapping n') as [[v [J K]]|[_ E']].
    - destruct CL as [_ [_ [_ CL4]]]. assert (n' = rn mapping n') by (apply (CL4 _ v n' J I' K); fold rho; rewrite <- E; exact I).
      fold rho in H. rewrite <- H in E. subst n'. congruence.
    - fold rho in E'. rewrite E' in E. subst n'. congruence. }
  { intros k v I. unfold view in I. fold c in I. cbn [sc_vars] in I. apply in_map_iff in I. destruct I as [[k' o] [E I]]. injection E as <- <-. cbn [sv_dims fst snd].
    apply (original_vdims_get c NV KV k' o I). }
  { exact S2. }
  unfold get_field_slice. fold c. rewrite EN.
  assert (EK : (if strict then dslice else filter (fun p => dmem String.eqb (cs_dims c1) (fst p)) dslice) = kept).
  { destruct strict; [symmetry; exact KP|].
    apply (keeps_filter (fun m => exists n, In n names /\ RenamesTo mapping n m) (dmem String.eqb (cs_dims c1))); [|exact KP].
    intros k. unfold dmem. destruct (dget String.eqb (cs_dims c1) k) as [d|] eqn:G.
    - split; [|reflexivity]. intros _. apply (dget_str_In _ _ _ N1) in G. apply (in_map fst) in G. apply C1K in G. destruct G as [n [I E]]. cbn [fst] in E. subst k. exists n. split; [exact I|apply rn_renames].
    - split; [discriminate|]. intros [n [I R]]. exfalso. apply dget_str_none in G. apply G, C1K. exists n. split; [exact I|]. apply (renames_rn mapping names); assumption. }
  cbv zeta. rewrite EK, E2.
  destruct (scope_same f mapping None WK) as [c3 [ES SF]]. fold c in ES. rewrite EN in ES. cbn [snd] in ES. rewrite ES. cbn [bind]. rewrite ER.
  exists (with_coll f c3), r. split; [reflexivity|]. split; assumption.
Qed.

(** Whatever happens, the field is as it was. *)
Theorem field_slice_keeps {A} (f : field A) mapping dslice strict : WellKeyed (fi_coll f) ->
  SameField f (fst (fst (get_field_slice f mapping dslice strict))).
Proof.
  intros WK. unfold get_field_slice. destruct (rename_enter (fi_coll f) mapping) as [[c1 back] e1] eqn:EN. cbv zeta.
  match goal with |- context [renamed_dimensions_on_variables _ _ (fun c => (c, ?g))] => destruct (scope_same f mapping g WK) as [c3 [ES SF]] end.
  rewrite ES. exact SF.
Qed.

(** A name in a strict dictionary that no dimension has is refused. *)
Theorem field_slice_refused {A} (f : field A) mapping dslice m i :
  WellKeyed (fi_coll f) -> CleanMapping mapping (map fst (cs_dims (fi_coll f))) -> DimsKnown (fi_coll f) ->
  In (m, i) dslice -> (forall n, In n (map fst (cs_dims (fi_coll f))) -> ~ RenamesTo mapping n m) ->
  exists f' e, get_field_slice f mapping dslice true = (f', dslice, Err e).
Proof.
  intros WK CL DK I N. destruct (enter_full (fi_coll f) mapping WK DK CL) as [c1 [back [EN [N1 [DM _]]]]].
  unfold get_field_slice. rewrite EN. cbv zeta.
  assert (NI : ~ In m (map fst (sc_dims (view (with_coll f c1))))).
  { rewrite view_names. cbn [with_coll fi_coll]. intros J. apply in_map_iff in J. destruct J as [[m' d] [E J]]. cbn in E. subst m'.
    apply (dget_str_In _ _ _ N1) in J. apply DM in J. destruct J as [n [J ->]]. apply (N n); [apply (in_map fst) in J; exact J|apply rn_renames]. }
  destruct (slice_collection (view (with_coll f c1)) dslice) as [x|e] eqn:ES.
  - exfalso. destruct (proj2 (SliceVarProofs.slice_refused (view (with_coll f c1)) dslice) m i I NI) as [e E]. congruence.
  - destruct (scope_same f mapping (Some e) WK) as [c3 [E3 _]]. rewrite EN in E3. cbn [snd] in E3. rewrite E3. eauto.
Qed.

(** * The mapping of standard names *)
From Verif Require Import DmapModel DmapProofs.
Local Open Scope string_scope.
Local Open Scope Z_scope.

Definition standard_keys : list string := ["realization"; "time"; "level"; "y"; "x"; "geom"].
Lemma standard_entry k : In k standard_keys -> existsb (String.eqb k) entry_keys = true /\ String.eqb k "crs" = false.
Proof. intros I. repeat (destruct I as [<-|I]; [split; reflexivity|]). destruct I. Qed.

(** Reading an element of a standard entry of a plain map. *)
Lemma get_element_plain {A} st k (elt : entry -> option A) put default : In k standard_keys -> Plain st ->
  (forall e v, elt (put e v) = Some v) -> (forall e v, elt e = None -> et_variable (put e v) = et_variable e \/ (et_variable e = None)) ->
  exists st' e, get_element st k elt put default = (st', Ok (match elt e with Some x => x | None => default end)) /\
    (dget String.eqb st k = Some (IEntry e) \/ (dget String.eqb st k = None /\ e = empty_entry)) /\
    (forall k', k' <> k -> dget String.eqb st' k' = dget String.eqb st k') /\
    dget String.eqb st' k = Some (IEntry (match elt e with Some _ => e | None => put e default end)).
Proof.
  intros I P _ _. destruct (standard_entry k I) as [E1 E2]. unfold get_element. rewrite E2. unfold get_entry. rewrite E1. cbn [negb].
  destruct (dget String.eqb st k) as [i|] eqn:G.
  - destruct (P k I i G) as [e ->]. destruct (elt e) as [x|] eqn:EL.
    + exists st, e. rewrite EL. split; [reflexivity|]. split; [left; reflexivity|]. split; [reflexivity|]. exact G.
    + exists (put_entry st k (put e default)), e. rewrite EL. split; [reflexivity|]. split; [left; reflexivity|]. split.
      * intros k' N. unfold put_entry. apply dget_other, N.
      * unfold put_entry. apply dget_same.
  - destruct (elt empty_entry) as [x|] eqn:EL.
    + exists (put_entry st k empty_entry), empty_entry. rewrite EL. split; [reflexivity|]. split; [right; auto|]. split.
      * intros k' N. unfold put_entry. apply dget_other, N.
      * unfold put_entry. apply dget_same.
    + exists (put_entry (put_entry st k empty_entry) k (put empty_entry default)), empty_entry. rewrite EL. split; [reflexivity|]. split; [right; auto|]. split.
      * intros k' N. unfold put_entry. rewrite dget_other by assumption. apply dget_other, N.
      * unfold put_entry. apply dget_same.
Qed.

Definition entry_at (st : storage) (k : string) : entry := match dget String.eqb st k with Some (IEntry e) => e | _ => empty_entry end.
Definition names_at (st : storage) (k : string) : option (list string) :=
  match et_variable (entry_at st k) with
  | Some (Some v) => Some (match et_dimension (entry_at st k) with Some (n :: t) => n :: t | _ => [v] end)
  | _ => None
  end.

Lemma plain_other st st' k : Plain st -> (forall k', k' <> k -> dget String.eqb st' k' = dget String.eqb st k') ->
  (exists e, dget String.eqb st' k = Some (IEntry e)) -> Plain st'.
Proof.
  intros P O [e E] k' I i G. destruct (String.eqb_spec k' k) as [->|N]; [rewrite E in G; injection G as <-; eauto|]. rewrite (O k' N) in G. apply (P k' I i G).
Qed.

Lemma map_names_spec : forall keys st acc, incl keys standard_keys -> NoDup keys -> Plain st ->
  exists st' m, map_names st keys acc = (st', Ok m) /\
    (forall k, ~ In k keys -> dget String.eqb st' k = dget String.eqb st k) /\
    forall k, dget String.eqb m k = if str_mem k keys then (match names_at st k with Some l => Some l | None => dget String.eqb acc k end) else dget String.eqb acc k.
Proof.
  induction keys as [|k t IH]; intros st acc IN ND P; [exists st, acc; split; [reflexivity|]; split; reflexivity|].
  inversion ND as [|? ? NI ND']; subst. cbn [map_names].
  assert (IK : In k standard_keys) by (apply IN; left; reflexivity). assert (IT : incl t standard_keys) by (intros x Hx; apply IN; right; exact Hx).
  destruct (get_element_plain st k et_variable (fun e v => mkentry (Some v) (et_bounds e) (et_dimension e) (et_attrs e) (et_section e)) None IK P) as [st1 [e [E1 [EE [O1 S1]]]]];
    [reflexivity|intros; auto|].
  unfold get_variable. rewrite E1.
  assert (P1 : Plain st1) by (apply (plain_other st st1 k); [assumption|assumption|eauto]).
  assert (EA : entry_at st k = e). { unfold entry_at. destruct EE as [->|[-> ->]]; reflexivity. }
  set (e1 := match et_variable e with Some _ => e | None => mkentry (Some None) (et_bounds e) (et_dimension e) (et_attrs e) (et_section e) end) in *.
  assert (REST : forall st2 acc2 l, Plain st2 -> (forall k', k' <> k -> dget String.eqb st2 k' = dget String.eqb st k') ->
      names_at st k = l -> (forall k', dget String.eqb acc2 k' = if String.eqb k' k then (match l with Some l => Some l | None => dget String.eqb acc k end) else dget String.eqb acc k') ->
      exists st' m, map_names st2 t acc2 = (st', Ok m) /\
        (forall k0, ~ In k0 (k :: t) -> dget String.eqb st' k0 = dget String.eqb st k0) /\
        forall k0, dget String.eqb m k0 = if str_mem k0 (k :: t) then (match names_at st k0 with Some l => Some l | None => dget String.eqb acc k0 end) else dget String.eqb acc k0).
  { intros st2 acc2 l P2 O2 NL A2. destruct (IH st2 acc2 IT ND' P2) as [st' [m [EM [OM GM]]]]. exists st', m. split; [exact EM|]. split.
    - intros k0 N0. rewrite OM by (intros X; apply N0; right; exact X). apply O2. intros ->. apply N0. left. reflexivity.
    - intros k0. rewrite GM, A2. unfold str_mem. cbn [existsb]. destruct (String.eqb_spec k0 k) as [->|N0].
      + cbn [orb]. rewrite NL. apply (fun H => proj2 (str_mem_nIn k t) H) in NI. unfold str_mem in NI. rewrite NI. reflexivity.
      + cbn [orb]. assert (EQ : names_at st2 k0 = names_at st k0) by (unfold names_at, entry_at; rewrite (O2 k0 N0); reflexivity). rewrite EQ. reflexivity. }
  destruct (et_variable e) as [[v|]|] eqn:EV.
  - destruct (get_element_plain st1 k et_dimension (fun e v => mkentry (et_variable e) (et_bounds e) (Some v) (et_attrs e) (et_section e)) [] IK P1) as [st2 [e2 [E2 [EE2 [O2 S2]]]]];
      [reflexivity|intros; auto|].
    assert (e2 = e). { destruct EE2 as [X|[X _]]; rewrite S1 in X; [injection X as <-; reflexivity|discriminate]. } subst e2.
    unfold get_dimension. rewrite E2.
    assert (P2 : Plain st2) by (apply (plain_other st1 st2 k); [assumption|assumption|eauto]).
    assert (O12 : forall k', k' <> k -> dget String.eqb st2 k' = dget String.eqb st k') by (intros k' N; rewrite O2, O1 by assumption; reflexivity).
    destruct (match et_dimension e with Some x => x | None => [] end) as [|n ns] eqn:ED.
    + set (st3 := append_dimension st2 k v).
      assert (ST3 : (forall k', k' <> k -> dget String.eqb st3 k' = dget String.eqb st2 k') /\ exists e', dget String.eqb st3 k = Some (IEntry e')).
      { unfold st3, append_dimension, get_entry. rewrite (proj1 (standard_entry k IK)). cbn [negb]. rewrite S2. split.
        - intros k' N. unfold put_entry. apply dget_other, N.
        - eexists. unfold put_entry. apply dget_same. }
      destruct ST3 as [O3 S3]. apply (REST st3 _ (Some [v])).
      * apply (plain_other st2 st3 k); assumption.
      * intros k' N. rewrite O3, O12 by assumption. reflexivity.
      * unfold names_at. rewrite EA, EV. destruct (et_dimension e) as [[|a l]|]; [reflexivity|discriminate|reflexivity].
      * intros k'. destruct (String.eqb_spec k' k) as [->|N]; [apply dget_same|apply dget_other, N].
    + apply (REST st2 _ (Some (n :: ns))); [assumption|assumption| |].
      * unfold names_at. rewrite EA, EV. destruct (et_dimension e) as [l|]; [subst l; reflexivity|discriminate].
      * intros k'. destruct (String.eqb_spec k' k) as [->|N]; [apply dget_same|apply dget_other, N].
  - apply (REST st1 acc None); [assumption|assumption|unfold names_at; rewrite EA, EV; reflexivity|]. intros k'. destruct (String.eqb_spec k' k) as [->|N]; reflexivity.
  - apply (REST st1 acc None); [assumption|assumption|unfold names_at; rewrite EA, EV; reflexivity|]. intros k'. destruct (String.eqb_spec k' k) as [->|N]; reflexivity.
Qed.

Lemma names_at_iff st k l : names_at st k = Some l <-> exists v, MapVariable st k v /\ MapNames st k v l.
Proof.
  unfold names_at, entry_at, MapVariable, MapNames. split.
  - destruct (dget String.eqb st k) as [[e|s|g|t]|]; try discriminate. destruct (et_variable e) as [[v|]|] eqn:EV; try discriminate.
    intros E. exists v. split; [exists e; auto|]. exists e. split; [reflexivity|]. destruct (et_dimension e) as [[|n t]|]; congruence.
  - intros [v [[e [E EV]] [e' [E' D]]]]. rewrite E in *. injection E' as <-. rewrite EV. destruct (et_dimension e) as [[|n t]|]; subst l; reflexivity.
Qed.

Theorem name_mapping_spec st : Plain st ->
  exists st' m, get_name_mapping st = (st', Ok m) /\
    (forall k l, dget String.eqb m k = Some l <-> Standard st k /\ exists v, MapVariable st k v /\ MapNames st k v l) /\
    forall k, ~ In k standard_keys -> dget String.eqb st' k = dget String.eqb st k.
Proof.
  intros P. unfold get_name_mapping.
  destruct (get_element_plain st "geom" et_dimension (fun e v => mkentry (et_variable e) (et_bounds e) (Some v) (et_attrs e) (et_section e)) []) as [st1 [e [E1 [EE [O1 S1]]]]];
    [cbn; tauto|assumption|reflexivity|intros; auto|].
  unfold get_dimension. rewrite E1. set (g := match et_dimension e with Some x => x | None => [] end).
  assert (P1 : Plain st1) by (apply (plain_other st st1 "geom"); [assumption|assumption|eauto]).
  assert (EA : entry_at st "geom" = e) by (unfold entry_at; destruct EE as [->|[-> ->]]; reflexivity).
  assert (NA : forall k, names_at st1 k = names_at st k).
  { intros k. destruct (String.eqb_spec k "geom") as [->|N].
    - unfold names_at. rewrite EA. unfold entry_at. rewrite S1. destruct (et_dimension e) as [l|] eqn:ED; [rewrite ED; reflexivity|]. cbn. rewrite ?ED. destruct (et_variable e) as [[v|]|]; reflexivity.
    - unfold names_at, entry_at. rewrite (O1 k N). reflexivity. }
  set (keys := (["realization"; "time"; "level"; "y"; "x"] ++ (if zlen g =? 1 then ["geom"] else []))%list).
  assert (IN : incl keys standard_keys).
  { unfold keys. intros x Hx. apply in_app_or in Hx. unfold standard_keys. destruct Hx as [Hx|Hx]; [cbn in *; tauto|]. destruct (zlen g =? 1); [cbn in *; tauto|destruct Hx]. }
  assert (ND : NoDup keys).
  { unfold keys. destruct (zlen g =? 1); cbn; repeat (apply NoDup_cons; [cbn; intuition discriminate|]); apply NoDup_nil. }
  destruct (map_names_spec keys st1 [] IN ND P1) as [st' [m [EM [OM GM]]]].
  exists st', m. split; [exact EM|]. split.
  - intros k l. rewrite GM, NA. cbn [dget]. rewrite <- names_at_iff.
    assert (ST : str_mem k keys = true <-> Standard st k).
    { rewrite str_mem_In. unfold keys, Standard. rewrite in_app_iff. apply or_iff_compat_l. split.
      - destruct (Z.eqb_spec (zlen g) 1) as [L|_]; [|intros []]. intros [<-|[]]. split; [reflexivity|]. unfold g in L.
        destruct (et_dimension e) as [[|n [|n' t]]|] eqn:ED; cbn in L; try (unfold zlen in L; cbn in L; lia).
        destruct EE as [EE|[_ ->]]; [|discriminate]. exists e, n. auto.
      - intros [-> [e' [n [G D]]]]. destruct EE as [EE|[EE _]]; [|congruence]. assert (e' = e) by congruence. subst e'. unfold g. rewrite D. left. reflexivity. }
    destruct (str_mem k keys) eqn:M.
    + destruct (names_at st k); split; intros H; [split; [apply ST; reflexivity|exact H]|apply H|discriminate|destruct H; discriminate].
    + split; [discriminate|]. intros [H _]. apply ST in H. discriminate.
  - intros k N. rewrite OM by (intros X; apply N, IN, X). apply O1. intros ->. apply N. cbn. tauto.
Qed.
