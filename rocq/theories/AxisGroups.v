(** Proofs about groups, the distributed dimension and meshes. *)
From Coq Require Import List String ZArith Bool Lia.
From Verif Require Import Py Lib DmapModel DmapSpec DmapProofs AxisModel AxisSpec AxisProofs AxisMore RequestNames.
Import ListNotations.
Local Open Scope string_scope.
Local Open Scope Z_scope.

(** ** Groups *)

Section Induction.
  Variable P : gmeta -> Prop.
  Hypothesis step : forall v d groups, Forall (fun ks => P (snd ks)) groups -> P (GMeta v d groups).
  Fixpoint gmeta_all (g : gmeta) : P g :=
    match g with
    | GMeta v d groups =>
        step v d groups ((fix go (l : list (string * gmeta)) : Forall (fun ks => P (snd ks)) l :=
          match l with [] => Forall_nil _ | ks :: t => Forall_cons ks (gmeta_all (snd ks)) (go t) end) groups)
    end.
End Induction.

Definition gs_of (st : storage) : list (string * dmap) := match dg st "groups" with Some (IGroups gs) => gs | _ => [] end.
Definition slot (st : storage) : Prop := dg st "groups" = None \/ exists gs, dg st "groups" = Some (IGroups gs).

Lemma set_group_spec st name g : slot st -> exists st', settle (set_group st name g) = Ok st' /\ slot st' /\
  (forall k, k <> "groups" -> dg st' k = dg st k) /\
  forall k, dg (gs_of st') k = match dg (gs_of st) k with Some m => Some m | None => if String.eqb k name then Some g else None end.
Proof.
  intros [H|[gs H]]; unfold set_group, gs_of; rewrite H.
  - eexists. split; [unfold settle; cbn [snd fst]; reflexivity|]. split; [right; eexists; apply dget_same|]. split; [intros k N; now apply dget_other|].
    intros k. rewrite dget_same. cbn [dget]. reflexivity.
  - unfold dmem. destruct (dg gs name) as [m|] eqn:E.
    + exists st. split; [reflexivity|]. split; [right; now exists gs|]. split; [easy|]. intros k. rewrite H.
      destruct (dg gs k) eqn:Ek; [reflexivity|]. destruct (String.eqb_spec k name) as [->|_]; [congruence|reflexivity].
    + eexists. split; [unfold settle; cbn [snd fst]; reflexivity|]. split; [right; eexists; apply dget_same|]. split; [intros k N; now apply dget_other|].
      intros k. rewrite dget_same. destruct (String.eqb_spec k name) as [->|N].
      * rewrite dget_same, E. reflexivity.
      * rewrite dget_other by exact N. now destruct (dg gs k).
Qed.

Definition placed (f : gmeta -> res storage) (l : list (string * gmeta)) (st st' : storage) : Prop :=
  slot st' /\ (forall k, k <> "groups" -> dg st' k = dg st k) /\
  forall k, match dg (gs_of st) k with
            | Some m => dg (gs_of st') k = Some m
            | None => match dg l k with
                      | None => dg (gs_of st') k = None
                      | Some sub => exists m, f sub = Ok m /\ dg (gs_of st') k = Some (DMap m)
                      end
            end.

Lemma add_groups_spec f g : forall st st', slot st -> add_groups f st g = Ok st' -> placed f (below g) st st'.
Proof.
  induction g as [v d groups IH] using gmeta_all. intros st st' SL. cbn [add_groups below].
  revert st st' SL. induction groups as [|[name sub] t IHt]; intros st st' SL H.
  - injection H as <-. split; [exact SL|]. split; [easy|]. intros k. cbn [dget]. now destruct (dg (gs_of st) k).
  - inversion IH as [|? ? IH1 IH2]; subst. cbn [snd] in IH1.
    apply bind_Ok in H. destruct H as (m & F & H). apply bind_Ok in H. destruct H as (st1 & H1 & H).
    apply bind_Ok in H. destruct H as (st2 & H2 & H).
    destruct (set_group_spec st name (DMap m) SL) as (st1' & E1 & SL1 & O1 & G1). rewrite E1 in H1. injection H1 as ->.
    destruct (IH1 st1 st2 SL1 H2) as (SL2 & O2 & G2).
    destruct (IHt IH2 st2 st' SL2 H) as (SL3 & O3 & G3).
    split; [exact SL3|]. split; [intros k N; now rewrite O3, O2, O1|].
    intros k. specialize (G1 k). specialize (G2 k). specialize (G3 k).
    cbn [dget]. destruct (dg (gs_of st) k) as [m0|].
    + rewrite G1 in G2. rewrite G2 in G3. exact G3.
    + destruct (String.eqb_spec k name) as [E|N].
      * rewrite G1 in G2. rewrite G2 in G3. now exists m.
      * rewrite G1 in G2. rewrite dget_app. destruct (dg (below sub) k) as [s'|].
        -- destruct G2 as (m' & F' & G2). rewrite G2 in G3. now exists m'.
        -- rewrite G2 in G3. exact G3.
Qed.

Lemma bare_slot st : bare st -> slot st.
Proof. intros [H _]. now left. Qed.
Lemma bare_gs st : bare st -> gs_of st = [].
Proof. intros [H _]. unfold gs_of. now rewrite H. Qed.

Lemma cf_read_bare crs sph g st : cf_read crs sph g = Ok st -> bare st.
Proof. intros H. now destruct (cf_spec _ _ _ _ _ H) as (_ & B & _). Qed.

Lemma map_at_one st k : slot st -> map_at st [k] = match dg (gs_of st) k with Some (DMap m) => Ok m | None => Err DimensionMapError end.
Proof.
  unfold gs_of. cbn [map_at]. intros [H|[gs H]]; rewrite H; [reflexivity|]. destruct (dg gs k) as [[m]|]; reflexivity.
Qed.

Lemma from_metadata_spec crs sph g st : from_metadata (cf_read crs sph) g = Ok st ->
  exists m, cf_read crs sph g = Ok m /\ placed (cf_read crs sph) (below g) m st.
Proof.
  intros H. apply bind_Ok in H. destruct H as (m & F & H). exists m. split; [exact F|].
  apply add_groups_spec; [|exact H]. apply bare_slot. now apply (cf_read_bare crs sph g).
Qed.

Lemma groups_flat crs sph g st k : from_metadata (cf_read crs sph) g = Ok st ->
  map_at st [k] = match dg (below g) k with Some sub => cf_read crs sph sub | None => Err DimensionMapError end.
Proof.
  intros H. destruct (from_metadata_spec crs sph g st H) as (m & F & SL & _ & G). specialize (G k).
  rewrite (map_at_one st k SL). rewrite (bare_gs m (cf_read_bare crs sph g m F)) in G. cbn [dget] in G.
  destruct (dg (below g) k) as [sub|]; [|now rewrite G]. destruct G as (m' & -> & ->). reflexivity.
Qed.

Lemma map_at_app st a rest : map_at st (a :: rest) = bind (map_at st [a]) (fun m => map_at m rest).
Proof.
  cbn [map_at]. destruct (dg st "groups") as [i|]; [|reflexivity]. destruct i as [e|s|gs|t]; try reflexivity. destruct (dg gs a) as [[m]|]; reflexivity.
Qed.

Lemma groups_nested crs sph g st a b rest : from_metadata (cf_read crs sph) g = Ok st ->
  map_at st (a :: b :: rest) = Err DimensionMapError.
Proof.
  intros H. destruct (from_metadata_spec crs sph g st H) as (m & F & SL & _ & G). specialize (G a).
  rewrite map_at_app, (map_at_one st a SL). rewrite (bare_gs m (cf_read_bare crs sph g m F)) in G. cbn [dget] in G.
  destruct (dg (below g) a) as [sub|]; [|now rewrite G]. destruct G as (m' & E & ->). cbn [bind map_at].
  now rewrite (proj1 (cf_read_bare crs sph sub m' E)).
Qed.

Lemma groups_axes crs sph g st m key : from_metadata (cf_read crs sph) g = Ok st -> cf_read crs sph g = Ok m -> key <> "groups" -> dg st key = dg m key.
Proof.
  intros H F N. destruct (from_metadata_spec crs sph g st H) as (m' & F' & _ & O & _). rewrite F in F'. injection F' as <-. now apply O.
Qed.

Lemma in_below g k sub : In (k, sub) (g_groups g) -> In (k, sub) (below g).
Proof.
  destruct g as [v d groups]. cbn [g_groups below]. induction groups as [|[k' s'] t IH]; [easy|].
  intros [[= -> ->]|I]; [now left|]. right. apply in_or_app. right. now apply IH.
Qed.
Lemma flat_below g : (forall k sub, In (k, sub) (g_groups g) -> g_groups sub = []) -> below g = g_groups g.
Proof.
  destruct g as [v d groups]. cbn [g_groups below]. induction groups as [|[k s'] t IH]; [easy|].
  intros H. rewrite IH by (intros k0 s0 I; apply (H k0); now right).
  pose proof (H k s' (or_introl eq_refl)) as E. destruct s' as [v' d' gr]. cbn [g_groups] in E. subst gr. reflexivity.
Qed.

(** ** Reading elements of a map *)

Definition rd_var (st : storage) (key : string) : option string :=
  match dg st key with Some (IEntry e) => match et_variable e with Some v => v | None => None end | _ => None end.
Definition rd_dims (st : storage) (key : string) : list string :=
  match dg st key with Some (IEntry e) => match et_dimension e with Some d => d | None => [] end | _ => [] end.
Definition rd_bounds (st : storage) (key : string) : option string :=
  match dg st key with Some (IEntry e) => match et_bounds e with Some b => b | None => None end | _ => None end.
Definition same3 (st st' : storage) (key : string) : Prop :=
  rd_var st' key = rd_var st key /\ rd_dims st' key = rd_dims st key /\ rd_bounds st' key = rd_bounds st key.

Lemma element_read {A} st key (elt : entry -> option A) put (d : A) : good st -> In key axis_keys ->
  snd (get_element st key elt put d) = Ok (match dg st key with Some (IEntry e) => match elt e with Some x => x | None => d end
                                                              | _ => match elt empty_entry with Some x => x | None => d end end).
Proof.
  intros G I. unfold get_element, get_entry. destruct (String.eqb_spec key "crs") as [->|_]; [now apply axis_not_crs in I|].
  destruct (axis_entry_key key I) as [J _]. apply existsb_in in J. rewrite J. cbn [negb].
  destruct (G key (axis_slot key I)) as [H|[e H]]; rewrite H.
  - destruct (elt empty_entry); reflexivity.
  - destruct (elt e); reflexivity.
Qed.
Lemma element_store {A} st key (elt : entry -> option A) put (d : A) : good st -> In key axis_keys ->
  fst (get_element st key elt put d) = st \/
  exists e, fst (get_element st key elt put d) = ds st key (IEntry e) /\
    ((elt (entry_of st key) = None /\ e = put (entry_of st key) d) \/ (dg st key = None /\ e = empty_entry)).
Proof.
  intros G I. unfold get_element, get_entry, entry_of. destruct (String.eqb_spec key "crs") as [->|_]; [now apply axis_not_crs in I|].
  destruct (axis_entry_key key I) as [J _]. apply existsb_in in J. rewrite J. cbn [negb].
  destruct (G key (axis_slot key I)) as [H|[e H]]; rewrite H.
  - right. destruct (elt empty_entry) eqn:E; cbn [fst].
    + exists empty_entry. split; [reflexivity|]. right. now split.
    + exists (put empty_entry d). split; [unfold put_entry; apply dset_dset|]. left. now split.
  - destruct (elt e) eqn:E; cbn [fst]; [now left|]. right. exists (put e d). split; [reflexivity|]. left. now split.
Qed.

Lemma same3_refl st key : same3 st st key.
Proof. now split. Qed.

Lemma same3_other st k e key : key <> k -> same3 st (ds st k e) key.
Proof. intros N. unfold same3, rd_var, rd_dims, rd_bounds. now rewrite dget_other by exact N. Qed.

Lemma get_variable_keeps st k : good st -> In k axis_keys ->
  good (fst (get_variable st k)) /\ (forall key, same3 st (fst (get_variable st k)) key) /\ (forall key, ~ In key axis_keys -> dg (fst (get_variable st k)) key = dg st key).
Proof.
  intros G I. unfold get_variable.
  match goal with |- context [get_element st k ?elt ?put ?d] => destruct (element_store st k elt put d G I) as [->|(e & -> & H)] end.
  - split; [exact G|]. split; [intros key; apply same3_refl|easy].
  - split; [now apply good_set|]. split.
    + intros key. destruct (string_dec key k) as [->|N]; [|now apply same3_other]. unfold same3, rd_var, rd_dims, rd_bounds. rewrite dget_same.
      destruct H as [[Hv ->]|[Hn ->]]; [|now rewrite Hn]. cbn [et_variable et_dimension et_bounds]. unfold entry_of in *.
      destruct (G k (axis_slot k I)) as [H|[e0 H]]; rewrite H in *; cbn [empty_entry et_variable et_dimension et_bounds] in *; [easy|]. now rewrite Hv.
    + intros key N. apply dget_other. intros ->. contradiction.
Qed.
Lemma get_dimension_keeps st k : good st -> In k axis_keys ->
  good (fst (get_dimension st k)) /\ (forall key, same3 st (fst (get_dimension st k)) key) /\ (forall key, ~ In key axis_keys -> dg (fst (get_dimension st k)) key = dg st key).
Proof.
  intros G I. unfold get_dimension.
  match goal with |- context [get_element st k ?elt ?put ?d] => destruct (element_store st k elt put d G I) as [->|(e & -> & H)] end.
  - split; [exact G|]. split; [intros key; apply same3_refl|easy].
  - split; [now apply good_set|]. split.
    + intros key. destruct (string_dec key k) as [->|N]; [|now apply same3_other]. unfold same3, rd_var, rd_dims, rd_bounds. rewrite dget_same.
      destruct H as [[Hv ->]|[Hn ->]]; [|now rewrite Hn]. cbn [et_variable et_dimension et_bounds]. unfold entry_of in *.
      destruct (G k (axis_slot k I)) as [H|[e0 H]]; rewrite H in *; cbn [empty_entry et_variable et_dimension et_bounds] in *; [easy|]. now rewrite Hv.
    + intros key N. apply dget_other. intros ->. contradiction.
Qed.

Lemma var_read st key : good st -> In key axis_keys -> var_of st key = Ok (rd_var st key).
Proof. intros G I. unfold var_of, get_variable, rd_var. rewrite (element_read st key _ _ _ G I). destruct (dg st key) as [[]|]; reflexivity. Qed.
Lemma dims_read st key : good st -> In key axis_keys -> dims_of st key = Ok (rd_dims st key).
Proof. intros G I. unfold dims_of, get_dimension, rd_dims. rewrite (element_read st key _ _ _ G I). destruct (dg st key) as [[]|]; reflexivity. Qed.
Lemma bounds_read st key : good st -> In key axis_keys -> bounds_of st key = Ok (rd_bounds st key).
Proof. intros G I. unfold bounds_of, get_bounds, rd_bounds. rewrite (element_read st key _ _ _ G I). destruct (dg st key) as [[]|]; reflexivity. Qed.

(** ** [update_dimensions_from_metadata] *)

Definition source_dims (ms : vmetas) (n : string) : list string := match dg ms n with Some m => m_dims m | None => [] end.
Definition updated_key (ms : vmetas) (st : storage) (key : string) : option (list string) :=
  match rd_var st key, rd_dims st key with
  | Some n, [] => match source_dims ms n with [] => None | ds => Some ds end
  | _, _ => None
  end.
(** What a map says about an axis after the update. *)
Definition after_update (ms : vmetas) (st st' : storage) (key : string) : Prop :=
  match updated_key ms st key with
  | None => same3 st st' key
  | Some ds => rd_var st' key = rd_var st key /\ rd_dims st' key = ds /\ rd_bounds st' key = None
  end.

Lemma update_fold ms : forall keys st, good st -> incl keys axis_keys -> NoDup keys ->
  exists st', fold_res (fun st k =>
    let '(st, v) := get_variable st k in
    let '(st, d) := get_dimension st k in
    do v <- v;
    do d <- d;
    match v, d with
    | Some n, [] =>
        match match dget String.eqb ms n with Some m => m_dims m | None => [] end with
        | [] => Ok st
        | ds => settle (set_variable st k (DName n) (Some ds) None None None false None)
        end
    | _, _ => Ok st
    end) keys st = Ok st' /\ good st' /\ (forall key, ~ In key axis_keys -> dg st' key = dg st key) /\
    (forall key, In key keys -> after_update ms st st' key) /\ (forall key, ~ In key keys -> same3 st st' key).
Proof.
  induction keys as [|k keys IH]; intros st G I N.
  - exists st. split; [reflexivity|]. split; [exact G|]. split; [easy|]. split; [easy|]. intros; apply same3_refl.
  - inversion N as [|? ? N1 N2]; subst. assert (K : In k axis_keys) by (apply I; now left).
    assert (I' : incl keys axis_keys) by (intros x J; apply I; now right).
    cbn [fold_res]. destruct (get_variable_keeps st k G K) as (G1 & S1 & O1). pose proof (var_read st k G K) as V. unfold var_of in V.
    destruct (get_variable st k) as [st1 v]. cbn [fst snd] in G1, S1, O1, V. subst v.
    destruct (get_dimension_keeps st1 k G1 K) as (G2 & S2 & O2). pose proof (dims_read st1 k G1 K) as D. unfold dims_of in D.
    destruct (get_dimension st1 k) as [st2 d]. cbn [fst snd] in G2, S2, O2, D. subst d. cbn [bind].
    destruct (S1 k) as (_ & D1 & _). rewrite D1. fold (source_dims ms).
    assert (T : forall key, same3 st st2 key).
    { intros key. destruct (S1 key) as (a1 & a2 & a3), (S2 key) as (b1 & b2 & b3). unfold same3. repeat split; congruence. }
    assert (HS : exists st3, match rd_var st k, rd_dims st k with
              | Some n, [] => match source_dims ms n with [] => Ok st2 | ds => settle (set_variable st2 k (DName n) (Some ds) None None None false None) end
              | _, _ => Ok st2 end = Ok st3 /\ good st3 /\ (forall key, ~ In key axis_keys -> dg st3 key = dg st key) /\
              after_update ms st st3 k /\ forall key, key <> k -> same3 st st3 key).
    { assert (Keep : updated_key ms st k = None -> good st2 /\ (forall key, ~ In key axis_keys -> dg st2 key = dg st key) /\ after_update ms st st2 k /\ forall key, key <> k -> same3 st st2 key).
      { intros E. split; [exact G2|]. split; [intros key J; now rewrite O2, O1|]. split; [unfold after_update; rewrite E; apply T|]. intros key _. apply T. }
      unfold updated_key in Keep. unfold after_update, updated_key. unfold after_update, updated_key in Keep.
      destruct (rd_var st k) as [n|] eqn:Ev; [|exists st2; split; [reflexivity|now apply Keep]].
      destruct (rd_dims st k) as [|d0 dl]; [|exists st2; split; [reflexivity|now apply Keep]].
      destruct (source_dims ms n) as [|s0 sl]; [exists st2; split; [reflexivity|now apply Keep]|].
      destruct (set_named st2 k n (s0 :: sl) None G2 (axis_slot k K) (proj2 (axis_entry_key k K))) as (e & E & H1 & H2 & H3). rewrite E. unfold settle. cbn [snd fst].
      eexists. split; [reflexivity|]. split; [now apply good_set|]. split; [intros key J; rewrite dget_other by (intros ->; contradiction); now rewrite O2, O1|]. split.
      - unfold rd_var, rd_dims, rd_bounds. rewrite dget_same, H1, H2, H3. now split.
      - intros key J. destruct (T key) as (a1 & a2 & a3), (same3_other st2 k (IEntry e) key J) as (b1 & b2 & b3). unfold same3. repeat split; congruence. }
    unfold source_dims in HS. destruct HS as (st3 & E3 & G3 & O3 & A3 & R3).
    destruct (IH st3 G3 I' N2) as (st' & E' & G' & O' & A' & R').
    exists st'. split; [try unfold source_dims; rewrite E3; cbn [bind]; exact E'|]. split; [exact G'|]. split; [intros key J; now rewrite O', O3|]. split.
    + intros key [<-|J].
      * unfold after_update in *. destruct (R' k N1) as (a1 & a2 & a3). destruct (updated_key ms st k) as [ds|].
        -- destruct A3 as (b1 & b2 & b3). repeat split; congruence.
        -- destruct A3 as (b1 & b2 & b3). unfold same3. repeat split; congruence.
      * assert (Nk : key <> k) by (intros ->; contradiction). specialize (A' key J). destruct (R3 key Nk) as (a1 & a2 & a3).
        unfold after_update, updated_key, same3 in *. rewrite a1, a2, a3 in A'.
        destruct (rd_var st key) as [n|]; [destruct (rd_dims st key) as [|d0 dl]; [destruct (source_dims ms n) as [|s0 sl]|]|]; exact A'.
    + intros key J. cbn [In] in J. assert (J1 : key <> k) by (intros ->; tauto). assert (J2 : ~ In key keys) by tauto.
      destruct (R' key J2) as (a1 & a2 & a3), (R3 key J1) as (b1 & b2 & b3). unfold same3. repeat split; congruence.
Qed.

Lemma update_dimensions_spec ms st : good st -> exists st', update_dimensions ms st = Ok st' /\ good st' /\
  (forall key, ~ In key axis_keys -> dg st' key = dg st key) /\ (forall key, In key axis_keys -> after_update ms st st' key).
Proof.
  intros G. destruct (update_fold ms ["realization"; "time"; "level"; "y"; "x"] st G) as (st' & E & G' & O & A & _).
  - intros k J. cbn in *. tauto.
  - repeat (constructor; [cbn; intuition discriminate|]). constructor.
  - exists st'. split; [exact E|]. split; [exact G'|]. split; [exact O|]. intros key J. apply A. cbn in *. tauto.
Qed.
