(** Proofs for C46 (scopes of base.py). *)
From Verif Require Import Py Lib Spec NdModel NdProofs ScopeModel ScopeSpec.

(** * Abstraction *)
Lemma abstr_eqb_eq a b : abstr_eqb a b = true <-> a = b.
Proof. destruct a, b; cbn; split; congruence. Qed.

Lemma get_not_auto g : get_abstraction g <> AbsAuto.
Proof.
  unfold get_abstraction. destruct (gr_stored g) as [[]|]; cbn; destruct (gr_bounds g); discriminate.
Qed.

Lemma get_set g a : a <> AbsAuto -> get_abstraction (set_abstraction g a) = a.
Proof. destruct a; intros H; try reflexivity. congruence. Qed.

Lemma offers_available g a : existsb (abstr_eqb a) (available_abstractions g) = true <-> Offers g a.
Proof.
  unfold Offers, available_abstractions. destruct a, (gr_bounds g); cbn; intuition (try congruence).
Qed.

Theorem abstraction_scope_spec g a strict body :
  get_abstraction (fst (grid_abstraction_scope g a strict body)) = get_abstraction g /\
  (Offers g a -> exists g1, get_abstraction g1 = a /\ gr_bounds g1 = gr_bounds g /\
     snd (grid_abstraction_scope g a strict body) = snd (body g1) /\
     gr_bounds (fst (grid_abstraction_scope g a strict body)) = gr_bounds (fst (body g1))) /\
  (~ Offers g a -> strict = true -> grid_abstraction_scope g a strict body = (g, Some ValueError)) /\
  (~ Offers g a -> strict = false -> snd (grid_abstraction_scope g a strict body) = snd (body g) /\
     gr_bounds (fst (grid_abstraction_scope g a strict body)) = gr_bounds (fst (body g))).
Proof.
  unfold grid_abstraction_scope, grid_scope_enter.
  pose proof (offers_available g a) as OA.
  assert (BS : forall g' x, gr_bounds (set_abstraction g' x) = gr_bounds g') by (intros g' []; reflexivity).
  destruct (existsb (abstr_eqb a) (available_abstractions g)) eqn:E.
  - destruct (body (set_abstraction g a)) as [g2 e] eqn:B. cbn.
    split; [apply get_set, get_not_auto|]. split; [|split; intros H; exfalso; apply H, OA; reflexivity].
    intros O. exists (set_abstraction g a). rewrite B. cbn. rewrite !BS.
    split; [|split; [reflexivity|split; reflexivity]].
    apply get_set. destruct O as [->|[-> _]]; discriminate.
  - assert (NO : ~ Offers g a) by (intros O; apply OA in O; congruence).
    destruct strict.
    + cbn. split; [reflexivity|]. split; [intros O; contradiction|]. split; [reflexivity|discriminate].
    + destruct (body g) as [g2 e] eqn:B. cbn. rewrite BS.
      split; [apply get_set, get_not_auto|]. split; [intros O; contradiction|]. split; [discriminate|].
      intros _ _. split; reflexivity.
Qed.

Theorem abstraction_scope_chosen g a strict body b : gr_stored g = Some b -> b <> AbsAuto ->
  (forall g1, gr_bounds (fst (body g1)) = gr_bounds g1) ->
  fst (grid_abstraction_scope g a strict body) = g.
Proof.
  intros S NA K. unfold grid_abstraction_scope, grid_scope_enter.
  assert (GA : get_abstraction g = b).
  { unfold get_abstraction. rewrite S. destruct b; try reflexivity. congruence. }
  assert (FS : forall g2, gr_bounds g2 = gr_bounds g -> set_abstraction g2 b = g).
  { intros g2 E. destruct g as [s bd], g2 as [s2 bd2]. cbn in *. subst. destruct b; try reflexivity. congruence. }
  rewrite GA.
  destruct (existsb (abstr_eqb a) (available_abstractions g)).
  - specialize (K (set_abstraction g a)). destruct (body (set_abstraction g a)) as [g2 e]. cbn in *.
    apply FS. rewrite K. destruct a; reflexivity.
  - destruct strict; [reflexivity|]. specialize (K g). destruct (body g) as [g2 e]. cbn in *. apply FS, K.
Qed.

(** * Orphaning *)
Theorem orphaned_spec v ds body p : DimensionsAre v ds -> vs_parent v = Some p ->
  forall keep, exists v2,
    vs_parent v2 = None /\ vs_dims v2 = vs_dims v /\ vs_colls v2 = vs_colls v /\
    (keep = true -> DimensionsAre v2 ds) /\
    snd (orphaned v keep body) = snd (body v2) /\
    vs_parent (fst (orphaned v keep body)) = Some p /\
    vs_dims (fst (orphaned v keep body)) = vs_dims (fst (body v2)) /\
    vs_colls (fst (orphaned v keep body)) = vs_colls (fst (body v2)) /\
    vs_cache (fst (orphaned v keep body)) = if keep then None else vs_cache (fst (body v2)).
Proof.
  intros D P keep. unfold DimensionsAre in *. unfold orphaned. destruct keep.
  - rewrite D. cbn [set_cache vs_parent]. rewrite P.
    exists (set_parent (set_cache v (Some ds)) None).
    destruct (body (set_parent (set_cache v (Some ds)) None)) as [v3 e] eqn:B. cbn.
    do 3 (split; [reflexivity|]). split; [|do 4 (split; [reflexivity|]); reflexivity].
    intros _. unfold var_dimensions in *. cbn. destruct (vs_dims v) as [names|]; [reflexivity|].
    injection D as <-. reflexivity.
  - rewrite P. exists (set_parent v None). destruct (body (set_parent v None)) as [v3 e] eqn:B. cbn.
    do 3 (split; [reflexivity|]). split; [discriminate|]. do 4 (split; [reflexivity|]). reflexivity.
Qed.

(** * Renaming dimension objects *)
Lemma set_names_fold (l : list (Z * string)) : forall h d, 
  fold_left (fun h p => set_name h (fst p) (snd p)) l h d =
  match dget Z.eqb (rev l) d with Some n => n | None => h d end.
Proof.
  induction l as [|[x n] t IH] using rev_ind; intros h d; [reflexivity|].
  rewrite fold_left_app, rev_app_distr. cbn. unfold set_name at 1.
  destruct (d =? x); [reflexivity|]. apply IH.
Qed.

Lemma dget_all_Z {V} (P : V -> Prop) (l : list (Z * V)) d v : dget Z.eqb l d = Some v ->
  (forall x, In (d, x) l -> P x) -> P v.
Proof.
  induction l as [|[k x] t IH]; cbn; [discriminate|]. intros E H.
  destruct (d =? k) eqn:K; [|apply IH; auto].
  apply Z.eqb_eq in K. subst k. injection E as ->. apply H. auto.
Qed.
Lemma dget_none_Z {V} (l : list (Z * V)) d : dget Z.eqb l d = None <-> ~ In d (map fst l).
Proof.
  induction l as [|[k x] t IH]; cbn; [tauto|].
  destruct (d =? k) eqn:K.
  - apply Z.eqb_eq in K. subst k. split; [discriminate|]. tauto.
  - rewrite IH. apply Z.eqb_neq in K. intuition congruence.
Qed.

Lemma combine_map_In {B} (f : Z -> B) l d n : In (d, n) (combine l (map f l)) -> n = f d /\ In d l.
Proof. induction l as [|x t IH]; cbn; [tauto|]. intros [E|H]; [injection E as -> ->; auto|]. apply IH in H. tauto. Qed.
Lemma combine_map_fst {B} (f : Z -> B) l : map fst (combine l (map f l)) = l.
Proof. induction l as [|x t IH]; cbn; congruence. Qed.

Lemma rename_fold mapping : forall ds h, NoDup ds ->
  forall d, (In d ds -> fold_left (rename_one mapping) ds h d =
              match first_key mapping (h d) with Some k => k | None => h d end) /\
            (~ In d ds -> fold_left (rename_one mapping) ds h d = h d).
Proof.
  induction ds as [|x t IH]; intros h ND d; [split; [contradiction|reflexivity]|].
  inversion ND; subst. cbn [fold_left]. destruct (IH (rename_one mapping h x) H2 d) as [IH1 IH2].
  assert (OTH : d <> x -> rename_one mapping h x d = h d).
  { intros NE. unfold rename_one. destruct (first_key mapping (h x)); [|reflexivity].
    unfold set_name. destruct (Z.eqb_spec d x); congruence. }
  split.
  - intros [->|I].
    + rewrite IH2 by assumption. unfold rename_one. destruct (first_key mapping (h d)) as [k|]; [|reflexivity].
      unfold set_name. rewrite Z.eqb_refl. reflexivity.
    + assert (NE : d <> x) by congruence. rewrite IH1 by assumption. rewrite OTH by assumption. reflexivity.
  - intros NI. cbn in NI. rewrite IH2 by tauto. apply OTH. intros ->. tauto.
Qed.

Lemma first_key_spec mapping n : NoDup (map fst mapping) ->
  (forall k v k' v', In (k, v) mapping -> In (k', v') mapping -> In n v -> In n v' -> k = k') ->
  forall m, (match first_key mapping n with Some k => k | None => n end) = m <-> RenamesTo mapping n m.
Proof.
  intros _. unfold RenamesTo. induction mapping as [|[k v] t IH]; cbn [first_key]; intros U m.
  - split.
    + intros <-. right. split; [intros k v []|reflexivity].
    + intros [[v [[] _]]|[_ ->]]. reflexivity.
  - destruct (str_mem n v) eqn:M.
    + apply str_mem_In in M. split.
      * intros <-. left. exists v. cbn. auto.
      * intros [[v' [I I2]]|[N ->]].
        -- apply (U k v m v'); auto. left. reflexivity.
        -- exfalso. apply (N k v); [left; reflexivity|assumption].
    + apply str_mem_nIn in M. rewrite IH.
      * split; (intros [[v' [I I2]]|[N ->]]; [left; exists v'|right]).
        -- cbn. auto.
        -- split; [|reflexivity]. intros k' v' [E|I]; [injection E as <- <-; assumption|apply (N k' v' I)].
        -- cbn in I. destruct I as [E|I]; [injection E as <- <-; contradiction|]. auto.
        -- split; [|reflexivity]. intros k' v' I. apply (N k' v'). cbn. auto.
      * intros. apply (U k0 v0 k' v'); cbn; auto.
Qed.

Lemma first_key_in mapping n k : first_key mapping n = Some k -> exists v, In (k, v) mapping /\ In n v.
Proof.
  induction mapping as [|[k' v] t IH]; cbn; [discriminate|].
  destruct (str_mem n v) eqn:M.
  - intros E. injection E as <-. apply str_mem_In in M. exists v. auto.
  - intros E. destruct (IH E) as [v' [A B]]. exists v'. auto.
Qed.
Lemma first_key_none mapping n : first_key mapping n = None -> forall k v, In (k, v) mapping -> ~ In n v.
Proof.
  induction mapping as [|[k' v] t IH]; cbn; [intros _ k v []|].
  destruct (str_mem n v) eqn:M; [discriminate|]. apply str_mem_nIn in M.
  intros E k v' [X|I]; [injection X as <- <-; assumption|apply (IH E k v' I)].
Qed.

Theorem renamed_dimensions_spec h ds mapping body :
  exists h1, snd (renamed_dimensions h ds mapping body) = snd (body h1) /\
    (NoDup ds -> forall d, In d ds -> RenamesTo mapping (h d) (h1 d)) /\
    (forall d, ~ In d ds -> h1 d = h d) /\
    (forall d, In d ds -> fst (renamed_dimensions h ds mapping body) d = h d) /\
    (forall d, ~ In d ds -> fst (renamed_dimensions h ds mapping body) d = fst (body h1) d).
Proof.
  unfold renamed_dimensions. set (h1 := fold_left (rename_one mapping) ds h).
  exists h1. destruct (body h1) as [h2 e] eqn:B. cbn [fst snd].
  split; [reflexivity|]. split; [|split; [|split]].
  - intros ND d I. unfold h1. rewrite (proj1 (rename_fold mapping ds h ND d) I).
    destruct (first_key mapping (h d)) as [k|] eqn:F.
    + left. apply first_key_in, F.
    + right. split; [apply first_key_none, F|reflexivity].
  - intros d. unfold h1. clear. revert h. induction ds as [|x t IH]; intros h NI; [reflexivity|].
    cbn in *. rewrite IH by tauto. unfold rename_one. destruct (first_key mapping (h x)); [|reflexivity].
    unfold set_name. destruct (Z.eqb_spec d x); [subst; tauto|reflexivity].
  - intros d I. rewrite set_names_fold.
    destruct (dget Z.eqb (rev (combine ds (map h ds))) d) as [n|] eqn:G.
    + apply (dget_all_Z (fun n => n = h d) _ _ _ G). intros x J. apply in_rev in J. apply combine_map_In in J. tauto.
    + exfalso. apply dget_none_Z in G. apply G. rewrite map_rev. apply -> in_rev. rewrite combine_map_fst. assumption.
  - intros d NI. rewrite set_names_fold.
    destruct (dget Z.eqb (rev (combine ds (map h ds))) d) as [n|] eqn:G; [|reflexivity].
    exfalso. apply (dget_all_Z (fun _ => False) _ _ _ G). intros x J. apply in_rev in J. apply combine_map_In in J. tauto.
Qed.

(** * Renaming on a collection: the exit *)
Lemma dget_dset_same {V} (d : list (string * V)) k v : dget String.eqb (dset String.eqb d k v) k = Some v.
Proof.
  induction d as [|[k' v'] t IH]; cbn; [rewrite String.eqb_refl; reflexivity|].
  destruct (String.eqb k k') eqn:E; cbn; rewrite E; [reflexivity|assumption].
Qed.
Lemma dget_dset_other {V} (d : list (string * V)) k k2 v : k2 <> k -> dget String.eqb (dset String.eqb d k v) k2 = dget String.eqb d k2.
Proof.
  intros N. induction d as [|[k' v'] t IH]; cbn.
  - apply String.eqb_neq in N. rewrite N. reflexivity.
  - destruct (String.eqb k k') eqn:E; cbn.
    + apply String.eqb_eq in E. subst k'. apply String.eqb_neq in N. rewrite N. reflexivity.
    + destruct (String.eqb k2 k'); [reflexivity|assumption].
Qed.

Lemma original_vdims_get c : NoDup (map fst (cs_vars c)) -> (forall k v, In (k, v) (cs_vars c) -> cs_vname c v = k) ->
  forall k v, In (k, v) (cs_vars c) -> dget String.eqb (original_vdims c) k = Some (cs_vdims c v).
Proof.
  unfold original_vdims. intros ND K.
  assert (OTH : forall l d n, (forall k v, In (k, v) l -> cs_vname c v = k) -> ~ In n (map fst l) ->
     dget String.eqb (fold_left (fun d kv => dset String.eqb d (cs_vname c (snd kv)) (cs_vdims c (snd kv))) l d) n
     = dget String.eqb d n).
  { induction l as [|[k v] t IH]; intros d n KK NI; [reflexivity|]. cbn in *.
    rewrite IH; [|intros; apply KK; auto|tauto].
    apply dget_dset_other. rewrite (KK k v) by auto. intros ->. tauto. }
  assert (G : forall l d, NoDup (map fst l) -> (forall k v, In (k, v) l -> cs_vname c v = k) ->
     forall k v, In (k, v) l ->
     dget String.eqb (fold_left (fun d kv => dset String.eqb d (cs_vname c (snd kv)) (cs_vdims c (snd kv))) l d) k
     = Some (cs_vdims c v)).
  { induction l as [|[k0 v0] t IH]; intros d N KK k v I; [contradiction|]. cbn in N. inversion N; subst.
    cbn [fold_left snd]. destruct I as [E|I].
    - injection E as -> ->. rewrite OTH; [|intros; apply KK; right; assumption|assumption].
      rewrite (KK k v) by (left; reflexivity). apply dget_dset_same.
    - apply IH; auto. intros; apply KK; right; assumption. }
  apply G; assumption.
Qed.

Lemma restore_all vname vals : forall vars f, (forall k v, In (k, v) vars -> dget String.eqb vals (vname v) <> None) ->
  snd (restore_vdims vname vals vars f) = None /\
  (forall k v, In (k, v) vars -> dget String.eqb vals (vname v) = Some (fst (restore_vdims vname vals vars f) v)) /\
  (forall v, ~ In v (map snd vars) -> fst (restore_vdims vname vals vars f) v = f v).
Proof.
  induction vars as [|[k v] t IH]; intros f H; cbn.
  - split; [reflexivity|]. split; [intros ? ? []|reflexivity].
  - destruct (dget String.eqb vals (vname v)) as [names|] eqn:G; [|exfalso; apply (H k v); [left; reflexivity|assumption]].
    destruct (IH (fun x => if x =? v then names else f x)) as [A [B C]]; [intros; eapply H; right; eassumption|].
    split; [assumption|]. split.
    + intros k' v' [E|I].
      * injection E as <- <-. destruct (in_dec Z.eq_dec v (map snd t)) as [J|J].
        -- apply in_map_iff in J. destruct J as [[k2 v2] [E2 J]]. cbn in E2. subst v2. apply (B k2 v J).
        -- rewrite (C v J), Z.eqb_refl. assumption.
      * apply (B k' v' I).
    + intros v' NI. rewrite C by tauto. destruct (Z.eqb_spec v' v); [subst; tauto|reflexivity].
Qed.

Lemma exit_names (dims : list (string * Z)) h : NoDup (map snd dims) ->
  (forall k d, In (k, d) dims -> fold_left (fun h kv => set_name h (snd kv) (fst kv)) dims h d = k) /\
  (forall d, ~ In d (map snd dims) -> fold_left (fun h kv => set_name h (snd kv) (fst kv)) dims h d = h d).
Proof.
  revert h. induction dims as [|[k d] t IH]; intros h N; [split; [intros ? ? []|reflexivity]|].
  cbn in N. inversion N; subst. cbn [fold_left fst snd]. destruct (IH (set_name h d k) H2) as [A B].
  split.
  - intros k' d' [E|I].
    + injection E as <- <-. rewrite B by assumption. unfold set_name. rewrite Z.eqb_refl. reflexivity.
    + apply A, I.
  - intros d' NI. cbn in NI. rewrite B by tauto. unfold set_name. destruct (Z.eqb_spec d' d); [subst; tauto|reflexivity].
Qed.

Lemma enter_keeps c mapping : forall c1 b e, rename_enter c mapping = (c1, b, e) -> cs_vars c1 = cs_vars c /\ cs_vname c1 = cs_vname c.
Proof.
  intros c1 b e. unfold rename_enter. destruct (rename_dims mapping (cs_dims c) (cs_names c)) as [r [e0|]].
  - intros E. injection E as <- <- <-. auto.
  - destruct (map_res _ _) as [news|]; [|intros E; injection E as <- <- <-; auto].
    destruct (assign_vdims _ _ _ _); intros E; injection E as <- <- <-; auto.
Qed.

Theorem renamed_on_variables_spec c mapping body : WellKeyed c ->
  let '(c1, _, e1) := rename_enter c mapping in
  let c2 := match e1 with None => fst (body c1) | Some _ => c1 end in
  let e := match e1 with None => snd (body c1) | Some _ => e1 end in
  (forall k v, In (k, v) (cs_vars c2) -> In (cs_vname c2 v) (map fst (cs_vars c))) ->
  exists c3, renamed_dimensions_on_variables c mapping body = (c3, e) /\
    cs_dims c3 = cs_dims c /\
    (forall k d, In (k, d) (cs_dims c) -> cs_names c3 d = cs_names c d) /\
    cs_vars c3 = cs_vars c2 /\ cs_vname c3 = cs_vname c2 /\
    (forall k v v0, In (k, v) (cs_vars c3) -> In (cs_vname c3 v, v0) (cs_vars c) -> cs_vdims c3 v = cs_vdims c v0).
Proof.
  intros [ND [NDo [KD [NV KV]]]]. destruct (rename_enter c mapping) as [[c1 b] e1] eqn:EN.
  unfold renamed_dimensions_on_variables. rewrite EN.
  cbv zeta beta iota.
  set (c2 := match e1 with None => fst (body c1) | Some _ => c1 end).
  set (e := match e1 with None => snd (body c1) | Some _ => e1 end). intros H.
  assert (E : (match e1 with Some e => (c1, Some e) | None => body c1 end) = (c2, e)).
  { unfold c2, e. destruct e1; [reflexivity|]. destruct (body c1); reflexivity. }
  rewrite E. unfold rename_exit.
  destruct (restore_all (cs_vname c2) (original_vdims c) (cs_vars c2) (cs_vdims c2)) as [A [B C]].
  { intros k v I. specialize (H k v I). apply in_map_iff in H. destruct H as [[k0 v0] [EQ J]]. cbn in EQ. subst k0.
    rewrite (original_vdims_get c NV KV _ _ J). discriminate. }
  destruct (restore_vdims (cs_vname c2) (original_vdims c) (cs_vars c2) (cs_vdims c2)) as [f e3]. cbn in A, B, C. subst e3.
  eexists. split; [reflexivity|]. cbn.
  split; [reflexivity|]. split.
  - intros k d I. rewrite (proj1 (exit_names (cs_dims c) (cs_names c2) NDo) k d I). symmetry. apply KD, I.
  - do 2 (split; [reflexivity|]). intros k v v0 I J. specialize (B k v I).
    rewrite (original_vdims_get c NV KV _ _ J) in B. congruence.
Qed.
