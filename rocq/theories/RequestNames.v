(** * Proofs about names of variables, fields, and requests made of several datasets. *)
From Verif Require Import Py Lib RequestModel RequestSpec.
From Coq Require Import String Ascii Bool List ZArith Lia.
Import ListNotations.
Local Open Scope string_scope.
Local Open Scope list_scope.

(** ** Dictionaries *)

Lemma dget_dset {V} (d : list (string * V)) k v n :
  dget String.eqb (dset String.eqb d k v) n = if String.eqb n k then Some v else dget String.eqb d n.
Proof.
  induction d as [|[k' v'] t IH]; cbn [dset dget].
  - reflexivity.
  - destruct (String.eqb_spec k k') as [->|N].
    + cbn [dget]. destruct (String.eqb n k'); reflexivity.
    + cbn [dget]. destruct (String.eqb_spec n k') as [->|N'].
      * destruct (String.eqb_spec k' k); [congruence|reflexivity].
      * exact IH.
Qed.

Lemma dget_in {V} (d : list (string * V)) k v : dget String.eqb d k = Some v -> In (k, v) d.
Proof.
  induction d as [|[k' v'] t IH]; [easy|]. cbn [dget]. destruct (String.eqb_spec k k') as [->|N].
  - intros [= ->]. now left.
  - intros H. right. exact (IH H).
Qed.

Lemma dget_none {V} (d : list (string * V)) k : dget String.eqb d k = None <-> ~ In k (map fst d).
Proof.
  induction d as [|[k' v'] t IH]; [easy|]. cbn [dget map fst In]. destruct (String.eqb_spec k k') as [->|N].
  - split; [easy|]. intros H. exfalso. apply H. now left.
  - rewrite IH. split; [intros H [E|I]; [congruence|easy]|intros H I; apply H; now right].
Qed.

Lemma dget_nodup {V} (d : list (string * V)) k v : NoDup (map fst d) -> In (k, v) d -> dget String.eqb d k = Some v.
Proof.
  induction d as [|[k' v'] t IH]; [easy|]. cbn [map fst dget]. intros H I. inversion H; subst.
  destruct I as [E|I].
  - injection E as -> ->. now rewrite String.eqb_refl.
  - destruct (String.eqb_spec k k') as [->|N]; [|auto].
    exfalso. apply H2. apply in_map_iff. now exists (k', v).
Qed.

Lemma dget_some_iff {V} (d : list (string * V)) k : (exists v, dget String.eqb d k = Some v) <-> In k (map fst d).
Proof.
  destruct (dget String.eqb d k) as [v|] eqn:E.
  - split; [|now exists v]. intros _. apply dget_in in E. apply in_map_iff. now exists (k, v).
  - split; [intros (v & H); easy|]. intros I. now apply dget_none in E.
Qed.

Lemma dmem_iff {V} (d : list (string * V)) k : dmem String.eqb d k = true <-> In k (map fst d).
Proof.
  rewrite <- dget_some_iff. unfold dmem. destruct (dget String.eqb d k) as [v|].
  - split; [now exists v|easy].
  - split; [easy|intros (v & H); easy].
Qed.

Lemma dset_new {V} (d : list (string * V)) k v : ~ In k (map fst d) -> dset String.eqb d k v = d ++ [(k, v)].
Proof.
  induction d as [|[k' v'] t IH]; [reflexivity|]. cbn [map fst In dset]. intros N.
  destruct (String.eqb_spec k k') as [->|N']; [exfalso; apply N; now left|].
  rewrite IH; [reflexivity|]. intros I. apply N. now right.
Qed.

Lemma dset_keys {V} (d : list (string * V)) k v : In k (map fst d) -> map fst (dset String.eqb d k v) = map fst d.
Proof.
  induction d as [|[k' v'] t IH]; [easy|]. cbn [map fst In dset]. intros I.
  destruct (String.eqb_spec k k') as [->|N']; [reflexivity|]. cbn [map fst]. f_equal. apply IH.
  destruct I as [E|I]; [congruence|exact I].
Qed.

Lemma fold_dset_nodup {V} (l acc : list (string * V)) : NoDup (map fst (acc ++ l)) ->
  fold_left (fun d vn => dset String.eqb d (fst vn) (snd vn)) l acc = acc ++ l.
Proof.
  revert acc. induction l as [|[k v] t IH]; intros acc H; cbn [fold_left fst snd].
  - now rewrite app_nil_r.
  - rewrite dset_new.
    + rewrite IH; rewrite <- app_assoc; [reflexivity|exact H].
    + rewrite map_app in H. apply NoDup_remove_2 in H. intros I. apply H. apply in_app_iff. now left.
Qed.

Lemma existsb_string n l : existsb (String.eqb n) l = true <-> In n l.
Proof.
  rewrite existsb_exists. split.
  - intros (x & I & E). apply String.eqb_eq in E. now subst.
  - intros I. exists n. split; [exact I|apply String.eqb_refl].
Qed.

Lemma existsb_string_false n l : existsb (String.eqb n) l = false <-> ~ In n l.
Proof.
  rewrite <- existsb_string. destruct (existsb (String.eqb n) l); intuition congruence.
Qed.

(** ** Metadata with other names *)

Definition alike (a b : string * vmeta) : Prop :=
  fst a = fst b /\ vm_dims (snd a) = vm_dims (snd b) /\ vm_units (snd a) = vm_units (snd b) /\
  vm_conform (snd a) = vm_conform (snd b).

Definition same_but_names (m m' : meta) : Prop := Forall2 alike m m'.

Lemma same_refl m : same_but_names m m.
Proof. induction m; constructor; auto. unfold alike. auto. Qed.

Lemma same_trans a b c : same_but_names a b -> same_but_names b c -> same_but_names a c.
Proof.
  intros H. revert c. induction H as [|x y l l' (E1 & E2 & E3 & E4) F IH]; intros c G; inversion G; subst; constructor.
  - match goal with H : alike y _ |- _ => destruct H as (G1 & G2 & G3 & G4) end.
    unfold alike. repeat split; congruence.
  - apply IH. assumption.
Qed.

Lemma same_keys m m' : same_but_names m m' -> map fst m' = map fst m.
Proof. induction 1 as [|x y l l' (E & _) F IH]; cbn; congruence. Qed.

Lemma same_dget m m' k : same_but_names m m' ->
  match dget String.eqb m k, dget String.eqb m' k with
  | Some a, Some b => vm_units a = vm_units b /\ vm_conform a = vm_conform b
  | None, None => True
  | _, _ => False
  end.
Proof.
  induction 1 as [|[x a] [y b] l l' (E1 & E2 & E3 & E4) F IH]; [exact I|]. cbn [fst snd] in *. subst y.
  cbn [dget]. destruct (String.eqb k x); [now split|exact IH].
Qed.

Lemma same_data r m m' : same_but_names m m' -> data_variable_names r m' = data_variable_names r m.
Proof.
  intros H. unfold data_variable_names. destruct (r_time r); [|reflexivity]. destruct (r_x r); [|reflexivity].
  destruct (r_y r); [|reflexivity].
  set (needed := undup (l ++ l0 ++ l1)). clearbody needed.
  induction H as [|[x a] [y b] t t' (E1 & E2 & E3 & E4) F IH]; [reflexivity|].
  cbn [fst snd] in *. subst y. cbn [filter snd]. rewrite E2.
  destruct (Nat.eqb _ 3); cbn [map fst]; congruence.
Qed.

Lemma same_dmem m m' k : same_but_names m m' -> dmem String.eqb m' k = dmem String.eqb m k.
Proof.
  intros H. unfold dmem. pose proof (same_dget m m' k H) as D.
  destruct (dget String.eqb m k), (dget String.eqb m' k); easy.
Qed.

Lemma same_variable r m m' : same_but_names m m' -> variable_of r m' = variable_of r m.
Proof.
  intros H. unfold variable_of. destruct (r_variable r) as [l|].
  - replace (forallb (dmem String.eqb m') l) with (forallb (dmem String.eqb m) l); [reflexivity|].
    induction l as [|k t IH]; [reflexivity|]. cbn [forallb]. rewrite IH. now rewrite (same_dmem m m' k H).
  - now rewrite (same_data r m m' H).
Qed.

Lemma same_rename r m m' : same_but_names m m' -> rename_of r m' = rename_of r m.
Proof. intros H. unfold rename_of. destruct (r_rename r); [reflexivity|]. exact (same_variable r m m' H). Qed.

Lemma set_name_same m k n m' : set_name m k n = Ok m' -> same_but_names m m'.
Proof.
  unfold set_name. destruct (dget String.eqb m k) as [e|] eqn:E; [|easy]. intros [= <-].
  induction m as [|[k' v'] t IH]; [easy|]. cbn [dget dset] in *.
  destruct (String.eqb_spec k k') as [->|N].
  - injection E as ->. constructor; [unfold alike; auto|apply same_refl].
  - constructor; [unfold alike; auto|exact (IH E)].
Qed.

Lemma set_name_dget m k n m' x : set_name m k n = Ok m' ->
  dget String.eqb m' x = if String.eqb x k then option_map (fun e => mkvm n (vm_dims e) (vm_units e) (vm_conform e)) (dget String.eqb m k)
                         else dget String.eqb m x.
Proof.
  unfold set_name. destruct (dget String.eqb m k) as [e|] eqn:E; [|easy]. intros [= <-].
  rewrite dget_dset. destruct (String.eqb x k); reflexivity.
Qed.

Lemma fold_set_same mp m m' : fold_res (fun m kn => set_name m (fst kn) (snd kn)) mp m = Ok m' -> same_but_names m m'.
Proof.
  revert m. induction mp as [|[k n] t IH]; intros m; cbn [fold_res fst snd].
  - intros [= <-]. apply same_refl.
  - destruct (set_name m k n) as [m1|] eqn:E; [|easy]. cbn [bind]. intros H.
    exact (same_trans _ _ _ (set_name_same _ _ _ _ E) (IH _ H)).
Qed.

Lemma fold_set_ok mp m : (forall k, In k (map fst mp) -> In k (map fst m)) ->
  exists m', fold_res (fun m kn => set_name m (fst kn) (snd kn)) mp m = Ok m'.
Proof.
  revert m. induction mp as [|[k n] t IH]; intros m H; cbn [fold_res fst snd].
  - now exists m.
  - destruct (proj2 (dget_some_iff m k) (H k (or_introl eq_refl))) as (e & E).
    unfold set_name at 1. rewrite E. cbn [bind]. apply IH. intros x I.
    rewrite dset_keys by (apply H; now left). apply H. now right.
Qed.

Lemma fold_set_names mp m m' x e : NoDup (map fst mp) ->
  fold_res (fun m kn => set_name m (fst kn) (snd kn)) mp m = Ok m' ->
  dget String.eqb m x = Some e ->
  exists e', dget String.eqb m' x = Some e' /\
    vm_name e' = match dget String.eqb mp x with Some n => n | None => vm_name e end.
Proof.
  revert m e. induction mp as [|[k n] t IH]; intros m e N; cbn [fold_res fst snd].
  - intros [= <-] E. exists e. now split.
  - cbn [map fst] in N. apply NoDup_cons_iff in N. destruct N as (Nk0 & Nt).
    destruct (set_name m k n) as [m1|] eqn:S1; [|easy]. cbn [bind]. intros H E.
    pose proof (set_name_dget m k n m1 x S1) as D. cbn [dget].
    destruct (String.eqb_spec x k) as [->|Nk].
    + rewrite E in D. cbn [option_map] in D. destruct (IH _ _ Nt H D) as (e' & E' & V).
      exists e'. split; [exact E'|]. rewrite V.
      now rewrite (proj2 (dget_none t k) Nk0).
    + rewrite E in D. exact (IH _ _ Nt H D).
Qed.

Lemma metadata_same r m : metadata_of r = Ok m -> same_but_names (r_meta r) m.
Proof.
  unfold metadata_of. destruct (r_given r); [intros [= <-]; apply same_refl|].
  destruct (r_rename r); [|intros [= <-]; apply same_refl].
  destruct (rename_map r (r_meta r)) as [mp|]; [|easy]. cbn [bind]. apply fold_set_same.
Qed.

(** ** Reading requests *)

Lemma variable_in r m vs : NoDup (map fst m) -> variable_of r m = Ok vs -> vs <> [] /\ (forall v, In v vs -> In v (map fst m)).
Proof.
  intros _. unfold variable_of. destruct (r_variable r) as [l|].
  - destruct (forallb (dmem String.eqb m) l) eqn:F; [|easy]. cbn [bind].
    destruct l as [|a t]; [easy|]. cbn [first_or_tuple]. intros [= <-]. split; [easy|].
    intros v I. apply dmem_iff. exact (proj1 (forallb_forall _ _) F v I).
  - cbn [bind]. destruct (data_variable_names r m) as [|a t] eqn:D; [easy|]. cbn [first_or_tuple]. intros [= <-].
    split; [easy|]. intros v I. rewrite <- D in I. revert I. unfold data_variable_names.
    destruct (r_time r); [|easy]. destruct (r_x r); [|easy]. destruct (r_y r); [|easy].
    intros I. apply in_map_iff in I. destruct I as (kv & <- & I). apply filter_In in I.
    apply in_map. exact (proj1 I).
Qed.

Lemma rd_variable_raw r vs : rd_variable r = Ok vs -> variable_of r (r_meta r) = Ok vs.
Proof.
  unfold rd_variable. destruct (metadata_of r) as [m|] eqn:M; [|easy]. cbn [bind].
  now rewrite (same_variable r _ _ (metadata_same r m M)).
Qed.

Lemma variable_sub r m vs v : variable_of r m = Ok vs -> In v vs -> In v (map fst m).
Proof.
  unfold variable_of. destruct (r_variable r) as [l|].
  - destruct (forallb (dmem String.eqb m) l) eqn:F; [|easy]. cbn [bind].
    destruct l as [|a t]; [easy|]. cbn [first_or_tuple]. intros [= <-] I.
    apply dmem_iff. exact (proj1 (forallb_forall _ _) F v I).
  - cbn [bind]. destruct (data_variable_names r m) as [|a t] eqn:D; [easy|]. cbn [first_or_tuple]. intros [= <-] I.
    rewrite <- D in I. revert I. unfold data_variable_names.
    destruct (r_time r); [|easy]. destruct (r_x r); [|easy]. destruct (r_y r); [|easy].
    intros I. apply in_map_iff in I. destruct I as (kv & <- & I). apply filter_In in I.
    apply in_map. exact (proj1 I).
Qed.

Lemma variable_nonempty r m vs : variable_of r m = Ok vs -> vs <> [].
Proof.
  unfold variable_of. destruct (match r_variable r with None => _ | Some l => _ end) as [l|]; [|easy].
  cbn [bind]. destruct l; [easy|]. cbn [first_or_tuple]. now intros [= <-].
Qed.

Lemma rd_values_ok sel r vs : rd_variable r = Ok vs ->
  (forall a b, vm_units a = vm_units b -> vm_conform a = vm_conform b -> sel a = sel b) ->
  exists us, rd_values sel r = Ok us /\
    Forall2 (fun v u => exists e, dget String.eqb (r_meta r) v = Some e /\ u = sel e) vs us.
Proof.
  intros H Hs. pose proof (rd_variable_raw r vs H) as W. unfold rd_variable in H.
  destruct (metadata_of r) as [m|] eqn:M; [|easy]. cbn [bind] in H.
  pose proof (metadata_same r m M) as SM.
  unfold rd_values. rewrite M. cbn [bind]. rewrite H. cbn [bind].
  assert (G : exists us, map_res (fun v => match dget String.eqb m v with
       | Some e => Ok (sel e) | None => Err KeyError end) vs = Ok us /\
       Forall2 (fun v u => exists e, dget String.eqb (r_meta r) v = Some e /\ u = sel e) vs us).
  { assert (Hin : forall v, In v vs -> In v (map fst (r_meta r))) by (intros v; exact (variable_sub _ _ _ v W)).
    clear H W M. induction vs as [|v t IH].
    - exists []. split; [reflexivity|constructor].
    - destruct (proj2 (dget_some_iff (r_meta r) v) (Hin v (or_introl eq_refl))) as (e & E).
      destruct IH as (us & U & F); [intros x I; apply Hin; now right|].
      pose proof (same_dget _ _ v SM) as D. rewrite E in D.
      destruct (dget String.eqb m v) as [e'|] eqn:E'; [|easy]. destruct D as (D1 & D2).
      exists (sel e' :: us). split.
      + cbn [map_res]. rewrite E'. cbn [bind]. now rewrite U.
      + constructor; [|exact F]. exists e. split; [exact E|]. apply Hs; congruence. }
  destruct G as (us & U & F). exists us. rewrite U. cbn [bind]. split; [|exact F].
  destruct us; [|reflexivity]. inversion F; subst. exfalso. exact (variable_nonempty _ _ _ H eq_refl).
Qed.

Lemma map_res_seq {A} (f : nat -> res A) (l : list A) : forall k,
  (forall i x, nth_error l i = Some x -> f (k + i)%nat = Ok x) -> map_res f (seq k (List.length l)) = Ok l.
Proof.
  induction l as [|a t IH]; intros k H; [reflexivity|]. cbn [List.length seq map_res].
  pose proof (H 0%nat a eq_refl) as H0. rewrite Nat.add_0_r in H0. rewrite H0. cbn [bind].
  rewrite (IH (S k)); [reflexivity|]. intros i x E. specialize (H (S i) x E).
  now rewrite Nat.add_succ_r in H.
Qed.

Lemma rd_iter_ok r vs : rd_variable r = Ok vs ->
  exists l, rd_iter r = Ok l /\
    Forall2 (fun v x => exists e, dget String.eqb (r_meta r) v = Some e /\ x = (v, vm_units e, vm_conform e)) vs l.
Proof.
  intros H.
  destruct (rd_values_ok vm_units r vs H (fun a b E _ => E)) as (us & U & FU).
  destruct (rd_values_ok vm_conform r vs H (fun a b _ E => E)) as (cs & C & FC).
  unfold rd_iter, rd_len. rewrite H. cbn [bind].
  exists (combine (combine vs us) cs).
  assert (L1 : List.length us = List.length vs) by (symmetry; exact (Forall2_len _ _ _ FU)).
  assert (L2 : List.length cs = List.length vs) by (symmetry; exact (Forall2_len _ _ _ FC)).
  split.
  - replace (List.length vs) with (List.length (combine (combine vs us) cs))
      by (rewrite !combine_length; lia).
    apply map_res_seq. intros i [[v u] c] E. rewrite U, C. cbn [Nat.add bind].
    assert (G : nth_error vs i = Some v /\ nth_error us i = Some u /\ nth_error cs i = Some c).
    { clear - E L1 L2. revert us cs i L1 L2 E. induction vs as [|v' vs IH]; intros us cs i L1 L2 E.
      - now destruct i.
      - destruct us as [|u' us]; [easy|]. destruct cs as [|c' cs]; [easy|]. destruct i as [|i].
        + cbn in E. injection E as -> -> ->. auto.
        + cbn in E, L1, L2. cbn [nth_error]. apply IH; auto. }
    destruct G as (-> & -> & ->). reflexivity.
  - clear - FU FC. revert cs FC. induction FU as [|v u vs us (e & E & ->) F IH]; intros cs FC; inversion FC; subst.
    + constructor.
    + match goal with H : exists e, _ |- _ => destruct H as (e' & E' & ->) end.
      cbn [combine]. constructor; [|auto]. exists e. split; [exact E|]. rewrite E in E'. injection E' as ->. reflexivity.
Qed.

Lemma rd_iter_none r : rd_variable r = Err NoDataVariablesFound -> rd_iter r = Ok [].
Proof. intros H. unfold rd_iter, rd_len. now rewrite H. Qed.

(** ** Names in the field *)

Lemma raw_dget file m n k e :
  In (k, e) m -> vm_name e = n ->
  (forall k' e', In (k', e') m -> vm_name e' = n -> k' = k) ->
  dget String.eqb (raw_variables file m) n = Some (file, k).
Proof.
  unfold raw_variables. intros I E U. revert I U.
  induction m as [|[x v] t IH] using rev_ind; [easy|]. intros I U.
  rewrite fold_left_app. cbn [fold_left fst snd]. rewrite dget_dset.
  destruct (String.eqb_spec n (vm_name v)) as [En|Nn].
  - f_equal. f_equal. apply (U x v); [apply in_app_iff; right; now left|now symmetry].
  - apply in_app_iff in I. destruct I as [I|[[= -> ->]|[]]]; [|congruence].
    apply IH; [exact I|]. intros k' e' J. apply U. apply in_app_iff. now left.
Qed.

Lemma raw_in file m n : In n (map fst (raw_variables file m)) <-> exists k e, In (k, e) m /\ vm_name e = n.
Proof.
  unfold raw_variables. induction m as [|[x v] t IH] using rev_ind.
  - cbn. split; [easy|]. intros (k & e & [] & _).
  - rewrite fold_left_app. cbn [fold_left fst snd].
    rewrite <- dget_some_iff, dget_dset. destruct (String.eqb_spec n (vm_name v)) as [En|Nn].
    + split; [|intros _; now eexists]. intros _. exists x, v. split; [apply in_app_iff; right; now left|now symmetry].
    + rewrite dget_some_iff, IH. split; intros (k & e & I & E).
      * exists k, e. split; [apply in_app_iff; now left|exact E].
      * exists k, e. split; [|exact E]. apply in_app_iff in I. destruct I as [I|[[= <- <-]|[]]]; [exact I|congruence].
Qed.

Lemma tags_ok ns acc : NoDup (acc ++ ns) -> fold_res append_tag ns acc = Ok (acc ++ ns).
Proof.
  revert acc. induction ns as [|n t IH]; intros acc H; cbn [fold_res].
  - now rewrite app_nil_r.
  - unfold append_tag at 1. rewrite (proj2 (existsb_string_false n acc)).
    + cbn [bind]. rewrite IH; rewrite <- app_assoc; [reflexivity|exact H].
    + intros I. apply NoDup_remove_2 in H. apply H. apply in_app_iff. now left.
Qed.

Lemma tags_inv ns acc tags : fold_res append_tag ns acc = Ok tags -> tags = acc ++ ns /\ (NoDup acc -> NoDup tags).
Proof.
  revert acc. induction ns as [|n t IH]; intros acc; cbn [fold_res].
  - intros [= <-]. now rewrite app_nil_r.
  - unfold append_tag at 1. destruct (existsb (String.eqb n) acc) eqn:E; [easy|]. cbn [bind]. intros H.
    destruct (IH _ H) as (-> & N). rewrite <- app_assoc. split; [reflexivity|].
    intros Na. rewrite <- app_assoc in N. apply N. apply NoDup_app_intro; [exact Na|repeat constructor; easy|].
    intros x I [<-|[]]. now apply existsb_string_false in E.
Qed.

Lemma tags_twice ns : ~ NoDup ns -> fold_res append_tag ns [] = Err ValueError.
Proof.
  intros H. destruct (fold_res append_tag ns []) as [tags|e] eqn:E.
  - destruct (tags_inv _ _ _ E) as (-> & N). exfalso. apply H. apply N. constructor.
  - f_equal. assert (G : forall l acc, fold_res append_tag l acc = Err e -> e = ValueError).
    { induction l as [|n t IH]; intros acc; cbn [fold_res]; [easy|]. unfold append_tag at 1.
      destruct (existsb (String.eqb n) acc); cbn [bind]; [congruence|apply IH]. }
    exact (G _ _ E).
Qed.

Lemma data_variables_all f : (forall n, In n (f_tags f) -> In n (map fst (f_vars f))) ->
  map fst (data_variables f) = f_tags f.
Proof.
  unfold data_variables. induction (f_tags f) as [|n t IH]; intros H; [reflexivity|]. cbn [flat_map].
  destruct (proj2 (dget_some_iff (f_vars f) n) (H n (or_introl eq_refl))) as (v & E). rewrite E. cbn [app map fst].
  f_equal. apply IH. intros x I. apply H. now right.
Qed.

Lemma field_name_ok r : (exists ns, rd_rename r = Ok ns) \/ rd_rename r = Err NoDataVariablesFound ->
  exists n, rd_field_name r = Ok n.
Proof.
  intros H. unfold rd_field_name. destruct (r_field_name r) as [n|]; [now exists n|].
  destruct H as [(ns & ->)| ->].
  - destruct ns as [|n [|n' t]]; eexists; reflexivity.
  - eexists; reflexivity.
Qed.

(** Without new names. *)
Lemma get_plain file r vs : r_rename r = None -> from_file (r_meta r) -> rd_variable r = Ok vs -> NoDup vs ->
  exists f, rd_get file r = Ok f /\ data_variables f = map (fun v => (v, (file, v))) vs /\
    (forall k, In k (map fst (r_meta r)) -> dget String.eqb (f_vars f) k = Some (file, k)) /\
    (forall k, In k (map fst (f_vars f)) -> In k (map fst (r_meta r))).
Proof.
  intros Hr (ND & Nm) Hv NDv. pose proof (rd_variable_raw r vs Hv) as W.
  assert (M : metadata_of r = Ok (r_meta r)).
  { unfold metadata_of. rewrite Hr. now destruct (r_given r). }
  assert (R : rd_rename r = Ok vs).
  { unfold rd_rename. rewrite M. cbn [bind]. unfold rename_of. rewrite Hr. exact W. }
  destruct (field_name_ok r (or_introl (ex_intro _ vs R))) as (name & Fn).
  unfold rd_get. rewrite M, Fn, R. cbn [bind]. rewrite (tags_ok vs []) by exact NDv. cbn [bind app].
  assert (Raw : forall k, In k (map fst (r_meta r)) -> dget String.eqb (raw_variables file (r_meta r)) k = Some (file, k)).
  { intros k I. destruct (proj2 (dget_some_iff _ _) I) as (e & E). apply dget_in in E.
    apply (raw_dget file _ k k e E (Nm k e E)). intros k' e' I' E'. rewrite <- (Nm k' e' I'). exact E'. }
  eexists. split; [reflexivity|]. split; [|split].
  - unfold data_variables. cbn [f_vars f_tags].
    assert (Hin : forall v, In v vs -> In v (map fst (r_meta r))) by (intros v; exact (variable_sub _ _ _ v W)).
    clear - Raw Hin. induction vs as [|v t IH]; [reflexivity|]. cbn [flat_map map].
    rewrite (Raw v) by (apply Hin; now left). cbn [app]. f_equal. apply IH. intros x I. apply Hin. now right.
  - exact Raw.
  - cbn [f_vars]. intros k I. apply raw_in in I. destruct I as (k' & e & I & E).
    rewrite (Nm k' e I) in E. subst. apply in_map_iff. now exists (k, e).
Qed.

(** Requests without data variables. *)
Lemma get_no_data file r : r_rename r = None -> from_file (r_meta r) -> rd_variable r = Err NoDataVariablesFound ->
  exists f, rd_get file r = Ok f /\ data_variables f = [] /\
    (forall k, In k (map fst (r_meta r)) -> dget String.eqb (f_vars f) k = Some (file, k)).
Proof.
  intros Hr (ND & Nm) Hv.
  assert (M : metadata_of r = Ok (r_meta r)).
  { unfold metadata_of. rewrite Hr. now destruct (r_given r). }
  assert (R : rd_rename r = Err NoDataVariablesFound).
  { unfold rd_rename. unfold rd_variable in Hv. rewrite M in *. cbn [bind] in *. unfold rename_of. now rewrite Hr. }
  destruct (field_name_ok r (or_intror R)) as (name & Fn).
  unfold rd_get. rewrite M, Fn, R. cbn [bind]. eexists. split; [reflexivity|]. split; [reflexivity|].
  cbn [f_vars]. intros k I. destruct (proj2 (dget_some_iff _ _) I) as (e & E). apply dget_in in E.
  apply (raw_dget file _ k k e E (Nm k e E)). intros k' e' I' E'. rewrite <- (Nm k' e' I'). exact E'.
Qed.

Lemma combine_fst {A B} (l : list A) (m : list B) : List.length m = List.length l -> map fst (combine l m) = l.
Proof.
  revert m. induction l as [|a t IH]; intros [|b m] H; try easy. cbn. f_equal. apply IH. now injection H.
Qed.

Lemma dget_combine (vs ns : list string) v n : NoDup vs -> List.length ns = List.length vs ->
  In (v, n) (combine vs ns) -> dget String.eqb (combine vs ns) v = Some n.
Proof. intros N L I. apply dget_nodup; [now rewrite combine_fst|exact I]. Qed.

(** With new names, one for each variable. *)
Lemma get_renamed file r vs ns :
  r_given r = false -> from_file (r_meta r) ->
  variable_of r (r_meta r) = Ok vs -> NoDup vs ->
  r_rename r = Some ns -> List.length ns = List.length vs -> NoDup ns ->
  (forall k, In k (map fst (r_meta r)) -> ~ In k vs -> ~ In k ns) ->
  exists f, rd_get file r = Ok f /\
    data_variables f = combine ns (map (fun v => (file, v)) vs) /\
    (forall k, In k (map fst (r_meta r)) -> ~ In k vs -> dget String.eqb (f_vars f) k = Some (file, k)).
Proof.
  intros Hg (ND & Nm) W NDv Hr Len NDn Clash.
  assert (Hin : forall v, In v vs -> In v (map fst (r_meta r))) by (intros v; exact (variable_sub _ _ _ v W)).
  assert (Ne : ns <> []).
  { intros ->. destruct vs; [|easy]. exact (variable_nonempty _ _ _ W eq_refl). }
  assert (Rn : rename_of r (r_meta r) = Ok ns).
  { unfold rename_of. rewrite Hr. now destruct ns. }
  assert (RM : rename_map r (r_meta r) = Ok (combine vs ns)).
  { unfold rename_map. rewrite W, Rn. cbn [bind]. f_equal.
    rewrite fold_dset_nodup; [reflexivity|]. cbn [app]. now rewrite combine_fst. }
  destruct (fold_set_ok (combine vs ns) (r_meta r)) as (m & M).
  { intros k I. rewrite combine_fst in I by exact Len. exact (Hin k I). }
  assert (MM : metadata_of r = Ok m).
  { unfold metadata_of. rewrite Hg, Hr, RM. cbn [bind]. exact M. }
  pose proof (metadata_same r m MM) as SM.
  assert (NM : NoDup (map fst m)) by (rewrite (same_keys _ _ SM); exact ND).
  assert (R : rd_rename r = Ok ns).
  { unfold rd_rename. rewrite MM. cbn [bind]. rewrite (same_rename r _ _ SM). exact Rn. }
  assert (Names : forall k e', In (k, e') m -> vm_name e' = match dget String.eqb (combine vs ns) k with Some n => n | None => k end).
  { intros k e' I. pose proof (dget_nodup m k e' NM I) as D.
    assert (J : In k (map fst (r_meta r))).
    { rewrite <- (same_keys _ _ SM). apply in_map_iff. now exists (k, e'). }
    destruct (proj2 (dget_some_iff _ _) J) as (e & E).
    assert (NDc : NoDup (map fst (combine vs ns))) by (now rewrite combine_fst).
    destruct (fold_set_names (combine vs ns) (r_meta r) m k e NDc M E) as (e2 & E2 & V).
    rewrite D in E2. injection E2 as <-. rewrite V.
    destruct (dget String.eqb (combine vs ns) k); [reflexivity|]. exact (Nm k e (dget_in _ _ _ E)). }
  assert (Inj : forall v v' n, In (v, n) (combine vs ns) -> In (v', n) (combine vs ns) -> v = v').
  { clear - NDn Len. revert ns NDn Len. induction vs as [|a t IH]; intros [|b ns] NDn Len v v' n I I'; try easy.
    inversion NDn; subst. cbn [combine In] in I, I'.
    assert (P : forall w x, In (w, x) (combine t ns) -> In x ns).
    { intros w x J. now apply in_combine_r in J. }
    destruct I as [E|I], I' as [E'|I'].
    - congruence.
    - exfalso. apply H1. injection E as _ ->. exact (P _ _ I').
    - exfalso. apply H1. injection E' as _ ->. exact (P _ _ I).
    - cbn in Len. injection Len as Len. exact (IH ns H2 Len v v' n I I'). }
  assert (D1 : forall v n, In (v, n) (combine vs ns) -> dget String.eqb (raw_variables file m) n = Some (file, v)).
  { intros v n I. assert (Iv : In v (map fst m)) by (rewrite (same_keys _ _ SM); apply Hin; now apply in_combine_l in I).
    destruct (proj2 (dget_some_iff _ _) Iv) as (e & E). apply dget_in in E.
    apply (raw_dget file m n v e E).
    - rewrite (Names v e E). now rewrite (dget_combine vs ns v n NDv Len I).
    - intros k' e' I' E'. rewrite (Names k' e' I') in E'.
      destruct (dget String.eqb (combine vs ns) k') as [n'|] eqn:Ek.
      + subst n'. apply dget_in in Ek. exact (Inj _ _ _ Ek I).
      + subst k'. exfalso. apply (Clash n).
        * rewrite <- (same_keys _ _ SM). apply in_map_iff. now exists (n, e').
        * apply dget_none in Ek. now rewrite combine_fst in Ek.
        * now apply in_combine_r in I. }
  assert (D2 : forall k, In k (map fst (r_meta r)) -> ~ In k vs -> dget String.eqb (raw_variables file m) k = Some (file, k)).
  { intros k I Nk. pose proof I as I0. rewrite <- (same_keys _ _ SM) in I.
    destruct (proj2 (dget_some_iff _ _) I) as (e & E). apply dget_in in E.
    assert (Ek : dget String.eqb (combine vs ns) k = None) by (apply dget_none; now rewrite combine_fst).
    apply (raw_dget file m k k e E).
    - now rewrite (Names k e E), Ek.
    - intros k' e' I' E'. rewrite (Names k' e' I') in E'.
      destruct (dget String.eqb (combine vs ns) k') as [n'|] eqn:Ek'; [|exact E'].
      subst n'. apply dget_in in Ek'. apply in_combine_r in Ek'. exfalso. exact (Clash k I0 Nk Ek'). }
  destruct (field_name_ok r (or_introl (ex_intro _ ns R))) as (name & Fn).
  unfold rd_get. rewrite MM, Fn, R. cbn [bind]. rewrite (tags_ok ns []) by exact NDn. cbn [bind app].
  eexists. split; [reflexivity|]. split; [|exact D2].
  unfold data_variables. cbn [f_vars f_tags].
  clear - D1 Len. revert vs D1 Len. induction ns as [|n t IH]; intros [|v vs] D1 Len; try easy.
  cbn [flat_map map combine]. rewrite (D1 v n) by (now left). cbn [app]. f_equal.
  apply IH; [|now injection Len]. intros w x I. apply D1. now right.
Qed.

(** The names of data variables are always among the new names. *)
Lemma data_among file r ns f : r_rename r = Some ns -> rd_get file r = Ok f ->
  (forall n, In n (map fst (data_variables f)) -> In n ns) /\ (List.length (data_variables f) <= List.length ns)%nat.
Proof.
  intros Hr. unfold rd_get. destruct (metadata_of r) as [m|] eqn:M; [|easy]. cbn [bind].
  destruct (rd_field_name r) as [name|]; [|easy]. cbn [bind].
  assert (R : rd_rename r = first_or_tuple ns).
  { unfold rd_rename. rewrite M. cbn [bind]. unfold rename_of. now rewrite Hr. }
  rewrite R. destruct ns as [|n0 t0]; [cbn [first_or_tuple]; easy|]. cbn [first_or_tuple].
  set (ns := n0 :: t0) in *. destruct (fold_res append_tag ns []) as [tags|] eqn:T; [|easy]. cbn [bind].
  intros [= <-]. destruct (tags_inv _ _ _ T) as (-> & _). unfold data_variables. cbn [f_vars f_tags app].
  clear. set (d := raw_variables file m). clearbody d. clearbody ns. induction ns as [|n t (IH1 & IH2)].
  - split; [easy|cbn; lia].
  - cbn [flat_map]. destruct (dget String.eqb d n); cbn [app map fst In List.length]; split; try lia.
    + intros x [E|I]; [now left|right; auto].
    + intros x I. right. auto.
Qed.

(** New names with metadata given by the user. *)
Lemma get_given file r ns f : r_given r = true -> r_rename r = Some ns -> rd_get file r = Ok f ->
  (forall k e, In (k, e) (r_meta r) -> ~ In (vm_name e) ns) -> data_variables f = [].
Proof.
  intros Hg Hr. unfold rd_get, metadata_of. rewrite Hg. cbn [bind].
  destruct (rd_field_name r) as [name|]; [|easy]. cbn [bind].
  assert (R : rd_rename r = first_or_tuple ns).
  { unfold rd_rename, metadata_of. rewrite Hg. cbn [bind]. unfold rename_of. now rewrite Hr. }
  rewrite R. destruct ns as [|n0 t0]; [cbn [first_or_tuple]; easy|]. cbn [first_or_tuple].
  set (ns := n0 :: t0) in *. destruct (fold_res append_tag ns []) as [tags|] eqn:T; [|easy]. cbn [bind].
  intros [= <-] H. destruct (tags_inv _ _ _ T) as (-> & _). unfold data_variables. cbn [f_vars f_tags app].
  clear T R Hr. clearbody ns. induction ns as [|n t IH]; [reflexivity|]. cbn [flat_map].
  rewrite (proj2 (dget_none _ n)).
  - cbn [app]. apply IH. intros k e I J. exact (H k e I (or_intror J)).
  - intros I. apply raw_in in I. destruct I as (k & e & I & E). apply (H k e I). left. now symmetry.
Qed.

(** A variable asked for twice. *)
Lemma get_twice file r vs : r_rename r = None -> rd_variable r = Ok vs -> ~ NoDup vs -> rd_get file r = Err ValueError.
Proof.
  intros Hr Hv ND. unfold rd_variable in Hv.
  assert (M : metadata_of r = Ok (r_meta r)).
  { unfold metadata_of. rewrite Hr. now destruct (r_given r). }
  rewrite M in Hv. cbn [bind] in Hv.
  assert (R : rd_rename r = Ok vs).
  { unfold rd_rename. rewrite M. cbn [bind]. unfold rename_of. now rewrite Hr. }
  destruct (field_name_ok r (or_introl (ex_intro _ vs R))) as (name & Fn).
  unfold rd_get. rewrite M, Fn, R. cbn [bind]. now rewrite (tags_twice vs ND).
Qed.

(** Names of fields. *)
Lemma field_name_given r n : r_field_name r = Some n -> rd_field_name r = Ok n.
Proof. intros H. unfold rd_field_name. now rewrite H. Qed.

Lemma field_name_one r n : r_field_name r = None -> rd_rename r = Ok [n] -> rd_field_name r = Ok n.
Proof. intros H R. unfold rd_field_name. now rewrite H, R. Qed.

Lemma field_name_many r a b t : r_field_name r = None -> rd_rename r = Ok (a :: b :: t) -> rd_field_name r = Ok "ocgis_field".
Proof. intros H R. unfold rd_field_name. now rewrite H, R. Qed.

Lemma rd_get_name file r f : rd_get file r = Ok f -> rd_field_name r = Ok (f_name f).
Proof.
  unfold rd_get. destruct (metadata_of r) as [m|]; [|easy]. cbn [bind].
  destruct (rd_field_name r) as [name|]; [|easy]. cbn [bind].
  destruct (match rd_rename r with Ok ns => _ | Err _ => _ end) as [tags|]; [|easy]. cbn [bind]. now intros [= <-].
Qed.

(** ** Which variables are data variables *)

Lemma undup_in x l : In x (undup l) <-> In x l.
Proof.
  induction l as [|a t IH]; [easy|]. cbn [undup In]. destruct (existsb (String.eqb a) t) eqn:E.
  - rewrite IH. apply existsb_string in E. split; [now right|]. intros [->|I]; auto.
  - cbn [In]. now rewrite IH.
Qed.

Lemma undup_nodup l : NoDup (undup l).
Proof.
  induction l as [|a t IH]; [constructor|]. cbn [undup]. destruct (existsb (String.eqb a) t) eqn:E; [exact IH|].
  constructor; [|exact IH]. rewrite undup_in. now apply existsb_string_false.
Qed.

Lemma filter_length_all {A} (f : A -> bool) l : List.length (filter f l) = List.length l <-> forall x, In x l -> f x = true.
Proof.
  induction l as [|a t IH]; [easy|]. cbn [filter]. destruct (f a) eqn:E; cbn [List.length].
  - split.
    + intros H x [<-|I]; [exact E|]. apply IH; [now injection H|exact I].
    + intros H. f_equal. apply IH. intros x I. apply H. now right.
  - split.
    + intros H. exfalso.
      assert (G : (List.length (filter f t) <= List.length t)%nat).
      { clear. induction t as [|b t IH]; [cbn; lia|]. cbn [filter]. destruct (f b); cbn [List.length]; lia. }
      lia.
    + intros H. rewrite (H a (or_introl eq_refl)) in E. easy.
Qed.

Lemma filter_len_le {A} (f : A -> bool) (l : list A) : (List.length (filter f l) <= List.length l)%nat.
Proof. induction l as [|b t IH]; [cbn; lia|]. cbn [filter]. destruct (f b); cbn [List.length]; lia. Qed.

Lemma data_three r m t x y v : r_time r = Some [t] -> r_x r = Some [x] -> r_y r = Some [y] ->
  t <> x -> t <> y -> x <> y ->
  (In v (data_variable_names r m) <->
   exists e, In (v, e) m /\ In t (vm_dims e) /\ In x (vm_dims e) /\ In y (vm_dims e)).
Proof.
  intros Ht Hx Hy N1 N2 N3. unfold data_variable_names. rewrite Ht, Hx, Hy. cbn [app].
  replace (undup [t; x; y]) with [t; x; y].
  2:{ cbn [undup existsb]. rewrite !orb_false_r.
      destruct (String.eqb_spec t x); [easy|]. destruct (String.eqb_spec t y); [easy|].
      destruct (String.eqb_spec x y); [easy|]. reflexivity. }
  rewrite in_map_iff. split.
  - intros ([k e] & E & I). cbn in E. subst k. apply filter_In in I. destruct I as (I & F). cbn [snd] in F.
    apply Nat.eqb_eq in F. change 3%nat with (List.length [t; x; y]) in F.
    rewrite filter_length_all in F. exists e. split; [exact I|].
    split; [|split]; apply existsb_string; apply F; cbn; auto.
  - intros (e & I & It & Ix & Iy). exists (v, e). split; [reflexivity|]. apply filter_In. split; [exact I|]. cbn [snd].
    apply Nat.eqb_eq. change 3%nat with (List.length [t; x; y]). apply filter_length_all.
    intros d [<-|[<-|[<-|[]]]]; now apply existsb_string.
Qed.

Lemma data_shared r m t s : r_time r = Some [t] -> r_x r = Some [s] -> r_y r = Some [s] -> data_variable_names r m = [].
Proof.
  intros Ht Hx Hy. unfold data_variable_names. rewrite Ht, Hx, Hy. cbn [app].
  set (needed := undup [t; s; s]).
  assert (L : (List.length needed <= 2)%nat).
  { unfold needed. cbn [undup existsb]. rewrite !String.eqb_refl. cbn [orb].
    destruct (String.eqb t s || (String.eqb t s || false)); cbn; lia. }
  induction m as [|[k e] q IH]; [reflexivity|]. cbn [filter snd].
  pose proof (filter_len_le (fun d => existsb (String.eqb d) (vm_dims e)) needed) as G.
  destruct (Nat.eqb_spec (List.length (filter (fun d => existsb (String.eqb d) (vm_dims e)) needed)) 3) as [E|E]; [lia|].
  exact IH.
Qed.

Lemma data_missing r m : r_time r = None \/ r_x r = None \/ r_y r = None -> data_variable_names r m = [].
Proof.
  unfold data_variable_names. destruct (r_time r); [|reflexivity]. destruct (r_x r); [|reflexivity].
  destruct (r_y r); [|reflexivity]. intros [E|[E|E]]; easy.
Qed.

Lemma rd_variable_found r : r_variable r = None -> r_rename r = None ->
  rd_variable r = match data_variable_names r (r_meta r) with [] => Err NoDataVariablesFound | l => Ok l end.
Proof.
  intros Hv Hr. unfold rd_variable, metadata_of. rewrite Hr.
  assert (G : (if r_given r then Ok (r_meta r) else Ok (r_meta r)) = Ok (r_meta r)) by (now destruct (r_given r)).
  rewrite G. cbn [bind]. unfold variable_of. rewrite Hv. cbn [bind].
  now destruct (data_variable_names r (r_meta r)).
Qed.

(** ** Several datasets *)

Lemma add_data_ok f n s : ~ In n (map fst (f_vars f)) -> ~ In n (f_tags f) ->
  add_data_variable f (n, s) = Ok (mkfield (f_name f) (f_vars f ++ [(n, s)]) (f_tags f ++ [n])).
Proof.
  intros Nv Nt. unfold add_data_variable. cbn [fst snd].
  destruct (dmem String.eqb (f_vars f) n) eqn:E; [apply dmem_iff in E; contradiction|].
  rewrite dset_new by exact Nv. f_equal. f_equal.
  destruct (existsb (String.eqb n) (map fst (data_variables (mkfield (f_name f) (f_vars f ++ [(n, s)]) (f_tags f))))) eqn:X; [|reflexivity].
  exfalso. apply existsb_string in X. apply in_map_iff in X. destruct X as ([n' s'] & <- & X). cbn [fst] in *.
  unfold data_variables in X. cbn [f_vars f_tags] in X. apply in_flat_map in X. destruct X as (t & I & J).
  destruct (dget String.eqb (f_vars f ++ [(n', s)]) t); [|easy]. destruct J as [[= -> _]|[]]. contradiction.
Qed.

Definition coherent (f : field) : Prop := NoDup (f_tags f) /\ (forall n, In n (f_tags f) -> In n (map fst (f_vars f))).

Lemma dget_app_old {V} (d e : list (string * V)) k : In k (map fst d) -> dget String.eqb (d ++ e) k = dget String.eqb d k.
Proof.
  induction d as [|[k' v] t IH]; [easy|]. cbn [map fst In app dget]. intros [E|I].
  - subst. now rewrite String.eqb_refl.
  - destruct (String.eqb k k'); [reflexivity|exact (IH I)].
Qed.

Lemma dget_app_new {V} (d : list (string * V)) k v : ~ In k (map fst d) -> dget String.eqb (d ++ [(k, v)]) k = Some v.
Proof.
  induction d as [|[k' v'] t IH]; cbn [map fst In app dget]; intros N.
  - now rewrite String.eqb_refl.
  - destruct (String.eqb_spec k k') as [->|N']; [exfalso; apply N; now left|].
    apply IH. intros I. apply N. now right.
Qed.

Lemma data_variables_add f n s : coherent f -> ~ In n (map fst (f_vars f)) ->
  data_variables (mkfield (f_name f) (f_vars f ++ [(n, s)]) (f_tags f ++ [n])) = data_variables f ++ [(n, s)].
Proof.
  intros (_ & C) N. unfold data_variables. cbn [f_vars f_tags]. rewrite flat_map_app. f_equal.
  - induction (f_tags f) as [|t q IH]; [reflexivity|]. cbn [flat_map].
    rewrite dget_app_old by (apply C; now left). f_equal. apply IH. intros x I. apply C. now right.
  - cbn [flat_map]. now rewrite dget_app_new.
Qed.

Lemma coherent_add f n s : coherent f -> ~ In n (map fst (f_vars f)) ->
  coherent (mkfield (f_name f) (f_vars f ++ [(n, s)]) (f_tags f ++ [n])).
Proof.
  intros (N & C) Nn. split; cbn [f_vars f_tags].
  - apply NoDup_app_intro; [exact N|repeat constructor; easy|]. intros x I [<-|[]]. auto.
  - intros x I. rewrite map_app, in_app_iff. apply in_app_iff in I. destruct I as [I|I]; [left; auto|now right].
Qed.

Lemma add_all f l : coherent f -> NoDup (map fst (f_vars f) ++ map fst l) ->
  exists g, fold_res add_data_variable l f = Ok g /\ coherent g /\ f_name g = f_name f /\
    f_vars g = f_vars f ++ l /\ data_variables g = data_variables f ++ l.
Proof.
  revert f. induction l as [|[n s] t IH]; intros f C N; cbn [fold_res].
  - exists f. rewrite !app_nil_r. auto.
  - cbn [map fst] in N.
    assert (Nn : ~ In n (map fst (f_vars f))).
    { apply NoDup_remove_2 in N. intros I. apply N. apply in_app_iff. now left. }
    rewrite add_data_ok; [|exact Nn|intros I; apply Nn; now apply C]. cbn [bind].
    set (f1 := mkfield (f_name f) (f_vars f ++ [(n, s)]) (f_tags f ++ [n])).
    destruct (IH f1) as (g & G & Cg & Hn & Hv & Hd).
    + now apply coherent_add.
    + unfold f1. cbn [f_vars]. rewrite map_app, <- app_assoc. exact N.
    + exists g. split; [exact G|]. split; [exact Cg|]. split; [exact Hn|]. split.
      * rewrite Hv. unfold f1. cbn [f_vars]. now rewrite <- app_assoc.
      * rewrite Hd. unfold f1. rewrite data_variables_add by assumption. now rewrite <- app_assoc.
Qed.

Lemma add_clash f l n : In n (map fst l) -> In n (map fst (f_vars f)) -> coherent f ->
  fold_res add_data_variable l f = Err VariableInCollectionError.
Proof.
  intros Il If C. revert f If C. induction l as [|[k s] t IH]; [easy|]. intros f If C. cbn [fold_res].
  destruct (dmem String.eqb (f_vars f) k) eqn:E.
  - unfold add_data_variable at 1. cbn [fst]. rewrite E. reflexivity.
  - assert (Nk : ~ In k (map fst (f_vars f))) by (intros I; apply dmem_iff in I; congruence).
    rewrite add_data_ok; [|exact Nk|intros I; apply Nk; now apply C]. cbn [bind]. apply IH.
    + destruct Il as [<-|I]; [contradiction|exact I].
    + cbn [f_vars]. rewrite map_app, in_app_iff. now left.
    + now apply coherent_add.
Qed.

Lemma multi_add_ok i rds fs target : got i rds fs -> coherent target ->
  NoDup (map fst (f_vars target) ++ map fst (List.concat (map data_variables fs))) ->
  exists g, multi_add i target rds = Ok g /\ f_name g = f_name target /\
    f_vars g = f_vars target ++ List.concat (map data_variables fs) /\
    data_variables g = data_variables target ++ List.concat (map data_variables fs).
Proof.
  intros G. revert target. induction G as [i|i r f rs fs E G IH]; intros target C N; cbn [multi_add map List.concat].
  - exists target. rewrite !app_nil_r. auto.
  - rewrite E. cbn [bind]. cbn [map List.concat] in N. rewrite map_app, app_assoc in N.
    destruct (add_all target (data_variables f) C) as (g & H & Cg & Hn & Hv & Hd).
    { clear - N. induction (map fst (List.concat (map data_variables fs))) as [|a t IH] using rev_ind.
      - now rewrite app_nil_r in N.
      - apply IH. rewrite app_assoc in N. apply NoDup_remove_1 in N. now rewrite app_nil_r in N. }
    rewrite H. cbn [bind]. destruct (IH g Cg) as (h & Hh & An & Av & Ad).
    { rewrite Hv, map_app. exact N. }
    exists h. split; [exact Hh|]. split; [congruence|]. split.
    + now rewrite Av, Hv, <- app_assoc.
    + now rewrite Ad, Hd, <- app_assoc.
Qed.

(** The names in a field read from a file are coherent when no new names are given. *)
Lemma get_coherent i r f vs : r_rename r = None -> from_file (r_meta r) -> rd_variable r = Ok vs ->
  rd_get i r = Ok f -> coherent f.
Proof.
  intros Hr Ff Hv G.
  destruct (ListDec.NoDup_dec string_dec vs) as [N|N].
  - destruct (get_plain i r vs Hr Ff Hv N) as (f' & G' & D & A & _). rewrite G in G'. injection G' as <-.
    assert (T : f_tags f = vs).
    { revert G. unfold rd_get. destruct (metadata_of r) as [m|] eqn:M; [|easy]. cbn [bind].
      destruct (rd_field_name r) as [name|]; [|easy]. cbn [bind].
      assert (R : rd_rename r = Ok vs).
      { unfold rd_rename. rewrite M. cbn [bind]. unfold rename_of. rewrite Hr.
        unfold rd_variable in Hv. rewrite M in Hv. exact Hv. }
      rewrite R, (tags_ok vs []) by exact N. cbn [bind app]. now intros [= <-]. }
    split; rewrite T; [exact N|]. intros n I.
    apply dget_some_iff. exists (i, n). apply A. exact (variable_sub _ _ _ n (rd_variable_raw _ _ Hv) I).
  - rewrite (get_twice i r vs Hr Hv N) in G. easy.
Qed.

Lemma multi_get_ok r rs f fs vs : r_rename r = None -> from_file (r_meta r) -> rd_variable r = Ok vs ->
  got 0 (r :: rs) (f :: fs) ->
  NoDup (map fst (f_vars f) ++ map fst (List.concat (map data_variables fs))) ->
  exists g, multi_get (r :: rs) = Ok g /\ f_name g = f_name f /\
    f_vars g = f_vars f ++ List.concat (map data_variables fs) /\
    data_variables g = List.concat (map data_variables (f :: fs)).
Proof.
  intros Hr Ff Hv G N. inversion G; subst. unfold multi_get.
  match goal with H : rd_get 0 r = Ok f |- _ => rewrite H; pose proof (get_coherent 0 r f vs Hr Ff Hv H) as C end.
  cbn [bind map List.concat]. match goal with H : got 1 rs fs |- _ => exact (multi_add_ok 1 rs fs f H C N) end.
Qed.

Lemma multi_get_clash r q rs f fq vs n : r_rename r = None -> from_file (r_meta r) -> rd_variable r = Ok vs ->
  rd_get 0 r = Ok f -> rd_get 1 q = Ok fq ->
  In n (map fst (data_variables fq)) -> In n (map fst (f_vars f)) ->
  multi_get (r :: q :: rs) = Err VariableInCollectionError.
Proof.
  intros Hr Ff Hv G Gq In1 In2. unfold multi_get. rewrite G. cbn [bind multi_add]. rewrite Gq. cbn [bind].
  now rewrite (add_clash f _ n In1 In2 (get_coherent 0 r f vs Hr Ff Hv G)).
Qed.

(** Reading the metadata of all changes the first dataset. *)
Lemma add_entries_in mq vs m m' : fold_res (fun m v => match dget String.eqb mq v with
    | Some e => Ok (dset String.eqb m v e) | None => Err KeyError end) vs m = Ok m' ->
  (forall k e, In (k, e) mq -> vm_name e = k) ->
  (forall v, In v (map fst m) -> exists e, dget String.eqb m' v = Some e /\ (dget String.eqb m v = Some e \/ vm_name e = v)) /\
  (forall v, In v vs -> exists e, dget String.eqb m' v = Some e /\ vm_name e = v).
Proof.
  intros H Nm. revert m H. induction vs as [|v t IH]; intros m; cbn [fold_res].
  - intros [= <-]. split; [|easy]. intros v I. destruct (proj2 (dget_some_iff m v) I) as (e & E). exists e. auto.
  - destruct (dget String.eqb mq v) as [e|] eqn:E; [|easy]. cbn [bind]. intros H.
    pose proof (Nm v e (dget_in _ _ _ E)) as Ev.
    destruct (IH _ H) as (A & B). split.
    + intros w I. destruct (A w) as (e' & E' & D).
      * apply dget_some_iff. rewrite dget_dset. destruct (String.eqb w v); [now exists e|now apply dget_some_iff].
      * exists e'. split; [exact E'|]. rewrite dget_dset in D. destruct (String.eqb_spec w v) as [->|Nw]; [|exact D].
        right. destruct D as [[= <-]|D]; assumption.
    + intros w [<-|I]; [|exact (B w I)]. destruct (A v) as (e' & E' & D).
      * apply dget_some_iff. rewrite dget_dset, String.eqb_refl. now exists e.
      * exists e'. split; [exact E'|]. rewrite dget_dset, String.eqb_refl in D. destruct D as [[= <-]|D]; assumption.
Qed.

Definition merge_one (m : meta) (q : rd) : res meta :=
  do mq <- metadata_of q;
  do vs <- variable_of q mq;
  fold_res (fun m v => match dget String.eqb mq v with
                       | Some e => Ok (dset String.eqb m v e)
                       | None => Err KeyError end) vs m.

Lemma merge_in t : (forall q, In q t -> r_rename q = None /\ from_file (r_meta q)) -> forall m m',
  fold_res merge_one t m = Ok m' ->
  (forall v, In v (map fst m) -> exists e, dget String.eqb m' v = Some e /\ (dget String.eqb m v = Some e \/ vm_name e = v)) /\
  (forall q vs v, In q t -> rd_variable q = Ok vs -> In v vs -> exists e, dget String.eqb m' v = Some e /\ vm_name e = v).
Proof.
  induction t as [|q t IH]; intros Hq m m'; cbn [fold_res].
  - intros [= <-]. split; [|easy]. intros v I. destruct (proj2 (dget_some_iff m v) I) as (e & E). exists e. auto.
  - destruct (Hq q (or_introl eq_refl)) as (Hr & (ND & Nm)).
    destruct (merge_one m q) as [m1|] eqn:E1; [|easy]. cbn [bind]. intros H.
    destruct (IH (fun x I => Hq x (or_intror I)) m1 m' H) as (A & B).
    unfold merge_one in E1.
    assert (M : metadata_of q = Ok (r_meta q)).
    { unfold metadata_of. rewrite Hr. now destruct (r_given q). }
    rewrite M in E1. cbn [bind] in E1. destruct (variable_of q (r_meta q)) as [vs|] eqn:V; [|easy]. cbn [bind] in E1.
    destruct (add_entries_in _ _ _ _ E1 Nm) as (A1 & B1). split.
    + intros v I. destruct (A1 v I) as (e & E & D). destruct (A v) as (e' & E' & D').
      { apply dget_some_iff. now exists e. }
      exists e'. split; [exact E'|]. destruct D' as [D'|D']; [|now right]. rewrite E in D'. injection D' as ->. exact D.
    + intros q' vs' v [<-|I] Hv Iv; [|exact (B q' vs' v I Hv Iv)].
      unfold rd_variable in Hv. rewrite M in Hv. cbn [bind] in Hv. rewrite V in Hv. injection Hv as <-.
      destruct (B1 v Iv) as (e & E & Nv). destruct (A v) as (e' & E' & D').
      { apply dget_some_iff. now exists e. }
      exists e'. split; [exact E'|]. destruct D' as [D'|D']; [|exact D']. rewrite E in D'. injection D' as <-. exact Nv.
Qed.

Lemma raw_key file m v e : dget String.eqb m v = Some e -> vm_name e = v -> In v (map fst (raw_variables file m)).
Proof. intros E N. apply raw_in. exists v, e. split; [exact (dget_in _ _ _ E)|exact N]. Qed.

Lemma rd_get_vars i r f : rd_get i r = Ok f -> exists m, metadata_of r = Ok m /\ f_vars f = raw_variables i m.
Proof.
  unfold rd_get. destruct (metadata_of r) as [m|]; [|easy]. cbn [bind].
  destruct (rd_field_name r) as [name|]; [|easy]. cbn [bind].
  destruct (match rd_rename r with Ok ns => _ | Err _ => _ end) as [tags|]; [|easy]. cbn [bind]. intros [= <-].
  now exists m.
Qed.

Lemma add_clash_any f l n : In n (map fst l) -> In n (map fst (f_vars f)) ->
  fold_res add_data_variable l f = Err VariableInCollectionError.
Proof.
  revert f. induction l as [|[k s] t IH]; [easy|]. intros f Il If. cbn [fold_res].
  unfold add_data_variable at 1. cbn [fst snd]. destruct (dmem String.eqb (f_vars f) k) eqn:E; [reflexivity|].
  cbn [bind]. apply IH.
  - destruct Il as [<-|I]; [|exact I]. exfalso. apply dmem_iff in If. cbn [fst] in If. congruence.
  - cbn [f_vars]. apply dget_some_iff. rewrite dget_dset. destruct (String.eqb n k); [now exists s|]. now apply dget_some_iff.
Qed.

Lemma metadata_spoils r q t m rds' vs :
  (forall x, In x (r :: q :: t) -> r_rename x = None /\ from_file (r_meta x)) ->
  rd_variable q = Ok vs ->
  multi_metadata (r :: q :: t) = Ok (m, rds') ->
  exists r', rds' = r' :: q :: t /\ metadata_of r' = Ok m /\
    (forall v, In v vs -> In v (map fst m)) /\ (exists e, multi_get rds' = Err e).
Proof.
  intros H Hv E. unfold multi_metadata in E.
  destruct (metadata_of r) as [m0|] eqn:M0; [|easy]. cbn [bind] in E.
  change (fold_res _ (q :: t) m0) with (fold_res merge_one (q :: t) m0) in E.
  destruct (fold_res merge_one (q :: t) m0) as [m'|] eqn:F; [|easy]. cbn [bind] in E.
  injection E as -> <-.
  destruct (merge_in (q :: t) (fun x I => H x (or_intror I)) m0 m F) as (_ & B).
  specialize (B q vs).
  eexists. split; [reflexivity|]. split; [reflexivity|]. split.
  { intros v I. destruct (B v (or_introl eq_refl) Hv I) as (e & E & _). apply dget_some_iff. now exists e. }
  unfold multi_get. set (r' := mkrd m _ _ _ _ _ _ true).
  destruct (rd_get 0 r') as [f|e] eqn:G; [|now exists e]. cbn [bind multi_add].
  destruct (rd_get 1 q) as [fq|e] eqn:Gq; [|now exists e]. cbn [bind].
  exists VariableInCollectionError.
  destruct (H q (or_intror (or_introl eq_refl))) as (Hr & Ff).
  pose proof (get_coherent 1 q fq vs Hr Ff Hv Gq) as (_ & C).
  destruct (rd_get_vars _ _ _ G) as (m1 & M1 & V1). cbn in M1. injection M1 as <-.
  assert (T : f_tags fq = vs).
  { revert Gq. unfold rd_get. destruct (metadata_of q) as [mq|] eqn:M; [|easy]. cbn [bind].
    destruct (rd_field_name q) as [name|]; [|easy]. cbn [bind].
    assert (R : rd_rename q = Ok vs).
    { unfold rd_rename. rewrite M. cbn [bind]. unfold rename_of. rewrite Hr.
      unfold rd_variable in Hv. rewrite M in Hv. exact Hv. }
    rewrite R. destruct (fold_res append_tag vs []) as [tags|] eqn:Tg; [|easy]. cbn [bind]. intros [= <-].
    exact (proj1 (tags_inv _ _ _ Tg)). }
  destruct vs as [|v vt]; [exfalso; exact (variable_nonempty _ _ _ (rd_variable_raw _ _ Hv) eq_refl)|].
  rewrite (add_clash_any f _ v); [reflexivity| |].
  - rewrite data_variables_all by exact C. rewrite T. now left.
  - rewrite V1. destruct (B v (or_introl eq_refl) Hv (or_introl eq_refl)) as (e & E & N). exact (raw_key 0 m v e E N).
Qed.

(** Names and units of all datasets go together. *)
Lemma multi_aligned rds : (forall r, In r rds -> exists vs, rd_variable r = Ok vs) ->
  exists vs us, multi_variable rds = Ok vs /\ multi_units rds = Ok us /\
    Forall2 (fun v u => exists r e, In r rds /\ dget String.eqb (r_meta r) v = Some e /\ u = vm_units e) vs us.
Proof.
  intros H. unfold multi_variable, multi_units, multi_attribute.
  assert (G : exists vss uss, map_res rd_variable rds = Ok vss /\ map_res (rd_values vm_units) rds = Ok uss /\
     Forall2 (fun v u => exists r e, In r rds /\ dget String.eqb (r_meta r) v = Some e /\ u = vm_units e) (List.concat vss) (List.concat uss)).
  { induction rds as [|r t IH].
    - exists [], []. split; [reflexivity|]. split; [reflexivity|constructor].
    - destruct IH as (vss & uss & A & B & F); [intros x I; apply H; now right|].
      destruct (H r (or_introl eq_refl)) as (vs & V).
      destruct (rd_values_ok vm_units r vs V (fun a b E _ => E)) as (us & U & FU).
      exists (vs :: vss), (us :: uss). cbn [map_res]. rewrite V, A, U, B. split; [reflexivity|]. split; [reflexivity|].
      cbn [List.concat]. apply Forall2_app.
      + eapply Forall2_imp; [|exact FU]. intros v u (e & E & ->). exists r, e. split; [now left|auto].
      + eapply Forall2_imp; [|exact F]. intros v u (r' & e & I & E & ->). exists r', e. split; [now right|auto]. }
  destruct G as (vss & uss & A & B & F). exists (List.concat vss), (List.concat uss). rewrite A, B. auto.
Qed.
