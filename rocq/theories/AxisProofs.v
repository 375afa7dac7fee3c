(** Proofs about the axes of a file. *)
From Coq Require Import List String ZArith Bool Lia Permutation.
From Verif Require Import Py Lib DmapModel DmapSpec DmapProofs AxisModel AxisSpec RequestNames.
Import ListNotations.
Local Open Scope string_scope.
Local Open Scope Z_scope.

Lemma bind_Ok {A B} (m : res A) (f : A -> res B) r : bind m f = Ok r -> exists x, m = Ok x /\ f x = Ok r.
Proof. destruct m as [x|e]; cbn [bind]; [|discriminate]. intros H. now exists x. Qed.

(** ** Candidates *)

Lemma has_attr_iff v a x : has_attr v a x = true <-> attr v a = Some x.
Proof.
  unfold has_attr. destruct (attr v a) as [y|]; [|easy]. rewrite String.eqb_eq. split; [now intros ->|now intros [= ->]].
Qed.

Lemma dims_nonempty {A} (l : list A) : negb (zlen l =? 0) = true <-> l <> [].
Proof. destruct l as [|a l]; [easy|]. rewrite zlen_cons. pose proof (zlen_nonneg l). split; [easy|]. intros _. apply negb_true_iff. destruct (Z.eqb_spec (1 + zlen l) 0); [lia|reflexivity]. Qed.

Lemma by_attribute_plain ms a x : plain ms ->
  by_attribute ms a x = map fst (filter (fun kv => has_attr (snd kv) a x && negb (zlen (m_dims (snd kv)) =? 0)) ms).
Proof.
  intros [_ P]. apply map_ext_in. intros [k v] I. apply filter_In in I. destruct I as [I _]. now apply (P k v).
Qed.

Lemma by_attribute_in ms a x k : plain ms -> In k (by_attribute ms a x) <-> declares ms a x k.
Proof.
  intros P. rewrite (by_attribute_plain ms a x P), in_map_iff. unfold declares. split.
  - intros ((k' & v) & E & I). cbn [fst] in E. subst k'. apply filter_In in I. destruct I as [I H]. cbn [snd] in H.
    apply andb_true_iff in H. destruct H as [H1 H2]. exists v. split; [exact I|]. split; [now apply has_attr_iff|now apply dims_nonempty].
  - intros (v & I & H1 & H2). exists (k, v). split; [reflexivity|]. apply filter_In. split; [exact I|]. cbn [snd].
    apply andb_true_iff. split; [now apply has_attr_iff|now apply dims_nonempty].
Qed.

Lemma NoDup_map_filter {A B} (f : A -> B) (p : A -> bool) l : NoDup (map f l) -> NoDup (map f (filter p l)).
Proof.
  induction l as [|a l IH]; [easy|]. cbn [map filter]. intros H. inversion H as [|? ? N D]; subst. specialize (IH D).
  destruct (p a); [|exact IH]. cbn [map]. constructor; [|exact IH]. intros I. apply N. apply in_map_iff in I.
  destruct I as (b & E & I). apply filter_In in I. rewrite <- E. now apply in_map.
Qed.

Lemma by_attribute_nodup ms a x : plain ms -> NoDup (by_attribute ms a x).
Proof. intros P. rewrite (by_attribute_plain ms a x P). apply NoDup_map_filter, P. Qed.

Lemma by_name_plain ms A : plain ms -> by_name ms A = filter (dmem String.eqb ms) (axis_names A).
Proof.
  intros [_ P]. unfold by_name. induction (axis_names A) as [|n l IH]; [reflexivity|]. cbn [flat_map filter]. rewrite IH.
  assert (D : dmem String.eqb ms n = match dget String.eqb ms n with Some _ => true | None => false end) by reflexivity.
  rewrite D. destruct (dget String.eqb ms n) as [v|] eqn:E; [|reflexivity].
  apply dget_in in E. now rewrite (proj1 (P _ _ E)).
Qed.

Lemma usual_iff A k : In k (axis_names A) <-> usual_name A k.
Proof.
  unfold usual_name, axis_names. split.
  - destruct (String.eqb_spec A "T") as [->|N1]; [intros [<-|[]]; left; now split|].
    destruct (String.eqb_spec A "X") as [->|N2]; [intros I; right; left; now split|].
    destruct (String.eqb_spec A "Y") as [->|N3]; [intros I; right; right; left; now split|].
    destruct (String.eqb_spec A "Z") as [->|N4]; [intros I; right; right; right; now split|]. intros [].
  - intros [[-> ->]|[[-> I]|[[-> I]|[-> I]]]]; [now left|exact I|exact I|exact I].
Qed.

Lemma axis_names_nodup A : NoDup (axis_names A).
Proof.
  unfold axis_names. repeat match goal with |- context [if ?b then _ else _] => destruct b end;
    repeat (constructor; [cbn; intuition discriminate|]); constructor.
Qed.

Lemma by_name_in ms A k : plain ms -> In k (by_name ms A) <-> usual_name A k /\ In k (map fst ms).
Proof. intros P. rewrite (by_name_plain ms A P), filter_In, usual_iff, dmem_iff. reflexivity. Qed.

Lemma by_name_nodup ms A : plain ms -> NoDup (by_name ms A).
Proof. intros P. rewrite (by_name_plain ms A P). apply NoDup_filter, axis_names_nodup. Qed.

(** The list of candidates. *)
Definition candidates (strict : bool) (ms : vmetas) (A a x : string) : list string :=
  let vars := by_attribute ms a x in
  if negb strict && (zlen vars =? 0) then by_name ms A else vars.

Lemma candidates_spec strict ms A a x : plain ms ->
  NoDup (candidates strict ms A a x) /\ forall k, In k (candidates strict ms A a x) <-> candidate strict ms A a x k.
Proof.
  intros P. unfold candidates, candidate. cbv zeta.
  pose proof (fun k => by_attribute_in ms a x k P) as B. pose proof (by_attribute_nodup ms a x P) as N.
  destruct (by_attribute ms a x) as [|k0 l] eqn:E.
  - destruct strict; cbn [negb andb].
    + split; [exact N|]. intros k. rewrite (B k). intuition discriminate.
    + cbn. split; [now apply by_name_nodup|]. intros k. rewrite (by_name_in ms A k P). split.
      * intros [U I]. right. split; [reflexivity|]. split; [|now split]. intros k' D. now apply B in D.
      * intros [D|(_ & _ & U)]; [|exact U]. now apply B in D.
  - rewrite zlen_cons. pose proof (zlen_nonneg l). destruct (Z.eqb_spec (1 + zlen l) 0); [lia|].
    rewrite andb_false_r.
    split; [exact N|]. intros k. rewrite (B k). split; [now left|]. intros [D|(_ & F & _)]; [exact D|].
    exfalso. apply (F k0). apply B. now left.
Qed.

Lemma singleton (l : list string) (P : string -> Prop) n : NoDup l -> (forall k, In k l <-> P k) -> l = [n] <-> the_only P n.
Proof.
  intros N I. unfold the_only. split.
  - intros ->. split; [apply I; now left|]. intros k' H. apply I in H. now destruct H as [->|[]].
  - intros [H U]. destruct l as [|a [|b l]].
    + apply I in H. destruct H.
    + f_equal. apply U, I. now left.
    + exfalso. inversion N as [|? ? N1 N2]; subst. apply N1. left. transitivity n; [|symmetry]; apply U, I; cbn; auto.
Qed.

Lemma along_model strict A dims :
  (if negb strict && (String.eqb A "X" || String.eqb A "Y") && (1 <? zlen dims)
   then if String.eqb A "Y" then firstn 1 dims else firstn 1 (skipn 1 dims) else dims) = along strict A dims.
Proof.
  unfold along. destruct strict; [now destruct dims as [|? [|]]|]. cbn [negb andb].
  destruct dims as [|p [|q l]]; [now rewrite andb_comm|now rewrite andb_comm|].
  replace (1 <? zlen (p :: q :: l)) with true by (symmetry; apply Z.ltb_lt; rewrite !zlen_cons; pose proof (zlen_nonneg l); lia).
  rewrite andb_true_r. destruct (String.eqb_spec A "X") as [->|N]; cbn [orb]; [reflexivity|].
  destruct (String.eqb_spec A "Y") as [->|N']; reflexivity.
Qed.

Lemma create_entry_unfold A x ms strict a : create_entry A x ms strict a =
  match candidates strict ms A a x with
  | [n] => match dget String.eqb ms n with None => Err KeyError | Some v => Ok (Some (n, along strict A (m_dims v))) end
  | _ => Ok None
  end.
Proof.
  unfold create_entry, candidates. cbv zeta. match goal with |- match ?l with _ => _ end = _ => destruct l as [|n [|? ?]]; [reflexivity| |reflexivity] end.
  destruct (dget String.eqb ms n) as [v|]; [|reflexivity]. now rewrite along_model.
Qed.

Lemma candidate_in strict ms A a x k : candidate strict ms A a x k -> In k (map fst ms).
Proof. intros [(v & I & _)|(_ & _ & _ & I)]; [|exact I]. apply in_map_iff. now exists (k, v). Qed.

(** The entry of an axis. *)
Lemma create_entry_some A x ms strict a n v : plain ms -> the_only (candidate strict ms A a x) n -> In (n, v) ms ->
  create_entry A x ms strict a = Ok (Some (n, along strict A (m_dims v))).
Proof.
  intros P T I. destruct (candidates_spec strict ms A a x P) as [N C].
  rewrite create_entry_unfold. apply (singleton _ _ _ N C) in T. rewrite T. now rewrite (dget_nodup ms n v (proj1 P) I).
Qed.
Lemma create_entry_none A x ms strict a : plain ms -> (forall n, ~ the_only (candidate strict ms A a x) n) ->
  create_entry A x ms strict a = Ok None.
Proof.
  intros P T. destruct (candidates_spec strict ms A a x P) as [N C].
  rewrite create_entry_unfold. destruct (candidates strict ms A a x) as [|n [|? ?]] eqn:E; [reflexivity| |reflexivity].
  exfalso. apply (T n). now apply (singleton _ _ _ N C).
Qed.
Lemma create_entry_cases A x ms strict a : plain ms ->
  (exists n v, the_only (candidate strict ms A a x) n /\ In (n, v) ms /\ create_entry A x ms strict a = Ok (Some (n, along strict A (m_dims v)))) \/
  ((forall n, ~ the_only (candidate strict ms A a x) n) /\ create_entry A x ms strict a = Ok None).
Proof.
  intros P. destruct (candidates_spec strict ms A a x P) as [N C].
  destruct (candidates strict ms A a x) as [|n [|n' l]] eqn:E.
  - right. assert (T : forall n, ~ the_only (candidate strict ms A a x) n) by (intros n [T _]; now apply C in T).
    split; [exact T|now apply create_entry_none].
  - left. assert (T : the_only (candidate strict ms A a x) n) by now apply (singleton _ _ _ N C).
    pose proof (candidate_in _ _ _ _ _ _ (proj1 T)) as I. apply in_map_iff in I. destruct I as ((n' & v) & F & I). cbn [fst] in F. subst n'.
    exists n, v. split; [exact T|]. split; [exact I|now apply create_entry_some].
  - right. assert (T : forall n, ~ the_only (candidate strict ms A a x) n).
    { intros m T. apply (singleton _ _ _ N C) in T. discriminate. }
    split; [exact T|now apply create_entry_none].
Qed.

(** ** Entries *)

Definition axis_out (strict : bool) (ms : vmetas) (a : string) (w : wanted) : res (option (string * list string * option string)) :=
  do e <- create_entry (w_axis w) (w_value w) ms strict a;
  match e with
  | None => Ok None
  | Some (n, d) => do b <- entry_bounds (w_key w) n ms; Ok (Some (n, d, b))
  end.

Lemma entries_cons w t ms strict a es : entries_of (w :: t) ms strict a = Ok es ->
  exists o es', axis_out strict ms a w = Ok o /\ entries_of t ms strict a = Ok es' /\
    es = ((match o with Some x => [(w_key w, x)] | None => [] end) ++ es')%list.
Proof.
  unfold entries_of, axis_out. cbn [map_res]. destruct (create_entry _ _ _ _ _) as [e|e]; cbn [bind]; [|discriminate].
  destruct (map_res _ t) as [f|f]; cbn [bind]; [|discriminate]. cbn [map_res snd fst].
  destruct e as [[n d]|]; cbn [bind].
  - destruct (entry_bounds _ _ _) as [b|b]; cbn [bind]; [|discriminate].
    destruct (map_res _ f) as [r|r]; cbn [bind]; [|discriminate]. intros [= <-]. eexists. eexists. split; [reflexivity|]. split; reflexivity.
  - destruct (map_res _ f) as [r|r]; cbn [bind]; [|discriminate]. intros [= <-]. eexists. eexists. split; [reflexivity|]. split; reflexivity.
Qed.

Lemma entries_spec l : forall ms strict a es, entries_of l ms strict a = Ok es -> NoDup (map w_key l) ->
  NoDup (map fst es) /\ incl (map fst es) (map w_key l) /\ forall w, In w l -> axis_out strict ms a w = Ok (dget String.eqb es (w_key w)).
Proof.
  induction l as [|w t IH]; intros ms strict a es H N.
  - cbn in H. injection H as <-. split; [constructor|]. split; [easy|]. intros w [].
  - apply entries_cons in H. destruct H as (o & es' & O & H & ->). inversion N as [|? ? N1 N2]; subst.
    destruct (IH ms strict a es' H N2) as (D & I & F).
    assert (NI : ~ In (w_key w) (map fst es')) by (intros J; apply N1, I, J).
    assert (FO : forall w', In w' t -> w_key w' <> w_key w) by (intros w' J E; apply N1; rewrite <- E; now apply in_map).
    destruct o as [x|]; cbn [app map fst].
    + split; [now constructor|]. split.
      * intros k [<-|J]; [now left|]. right. now apply I.
      * intros w' [->|J]; cbn [dget].
        -- rewrite String.eqb_refl. exact O.
        -- destruct (String.eqb_spec (w_key w') (w_key w)) as [E|_]; [now destruct (FO w' J)|]. now apply F.
    + split; [exact D|]. split; [intros k J; right; now apply I|]. intros w' [->|J]; [|now apply F].
      rewrite O. f_equal. symmetry. now apply dget_none.
Qed.

Lemma entries_total l ms strict a : (forall w, In w l -> exists o, axis_out strict ms a w = Ok o) -> exists es, entries_of l ms strict a = Ok es.
Proof.
  induction l as [|w t IH]; intros H; [now exists []|].
  destruct IH as [es E]; [intros w' J; apply H; now right|]. destruct (H w (or_introl eq_refl)) as [o O].
  unfold entries_of in *. unfold axis_out in O. cbn [map_res]. destruct (create_entry _ _ _ _ _) as [e|e]; cbn [bind] in *; [|discriminate].
  destruct (map_res (fun w0 => _) t) as [f|f]; cbn [bind] in *; [|discriminate]. cbn [map_res snd fst].
  destruct e as [[n d]|]; cbn [bind] in *.
  - destruct (entry_bounds _ _ _) as [b|b]; cbn [bind] in *; [|discriminate]. destruct (map_res _ f) as [r|r]; cbn [bind] in *; [|discriminate]. now eexists.
  - destruct (map_res _ f) as [r|r]; cbn [bind] in *; [|discriminate]. now eexists.
Qed.

(** ** Storage *)

Definition entry_slots : list string := ["realization"; "time"; "level"; "x"; "y"; "crs"; "spatial_mask"; "attribute_host"].
Definition axis_keys : list string := ["realization"; "time"; "level"; "x"; "y"].
Definition good (st : storage) : Prop := forall k, In k entry_slots -> dg st k = None \/ exists e, dg st k = Some (IEntry e).

Definition holds3 (e : entry) (x : string * list string * option string) : Prop :=
  let '(n, d, b) := x in et_variable e = Some (Some n) /\ et_dimension e = Some d /\ et_bounds e = Some b.

Lemma axis_slot k : In k axis_keys -> In k entry_slots.
Proof. cbn. intuition. Qed.
Lemma axis_entry_key k : In k axis_keys -> In k entry_keys /\ ~ In k special_keys.
Proof. cbn. intuition (subst; try discriminate; auto 20). Qed.
Lemma slot_key k : In k entry_slots -> In k entry_keys.
Proof. cbn. intuition. Qed.

Lemma good_entry st k : good st -> In k entry_slots -> exists e, get_entry st k = (fst (get_entry st k), Ok e).
Proof.
  intros G I. destruct (get_entry_ex st k (slot_key k I)) as (e & st1 & E).
  - destruct (G k I); auto.
  - exists e. now rewrite E.
Qed.

Lemma good_set st k e : good st -> good (ds st k (IEntry e)).
Proof.
  intros G k' I. destruct (string_dec k' k) as [->|N]; [right; exists e; apply dget_same|]. rewrite dget_other by exact N. now apply G.
Qed.

Lemma set_named st k n d b : good st -> In k entry_slots -> ~ In k special_keys ->
  exists e, set_variable st k (DName n) (Some d) b None None false None = (ds st k (IEntry e), None) /\ holds3 e (n, d, b).
Proof.
  intros G I S'. unfold set_variable.
  destruct (existsb (String.eqb k) special_keys) eqn:E; [apply existsb_in in E; contradiction|]. cbn [fill_from_variable dvar_name].
  destruct (good_entry st k G I) as [e0 E0]. rewrite E0.
  eexists. split; [rewrite (put_after_entry _ _ _ _ _ E0); unfold put_entry; reflexivity|]. cbn. auto.
Qed.

Lemma update_spec es : forall st, good st -> NoDup (map fst es) -> incl (map fst es) axis_keys ->
  exists st', update_with es st = Ok st' /\ good st' /\ (forall k, ~ In k (map fst es) -> dg st' k = dg st k) /\
    forall k x, dget String.eqb es k = Some x -> exists e, dg st' k = Some (IEntry e) /\ holds3 e x.
Proof.
  induction es as [|[k [[n d] b]] es IH]; intros st G N I.
  - exists st. split; [reflexivity|]. split; [exact G|]. split; [easy|]. intros k x H. discriminate.
  - cbn [map fst] in N, I. inversion N as [|? ? N1 N2]; subst.
    assert (K : In k axis_keys) by (apply I; now left).
    destruct (set_named st k n d b G (axis_slot k K) (proj2 (axis_entry_key k K))) as (e & E & H3).
    destruct (IH (ds st k (IEntry e)) (good_set st k e G) N2) as (st' & U & G' & F & S').
    { intros k' J. apply I. now right. }
    exists st'. split; [|split; [exact G'|split]].
    + unfold update_with in *. cbn [fold_res snd fst]. rewrite E. cbn [bind]. exact U.
    + intros k' J. cbn [map fst In] in J. rewrite F by tauto. apply dget_other. intros ->. tauto.
    + intros k' x H. cbn [dget] in H. destruct (String.eqb_spec k' k) as [->|Nk].
      * injection H as <-. exists e. split; [|exact H3]. rewrite F by exact N1. apply dget_same.
      * now apply S'.
Qed.

(** What a map says about an axis. *)
Definition shown (st : storage) (key : string) (o : option (string * list string * option string)) : Prop :=
  match o with
  | Some (n, d, b) => var_of st key = Ok (Some n) /\ dims_of st key = Ok d /\ bounds_of st key = Ok b
  | None => var_of st key = Ok None /\ dims_of st key = Ok [] /\ bounds_of st key = Ok None
  end.

Lemma axis_not_crs k : In k axis_keys -> k <> "crs".
Proof. intros I ->. cbn in I. intuition discriminate. Qed.

Lemma element_blank {A} st key (elt : entry -> option A) put d : In key axis_keys -> dg st key = None -> elt empty_entry = None ->
  snd (get_element st key elt put d) = Ok d.
Proof.
  intros I H E. unfold get_element, get_entry. destruct (String.eqb_spec key "crs") as [->|_]; [now apply axis_not_crs in I|].
  destruct (axis_entry_key key I) as [J _]. apply existsb_in in J. rewrite J. cbn [negb]. rewrite H, E. reflexivity.
Qed.

Lemma shown_none st key : In key axis_keys -> dg st key = None -> shown st key None.
Proof.
  intros I H. unfold shown, var_of, dims_of, bounds_of, get_variable, get_dimension, get_bounds.
  repeat split; now apply element_blank.
Qed.

Lemma shown_some st key e x : In key axis_keys -> dg st key = Some (IEntry e) -> holds3 e x -> shown st key (Some x).
Proof.
  destruct x as [[n d] b]. intros I H (H1 & H2 & H3). destruct (axis_entry_key key I) as [J S']. pose proof (axis_not_crs key I) as C.
  unfold shown, var_of, dims_of, bounds_of, get_variable, get_dimension, get_bounds.
  split; [|split]; match goal with |- snd (get_element _ _ _ _ _) = Ok ?y => now rewrite (get_element_full st key _ _ _ e y J C H) end.
Qed.

(** ** The map of a group *)

Definition at_axis (st : storage) (key : string) (o : option (string * list string * option string)) : Prop :=
  match o with Some x => exists e, dg st key = Some (IEntry e) /\ holds3 e x | None => dg st key = None end.

Lemma at_axis_shown st key o : In key axis_keys -> at_axis st key o -> shown st key o.
Proof. intros I. destruct o as [x|]; cbn [at_axis]; [intros (e & H & H3); now apply (shown_some st key e)|now apply shown_none]. Qed.

Lemma settle_crs st n : good st -> exists e, settle (set_crs st (Some n)) = Ok (ds st "crs" (IEntry e)).
Proof.
  intros G. unfold set_crs. assert (I : In "crs" entry_slots) by (cbn; tauto). destruct (good_entry st "crs" G I) as [e E]. rewrite E. cbn [settle].
  eexists. unfold settle. cbn [snd fst]. f_equal. apply (put_after_entry _ _ _ _ _ E).
Qed.
Lemma settle_mask st k a : good st -> exists e, settle (set_spatial_mask st (DName k) a None) = Ok (ds st "spatial_mask" (IEntry e)).
Proof.
  intros G. unfold set_spatial_mask. cbv zeta. assert (I : In "spatial_mask" entry_slots) by (cbn; tauto). destruct (good_entry st "spatial_mask" G I) as [e E]. rewrite E.
  eexists. unfold settle. cbn [snd fst]. f_equal. apply (put_after_entry _ _ _ _ _ E).
Qed.

(** Nothing about groups or topologies. *)
Definition bare (st : storage) : Prop := dg st "groups" = None /\ dg st "topology" = None.

Lemma abstract_rest st0 crs ms : good st0 -> bare st0 -> exists st,
  (do st <- match crs with None => Ok st0 | Some n => settle (set_crs st0 (Some n)) end;
   match mask_of ms with None => Ok st | Some (k, v) => settle (set_spatial_mask st (DName k) (m_attrs v) None) end) = Ok st /\
  good st /\ bare st /\ forall k, In k axis_keys \/ k = "attribute_host" -> dg st k = dg st0 k.
Proof.
  intros G [B1 B2].
  assert (H : exists st1, match crs with None => Ok st0 | Some n => settle (set_crs st0 (Some n)) end = Ok st1 /\ good st1 /\ bare st1 /\
            forall k, In k axis_keys \/ k = "attribute_host" -> dg st1 k = dg st0 k).
  { destruct crs as [n|].
    - destruct (settle_crs st0 n G) as [e E]. rewrite E. eexists. split; [reflexivity|]. split; [now apply good_set|]. split.
      + split; now rewrite dget_other.
      + intros k I. apply dget_other. intros ->. cbn in I. intuition discriminate.
    - exists st0. split; [reflexivity|]. split; [exact G|]. split; [now split|easy]. }
  destruct H as (st1 & -> & G1 & [C1 C2] & F1). cbn [bind]. destruct (mask_of ms) as [[k v]|].
  - destruct (settle_mask st1 k (m_attrs v) G1) as [e E]. rewrite E. eexists. split; [reflexivity|]. split; [now apply good_set|]. split.
    + split; now rewrite dget_other.
    + intros k' I. rewrite dget_other; [now apply F1|]. intros ->. cbn in I. intuition discriminate.
  - exists st1. split; [reflexivity|]. split; [exact G1|]. split; [now split|exact F1].
Qed.

Definition driver_key (d : string) : Prop := existsb (String.eqb d) driver_keys = true.

Lemma good_driver d : good [("driver", ISpecial d)].
Proof. intros k I. left. cbn in I. intuition (subst; reflexivity). Qed.

Lemma at_axis_update es st st' l : NoDup (map w_key l) -> incl (map fst es) (map w_key l) ->
  (forall k, ~ In k (map fst es) -> dg st' k = dg st k) ->
  (forall k x, dget String.eqb es k = Some x -> exists e, dg st' k = Some (IEntry e) /\ holds3 e x) ->
  forall w, In w l -> dg st (w_key w) = None -> at_axis st' (w_key w) (dget String.eqb es (w_key w)).
Proof.
  intros N I F S' w J H. destruct (dget String.eqb es (w_key w)) as [x|] eqn:E; cbn [at_axis]; [now apply S'|].
  rewrite F; [exact H|]. now apply dget_none.
Qed.

Lemma abstract_spec d crs strict ms st : driver_key d -> abstract_map d crs strict ms = Ok st ->
  good st /\ bare st /\ dg st "x" = None /\ dg st "y" = None /\ dg st "attribute_host" = None /\
  forall w, In w time_level_axes -> exists o, axis_out strict ms "axis" w = Ok o /\ at_axis st (w_key w) o.
Proof.
  unfold abstract_map, set_driver. intros D. unfold driver_key in D. rewrite D. unfold settle at 1. cbn [snd fst bind].
  change (ds [] "driver" (ISpecial d)) with [("driver", ISpecial d)].
  destruct (entries_of time_level_axes ms strict "axis") as [es|] eqn:E; cbn [bind]; [|discriminate].
  destruct (entries_spec _ _ _ _ _ E) as (N & I & W).
  { cbn. repeat (constructor; [cbn; intuition discriminate|]). constructor. }
  destruct (update_spec es [("driver", ISpecial d)] (good_driver d) N) as (st1 & U & G1 & F1 & S1).
  { intros k J. apply I in J. cbn in *. tauto. }
  rewrite U. cbn [bind].
  assert (F0 : forall k, In k (map fst es) -> k = "realization" \/ k = "time" \/ k = "level") by (intros k J; apply I in J; cbn in J; intuition).
  assert (O : forall k, k <> "realization" -> k <> "time" -> k <> "level" -> dg st1 k = dg [("driver", ISpecial d)] k)
    by (intros k X1 X2 X3; apply F1; intros J; apply F0 in J; tauto).
  destruct (abstract_rest st1 crs ms G1) as (st2 & E2 & G2 & B2 & F2).
  { split; now rewrite O. }
  rewrite E2. intros [= <-]. split; [exact G2|]. split; [exact B2|].
  split; [rewrite F2 by (cbn; tauto); now rewrite O|]. split; [rewrite F2 by (cbn; tauto); now rewrite O|].
  split; [rewrite F2 by tauto; now rewrite O|].
  intros w J. exists (dget String.eqb es (w_key w)). split; [now apply W|].
  assert (A : at_axis st1 (w_key w) (dget String.eqb es (w_key w))).
  { eapply at_axis_update with (l := time_level_axes) (st := [("driver", ISpecial d)]); try eassumption.
    - cbn. repeat (constructor; [cbn; intuition discriminate|]). constructor.
    - cbn in J. destruct J as [<-|[<-|[<-|[]]]]; reflexivity. }
  assert (K : In (w_key w) axis_keys) by (cbn in J; destruct J as [<-|[<-|[<-|[]]]]; cbn; tauto).
  destruct (dget String.eqb es (w_key w)) as [x|]; cbn [at_axis] in *; rewrite F2 by tauto; exact A.
Qed.

Definition or_else {A} (a b : option A) : option A := match a with Some _ => a | None => b end.

Lemma cf_spec crs spherical strict ms st : cf_map crs spherical strict ms = Ok st ->
  good st /\ bare st /\
  (forall w, In w time_level_axes -> exists o, axis_out strict ms "axis" w = Ok o /\ at_axis st (w_key w) o) /\
  (forall key A value, In (key, A, value) [("x", "X", "longitude"); ("y", "Y", "latitude")] ->
     exists o o', axis_out strict ms "axis" (mkwanted key A A) = Ok o /\
       (spherical = true -> axis_out strict ms "standard_name" (mkwanted key A value) = Ok o') /\
       at_axis st key (if spherical then or_else o' o else o)).
Proof.
  unfold cf_map. intros H. apply bind_Ok in H. destruct H as (st1 & H1 & H). apply bind_Ok in H. destruct H as (es & E & H).
  apply bind_Ok in H. destruct H as (st2 & U & H).
  destruct (abstract_spec "netcdf-cf" crs strict ms st1 eq_refl H1) as (G1 & [B1 B1'] & X1 & Y1 & _ & W1).
  assert (HN : NoDup (map w_key horizontal_axes)) by (cbn; repeat (constructor; [cbn; intuition discriminate|]); constructor).
  destruct (entries_spec _ _ _ _ _ E HN) as (N & I & W).
  assert (IK : incl (map fst es) axis_keys) by (intros k J; apply I in J; cbn in *; tauto).
  destruct (update_spec es st1 G1 N IK) as (st2' & U' & G2 & F2 & S2). rewrite U' in U. injection U as ->.
  assert (F0 : forall k, In k (map fst es) -> k = "x" \/ k = "y") by (intros k J; apply I in J; cbn in J; intuition).
  assert (A2 : forall w, In w horizontal_axes -> at_axis st2 (w_key w) (dget String.eqb es (w_key w))).
  { intros w J. eapply at_axis_update with (l := horizontal_axes) (st := st1); try eassumption. cbn in J. destruct J as [<-|[<-|[]]]; assumption. }
  assert (T2 : forall w, In w time_level_axes -> exists o, axis_out strict ms "axis" w = Ok o /\ at_axis st2 (w_key w) o).
  { intros w J. destruct (W1 w J) as (o & O & A). exists o. split; [exact O|].
    assert (K : dg st2 (w_key w) = dg st1 (w_key w)).
    { apply F2. intros Q. apply F0 in Q. cbn in J. destruct J as [<-|[<-|[<-|[]]]]; cbn in Q; intuition discriminate. }
    destruct o as [x|]; cbn [at_axis] in *; now rewrite K. }
  assert (B2 : bare st2) by (split; rewrite F2; try assumption; intros Q; apply F0 in Q; intuition discriminate).
  destruct spherical.
  - apply bind_Ok in H. destruct H as (es2 & E2 & U2).
    assert (HN2 : NoDup (map w_key spherical_axes)) by exact HN.
    destruct (entries_spec _ _ _ _ _ E2 HN2) as (N3 & I3 & W3).
    assert (IK3 : incl (map fst es2) axis_keys) by (intros k J; apply I3 in J; cbn in *; tauto).
    destruct (update_spec es2 st2 G2 N3 IK3) as (st3 & U3 & G3 & F3 & S3). rewrite U3 in U2. injection U2 as ->.
    assert (F03 : forall k, In k (map fst es2) -> k = "x" \/ k = "y") by (intros k J; apply I3 in J; cbn in J; intuition).
    split; [exact G3|]. split; [destruct B2; split; rewrite F3; try assumption; intros Q; apply F03 in Q; intuition discriminate|]. split.
    + intros w J. destruct (T2 w J) as (o & O & A). exists o. split; [exact O|].
      assert (K : dg st (w_key w) = dg st2 (w_key w)).
      { apply F3. intros Q. apply F03 in Q. cbn in J. destruct J as [<-|[<-|[<-|[]]]]; cbn in Q; intuition discriminate. }
      destruct o as [x|]; cbn [at_axis] in *; now rewrite K.
    + intros key A value J. exists (dget String.eqb es key), (dget String.eqb es2 key).
      assert (C : In (mkwanted key A A) horizontal_axes /\ In (mkwanted key A value) spherical_axes)
        by (cbn in J; destruct J as [[= <- <- <-]|[[= <- <- <-]|[]]]; cbn; auto).
      split; [exact (W _ (proj1 C))|]. split; [intros _; exact (W3 _ (proj2 C))|].
      specialize (A2 _ (proj1 C)). cbn [w_key] in A2.
      destruct (dget String.eqb es2 key) as [x|] eqn:Ex; cbn [or_else].
      * cbn [at_axis]. now apply S3.
      * assert (K : dg st key = dg st2 key) by (apply F3; now apply dget_none).
        destruct (dget String.eqb es key); cbn [at_axis] in *; now rewrite K.
  - injection H as ->. split; [exact G2|]. split; [exact B2|]. split; [exact T2|].
    intros key A value J. exists (dget String.eqb es key), None.
    assert (C : In (mkwanted key A A) horizontal_axes) by (cbn in J; destruct J as [[= <- <- <-]|[[= <- <- <-]|[]]]; cbn; auto).
    split; [exact (W _ C)|]. split; [discriminate|]. exact (A2 _ C).
Qed.
