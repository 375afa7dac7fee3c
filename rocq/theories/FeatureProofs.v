(** Proofs for FeatureProperties.v. *)
From Coq Require Import QArith.
From Verif Require Import Py Lib NdModel NdProofs RequestNames FeatureModel FeatureSpec.
Local Open Scope string_scope.
Local Open Scope list_scope.
Local Open Scope Z_scope.

Lemma bind_Ok {A B} (m : res A) (f : A -> res B) r : bind m f = Ok r -> exists x, m = Ok x /\ f x = Ok r.
Proof. destruct m as [x|e]; cbn [bind]; [|discriminate]. intros H. now exists x. Qed.

Section Read.
Variables (read : string -> option Z) (readq : string -> option Q).
Context {G : Type}.
Variables (union2 : G -> G -> G) (uid : string) (skips : list string).

Notation set_record := (set_record read readq uid skips).
Notation set_records := (set_records read readq uid skips).

Definition stays (c : column) (v : pval) : Prop := v = PNone \/ store read readq (c_type c) v = Ok v.

Definition written (idx : nat) (cells : list cell) (v : option pval) : list cell :=
  match v with None | Some PNone => cells | Some w => set_nth cells idx (Val w) end.

Lemma dset_keys_in {V} (c : list (string * V)) n v : In n (map fst c) -> map fst (dset String.eqb c n v) = map fst c.
Proof.
  induction c as [|[k w] t IH]; intros I; [easy|]. cbn [dset map fst] in *. destruct (String.eqb_spec n k) as [E|N]; cbn [map fst]; [reflexivity|].
  f_equal. apply IH. destruct I as [E|I]; [congruence|exact I].
Qed.

Lemma dget_key {V} (c : list (string * V)) n v : dget String.eqb c n = Some v -> In n (map fst c).
Proof. intros H. apply dget_in in H. apply in_map_iff. now exists (n, v). Qed.

Lemma set_record_spec idx : forall p cols, NoDup (map fst p) ->
  (forall k v, In (k, v) p -> left_out uid skips k = false -> exists c, dget String.eqb cols k = Some c /\ stays c v) ->
  exists cols', set_record idx p cols = Ok cols' /\ map fst cols' = map fst cols /\
    forall k c, dget String.eqb cols k = Some c -> exists c', dget String.eqb cols' k = Some c' /\ c_type c' = c_type c /\
      c_cells c' = if left_out uid skips k then c_cells c else written idx (c_cells c) (dget String.eqb p k).
Proof.
  induction p as [|[k v] t IH]; intros cols D H.
  - exists cols. split; [reflexivity|]. split; [reflexivity|]. intros k c Hc. exists c. split; [exact Hc|]. split; [reflexivity|].
    cbn [dget written]. destruct (left_out uid skips k); reflexivity.
  - cbn [map fst] in D. apply NoDup_cons_iff in D. destruct D as [D1 D2]. cbn [FeatureModel.set_record]. destruct (left_out uid skips k) eqn:Lo.
    + destruct (IH cols D2) as (cols' & E & K & S').
      { intros k' v' I L. apply H; [now right|exact L]. }
      exists cols'. split; [exact E|]. split; [exact K|]. intros k' c Hc. destruct (S' k' c Hc) as (c' & H1 & H2 & H3). exists c'. split; [exact H1|]. split; [exact H2|].
      rewrite H3. cbn [dget]. destruct (String.eqb_spec k' k) as [->|N]; [now rewrite Lo|reflexivity].
    + destruct (H k v (or_introl eq_refl) Lo) as (c & Hc & St). rewrite Hc.
      assert (X : exists c1, (match v with PNone => Ok (null_at c idx) | _ => do w <- store read readq (c_type c) v; Ok (value_at c idx w) end) = Ok c1 /\
        c_type c1 = c_type c /\ c_cells c1 = written idx (c_cells c) (Some v)).
      { destruct St as [-> |St].
        - exists (null_at c idx). split; [reflexivity|]. unfold null_at. destruct (c_mask c); split; reflexivity.
        - destruct v as [|z|q|s|]; [|exists (value_at c idx (PInt z))|exists (value_at c idx (PFloat q))|exists (value_at c idx (PStr s))|exists (value_at c idx PList)];
            [|rewrite St; split; [reflexivity|]; split; reflexivity..].
          exists (null_at c idx). split; [reflexivity|]. unfold null_at. destruct (c_mask c); split; reflexivity. }
      destruct X as (c1 & E1 & T1 & C1). rewrite E1. cbn [bind].
      destruct (IH (dset String.eqb cols k c1) D2) as (cols' & E & K & S').
      { intros k' v' I L. rewrite dget_dset. destruct (String.eqb_spec k' k) as [->|N].
        - destruct D1. apply in_map_iff. now exists (k, v').
        - apply H; [now right|exact L]. }
      exists cols'. split; [exact E|]. split; [rewrite K; apply dset_keys_in; now apply (dget_key _ _ c)|].
      intros k' c' Hc'. destruct (String.eqb_spec k' k) as [->|N].
      * destruct (S' k c1) as (c2 & H1 & H2 & H3); [now rewrite dget_dset, String.eqb_refl|].
        exists c2. split; [exact H1|]. rewrite Hc in Hc'. injection Hc' as <-. split; [congruence|]. rewrite H3, Lo. cbn [dget]. rewrite String.eqb_refl.
        rewrite (proj2 (dget_none t k) D1). cbn [written]. exact C1.
      * destruct (S' k' c') as (c2 & H1 & H2 & H3).
        { rewrite dget_dset. apply String.eqb_neq in N. now rewrite N. }
        exists c2. split; [exact H1|]. split; [exact H2|]. rewrite H3. cbn [dget]. apply String.eqb_neq in N. now rewrite N.
Qed.

Lemma written_length idx cells v : length (written idx cells v) = length cells.
Proof. destruct v as [[]|]; cbn [written]; try reflexivity; apply set_nth_length. Qed.

Lemma set_records_spec : forall (rs : list (record G)) idx cols,
  (forall r, In r rs -> NoDup (map fst (r_props r)) /\
     forall k v, In (k, v) (r_props r) -> left_out uid skips k = false -> exists c, dget String.eqb cols k = Some c /\ stays c v) ->
  exists cols', set_records idx rs cols = Ok cols' /\ map fst cols' = map fst cols /\
    forall k c, dget String.eqb cols k = Some c -> left_out uid skips k = false -> exists c', dget String.eqb cols' k = Some c' /\ c_type c' = c_type c /\
      length (c_cells c') = length (c_cells c) /\
      (forall i, (i < idx)%nat -> nth_error (c_cells c') i = nth_error (c_cells c) i) /\
      (forall j r, nth_error rs j = Some r -> (idx + j < length (c_cells c))%nat ->
        nth_error (c_cells c') (idx + j) = match dget String.eqb (r_props r) k with None | Some PNone => nth_error (c_cells c) (idx + j) | Some w => Some (Val w) end).
Proof.
  induction rs as [|r rs IH]; intros idx cols H.
  - exists cols. split; [reflexivity|]. split; [reflexivity|]. intros k c Hc _. exists c. split; [exact Hc|]. split; [reflexivity|]. split; [reflexivity|].
    split; [reflexivity|]. intros [|j] r Hj; discriminate.
  - destruct (H r (or_introl eq_refl)) as [D Hr]. destruct (set_record_spec idx (r_props r) cols D Hr) as (cols1 & E1 & K1 & S1).
    cbn [FeatureModel.set_records]. rewrite E1. cbn [bind]. destruct (IH (S idx) cols1) as (cols' & E & K & S').
    { intros r' I. destruct (H r' (or_intror I)) as [D' Hr']. split; [exact D'|]. intros k v Iv L. destruct (Hr' k v Iv L) as (c & Hc & St).
      destruct (S1 k c Hc) as (c1 & H1 & H2 & _). exists c1. split; [exact H1|]. unfold stays. now rewrite H2. }
    exists cols'. split; [exact E|]. split; [congruence|]. intros k c Hc L.
    destruct (S1 k c Hc) as (c1 & H1 & T1 & C1). rewrite L in C1. destruct (S' k c1 H1 L) as (c' & H2 & T2 & Len & Lo & Hi).
    assert (Lc : length (c_cells c1) = length (c_cells c)) by (rewrite C1; apply written_length).
    exists c'. split; [exact H2|]. split; [congruence|]. split; [congruence|].
    assert (Oth : forall i, i <> idx -> nth_error (c_cells c1) i = nth_error (c_cells c) i).
    { intros i N. rewrite C1. destruct (dget String.eqb (r_props r) k) as [[]|]; cbn [written]; try reflexivity; now apply nth_error_set_nth_other. }
    split.
    + intros i Hi'. rewrite Lo by lia. apply Oth. lia.
    + intros [|j] r' Hj Hb; cbn [nth_error] in Hj.
      * injection Hj as <-. rewrite Nat.add_0_r in *. rewrite Lo by lia. rewrite C1.
        destruct (dget String.eqb (r_props r) k) as [[]|]; cbn [written]; try reflexivity; now apply nth_error_set_nth_same.
      * replace (idx + S j)%nat with (S idx + j)%nat in * by lia. rewrite (Hi j r' Hj) by lia.
        destruct (dget String.eqb (r_props r') k) as [[]|]; try reflexivity; apply Oth; lia.
Qed.

(** No cell is ever masked. *)
Definition clear (c : column) : Prop := forall i, masked c i = false.

Lemma nth_set_false m : forall i j, nth i (set_nth m j false) false = true -> nth i m false = true.
Proof.
  induction m as [|b m IH]; intros i j H.
  - destruct j; cbn in H; now destruct i.
  - destruct j as [|j], i as [|i]; cbn [set_nth nth] in *; try assumption; try discriminate. now apply (IH i j).
Qed.

Lemma null_clear c idx : clear c -> clear (null_at c idx).
Proof.
  unfold clear, masked, null_at. intros H i. destruct (c_mask c) as [m|] eqn:E; cbn [c_mask].
  - apply not_true_is_false. intros Q. apply nth_set_false in Q. specialize (H i). rewrite Q in H. discriminate.
  - apply not_true_is_false. intros Q. destruct (Nat.lt_ge_cases i (length (repeat false (length (c_cells c))))) as [L|L].
    + pose proof (nth_In (repeat false (length (c_cells c))) false L) as I. apply repeat_spec in I. congruence.
    + rewrite nth_overflow in Q by exact L. discriminate.
Qed.

Lemma set_record_clear idx : forall p cols cols', (forall k c, In (k, c) cols -> clear c) -> set_record idx p cols = Ok cols' -> forall k c, In (k, c) cols' -> clear c.
Proof.
  induction p as [|[k v] t IH]; intros cols cols' H E; cbn [FeatureModel.set_record] in E.
  - injection E as <-. exact H.
  - destruct (left_out uid skips k); [now apply (IH cols cols')|]. destruct (dget String.eqb cols k) as [c|] eqn:Gc; [|discriminate].
    apply bind_Ok in E. destruct E as (c1 & E1 & E). intros k0 c0. refine (IH _ _ _ E k0 c0).
    assert (C1 : clear c1).
    { assert (Cc : clear c) by (apply dget_in in Gc; exact (H k c Gc)).
      destruct v; try (apply bind_Ok in E1; destruct E1 as (w & _ & E1)); injection E1 as <-; [now apply null_clear| | | |]; exact Cc. }
    clear -H C1. induction cols as [|[k1 c2] l IHl]; intros k' c' I; cbn [dset] in I.
    + destruct I as [I|[]]. now injection I as <- <-.
    + destruct (String.eqb k k1); destruct I as [I|I].
      * now injection I as <- <-.
      * apply (H k' c'). now right.
      * injection I as <- <-. apply (H k1 c2). now left.
      * apply (IHl (fun a b J => H a b (or_intror J)) k' c' I).
Qed.

Lemma set_records_clear : forall (rs : list (record G)) idx cols cols', (forall k c, In (k, c) cols -> clear c) -> set_records idx rs cols = Ok cols' -> forall k c, In (k, c) cols' -> clear c.
Proof.
  induction rs as [|r rs IH]; intros idx cols cols' H E; cbn [FeatureModel.set_records] in E.
  - injection E as <-. exact H.
  - apply bind_Ok in E. destruct E as (cols1 & E1 & E). apply (IH (S idx) cols1 cols'); [|exact E]. now apply (set_record_clear idx (r_props r) cols cols1).
Qed.
End Read.

(** Identifiers. *)
Lemma read_ids_counted read {G} uid (rs : list (record G)) : forall ctr, read_ids read false uid ctr rs = Ok (map (fun i => Z.of_nat i + ctr) (seq 0 (length rs))).
Proof.
  induction rs as [|r rs IH]; intros ctr; [reflexivity|]. cbn [read_ids bind length seq map]. rewrite IH. cbn [bind]. f_equal. f_equal.
  rewrite <- seq_shift, map_map. apply map_ext. intros i. lia.
Qed.

Lemma read_ids_given read {G} uid (rs : list (record G)) ids : forall ctr,
  Forall2 (fun r i => dget String.eqb (r_props r) uid = Some (PInt i)) rs ids -> read_ids read true uid ctr rs = Ok ids.
Proof.
  intros ctr F. revert ctr. induction F as [|r i rs ids H _ IH]; intros ctr; [reflexivity|]. cbn [read_ids]. rewrite H. cbn [to_int bind]. now rewrite IH.
Qed.

Lemma read_ids_missing read {G} uid (rs : list (record G)) r : In r rs -> dget String.eqb (r_props r) uid = None -> forall ctr ids, read_ids read true uid ctr rs <> Ok ids.
Proof.
  intros I N. induction rs as [|x rs IH]; [easy|]. intros ctr ids H. cbn [read_ids] in H. apply bind_Ok in H. destruct H as (i & H1 & H).
  apply bind_Ok in H. destruct H as (l & H2 & _). destruct I as [->|I]; [now rewrite N in H1|]. now apply (IH I (ctr + 1) l).
Qed.

(** The schema of a first record without lists. *)
Definition type_of (v : pval) : ftype := match v with PNone | PInt _ | PList => TInt | PFloat _ => TFloat | PStr s => TStr (Z.of_nat (String.length s)) end.

Lemma make_schema_plain strict : forall p, (forall k v, In (k, v) p -> v <> PList) -> make_schema strict p = Ok (map (fun kv => (fst kv, type_of (snd kv))) p, []).
Proof.
  induction p as [|[k v] t IH]; intros H; [reflexivity|]. cbn [make_schema]. rewrite IH by (intros k' v' I; apply (H k' v'); now right). cbn [bind fst snd map].
  specialize (H k v (or_introl eq_refl)). destruct v; try (destruct strict; reflexivity). now destruct H.
Qed.

Lemma same_kind_stays read readq v0 v c : c_type c = type_of v0 -> same_kind v0 v -> stays read readq c v.
Proof. unfold stays. intros -> H. destruct v0, v; cbn in *; try contradiction; auto. Qed.

Lemma dget_map_snd {V W} (f : V -> W) (l : list (string * V)) k : dget String.eqb (map (fun kv => (fst kv, f (snd kv))) l) k = option_map f (dget String.eqb l k).
Proof. induction l as [|[n v] t IH]; [reflexivity|]. cbn [map dget fst snd]. destruct (String.eqb k n); [reflexivity|exact IH]. Qed.

Lemma dget_filter_key {V} (f : string -> bool) (l : list (string * V)) k : dget String.eqb (filter (fun kv => f (fst kv)) l) k = if f k then dget String.eqb l k else None.
Proof.
  induction l as [|[n v] t IH]; [now destruct (f k)|]. cbn [filter fst dget]. destruct (f n) eqn:E; cbn [dget]; destruct (String.eqb_spec k n) as [->|N].
  - now rewrite E.
  - exact IH.
  - rewrite IH, E. reflexivity.
  - exact IH.
Qed.

Theorem records_ok read readq {G} (union2 : G -> G -> G) r0 rs uid strict ids :
  NoDup (map fst (r_props r0)) -> (forall r, In r (r0 :: rs) -> like_first (r_props r0) (r_props r)) ->
  read_ids read (dmem String.eqb (r_props r0) uid) uid 1 (r0 :: rs) = Ok ids ->
  exists f, from_records read readq union2 (r0 :: rs) (r0 :: rs) None uid false strict = Ok f /\
    f_geoms f = map (fun r => Some (r_geom r)) (r0 :: rs) /\ f_ids f = ids /\
    map fst (f_cols f) = filter (fun k => negb (String.eqb k uid)) (map fst (r_props r0)) /\
    f_tags f = uid :: filter (fun k => negb (String.eqb k uid)) (map fst (r_props r0)) /\
    forall k, In k (map fst (r_props r0)) -> k <> uid -> exists c, dget String.eqb (f_cols f) k = Some c /\
      length (c_cells c) = length (r0 :: rs) /\
      forall i r, nth_error (r0 :: rs) i = Some r -> nth_error (c_cells c) i = Some (cell_for (dget String.eqb (r_props r) k)).
Proof.
  intros D L R. set (rs' := r0 :: rs) in *. unfold from_records, rs' at 1. rewrite R. cbn [bind]. unfold rs' at 1.
  assert (NL : forall k v, In (k, v) (r_props r0) -> v <> PList).
  { intros k v I ->. destruct (L r0 (or_introl eq_refl)) as [_ H]. destruct (H k PList I) as (v0 & _ & K). destruct v0; exact K. }
  rewrite (make_schema_plain strict _ NL). cbn [bind fst snd].
  set (keep := fun k => negb (left_out uid [] k)).
  assert (Ke : forall k, keep k = negb (String.eqb k uid)) by (intros k; unfold keep, left_out; cbn [existsb]; now rewrite orb_false_r).
  set (cols := map (fun kt : string * ftype => (fst kt, new_column (length rs') (snd kt)))
     (filter (fun kt => negb (left_out uid [] (fst kt))) (map (fun kv => (fst kv, type_of (snd kv))) (r_props r0)))).
  assert (Gc : forall k, dget String.eqb cols k = if keep k then option_map (fun v => new_column (length rs') (type_of v)) (dget String.eqb (r_props r0) k) else None).
  { intros k. unfold cols. rewrite (dget_map_snd (fun t => new_column (length rs') t)). change (fun kt : string * ftype => negb (left_out uid [] (fst kt))) with (fun kt : string * ftype => keep (fst kt)).
    rewrite (dget_filter_key keep), (dget_map_snd type_of). destruct (keep k); [|reflexivity]. now destruct (dget String.eqb (r_props r0) k). }
  assert (Kc : map fst cols = filter (fun k => negb (String.eqb k uid)) (map fst (r_props r0))).
  { unfold cols. rewrite map_map. cbn [fst]. clear. induction (r_props r0) as [|[k v] t IH]; [reflexivity|]. cbn [map filter fst].
    unfold left_out at 1. cbn [existsb]. rewrite orb_false_r. destruct (String.eqb k uid); cbn [negb map fst]; [exact IH|]. now rewrite IH. }
  destruct (set_records_spec read readq uid [] rs' 0 cols) as (cols' & E & K & S').
  { intros r I. destruct (L r I) as [Dr Hr]. split; [exact Dr|]. intros k v Iv Lo. destruct (Hr k v Iv) as (v0 & G0 & Sk).
    exists (new_column (length rs') (type_of v0)). split.
    - rewrite Gc. unfold keep. rewrite Lo, G0. reflexivity.
    - now apply (same_kind_stays read readq v0). }
  rewrite E. cbn [bind]. eexists. split; [reflexivity|]. cbn [f_geoms f_ids f_cols f_tags]. split; [reflexivity|]. split; [reflexivity|].
  split; [congruence|]. split.
  - f_equal. rewrite map_map. cbn [fst]. apply filter_ext. intros k. cbn [existsb]. apply orb_false_r.
  - intros k I N. apply String.eqb_neq in N.
    assert (Lo : left_out uid [] k = false) by (unfold left_out; rewrite N; reflexivity).
    destruct (dget String.eqb (r_props r0) k) as [v0|] eqn:G0; [|apply dget_none in G0; contradiction].
    destruct (S' k (new_column (length rs') (type_of v0))) as (c' & H1 & _ & Ln & _ & Hi); [rewrite Gc, Ke, N, G0; reflexivity|exact Lo|].
    exists c'. cbn [new_column c_cells] in *. rewrite repeat_length in *. split; [exact H1|]. split; [exact Ln|].
    intros i r Hr. assert (Lt : (i < length rs')%nat) by (apply nth_error_Some; now rewrite Hr).
    specialize (Hi i r Hr). cbn [Nat.add] in Hi. rewrite Hi by exact Lt.
    assert (Fl : nth_error (repeat Fill (length rs')) i = Some Fill).
    { rewrite (nth_error_nth' _ Fill) by now rewrite repeat_length. f_equal. now apply nth_repeat. }
    destruct (dget String.eqb (r_props r) k) as [[]|]; cbn [cell_for]; first [exact Fl|reflexivity].
Qed.

(** The geometry parameter. *)
Lemma parse_elems_ok {G C} (c : option C) : forall (l : list (elem G C)) ii crs rs c',
  parse_elems ii l crs = Ok (rs, c') ->
  Forall2 (fun e r => e_geom e = Some (r_geom r)) l rs /\
  (forall j e r, nth_error l j = Some e -> nth_error rs j = Some r -> r_props r = match e_props e with Some p => p | None => [(ugid_key, PInt (ii + Z.of_nat j))] end) /\
  match rev l with [] => crs = Some c' | e :: _ => c' = e_crs e end.
Proof.
  induction l as [|e l IH]; intros ii crs rs c' H; cbn [parse_elems] in H.
  - destruct crs as [x|]; [|discriminate]. injection H as <- <-. split; [constructor|]. split; [|reflexivity]. intros [|j] e r; discriminate.
  - destruct (e_geom e) as [g|] eqn:Eg; [|discriminate]. apply bind_Ok in H. destruct H as ([rs1 c1] & H1 & H). cbn [fst snd] in H. injection H as <- <-.
    destruct (IH _ _ _ _ H1) as (F & P & L). split; [constructor; [exact Eg|exact F]|]. split.
    + intros [|j] e' r He Hr; cbn [nth_error] in *.
      * injection He as <-. injection Hr as <-. cbn [r_props]. now rewrite Z.add_0_r.
      * rewrite (P j e' r He Hr). replace (ii + 1 + Z.of_nat j) with (ii + Z.of_nat (S j)) by lia. reflexivity.
    + cbn [rev]. destruct (rev l) as [|x t]; cbn [app]; [now injection L as <-|exact L].
Qed.

Lemma parse_elems_total {G C} : forall (l : list (elem G C)) ii crs, Forall (fun e => e_geom e <> None) l -> (l <> [] \/ crs <> None) -> exists rs c, parse_elems ii l crs = Ok (rs, c).
Proof.
  induction l as [|e l IH]; intros ii crs F N; cbn [parse_elems].
  - destruct crs as [c|]; [now exists [], c|]. now destruct N.
  - inversion F as [|? ? F1 F2]; subst. destruct (e_geom e) as [g|]; [|contradiction].
    destruct (IH (ii + 1) (Some (e_crs e)) F2) as (rs & c & E); [now right|]. rewrite E. cbn [bind fst snd]. now eexists _, _.
Qed.
