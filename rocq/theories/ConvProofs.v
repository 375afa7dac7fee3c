(** Proofs of C67, C68 and C69. *)
From Verif Require Import Py Lib ConvModel ConvSpec ScopeProofs.
From Coq Require Import Permutation.

(** ** Emptiness *)

Lemma existsb_id_In : forall l, existsb id l = true <-> In true l.
Proof.
  intros l. rewrite existsb_exists. split.
  - intros (x & H & E). unfold id in E. subst x. exact H.
  - intros H. exists true. split; [exact H|reflexivity].
Qed.

Lemma existsb_id_false : forall l, ~ In true l -> existsb id l = false.
Proof.
  intros l H. destruct (existsb id l) eqn:E; [|reflexivity].
  exfalso. apply H. apply existsb_id_In. exact E.
Qed.

Lemma tree_last : forall vars l c, ~ In true vars -> tree_is_empty (VT None vars (l ++ [c])) = tree_is_empty c.
Proof.
  intros vars l c H. cbn. rewrite (existsb_id_false _ H). rewrite fold_left_app. reflexivity.
Qed.

Lemma tree_void : forall vars, ~ In true vars -> tree_is_empty (VT None vars []) = false.
Proof. intros vars H. cbn. rewrite (existsb_id_false _ H). reflexivity. Qed.

Lemma tree_chain : forall t, Chain t -> (tree_is_empty t = true <-> HasEmpty t).
Proof.
  intros t H. induction H as [flag vars|flag vars c H IH].
  - destruct flag as [b|]; cbn.
    + split.
      * intros ->. constructor.
      * intros E. inversion E; reflexivity.
    + destruct (existsb id vars) eqn:E.
      * split; [|reflexivity]. intros _. apply HVar. apply existsb_id_In. exact E.
      * split; [discriminate|]. intros G. inversion G as [| v ch I | v ch c I]; subst.
        -- apply existsb_id_In in I. rewrite I in E. discriminate.
        -- destruct I.
  - destruct flag as [b|]; cbn.
    + split.
      * intros ->. constructor.
      * intros E. inversion E; reflexivity.
    + destruct (existsb id vars) eqn:E.
      * split; [|reflexivity]. intros _. apply HVar. apply existsb_id_In. exact E.
      * rewrite IH. split.
        -- intros G. apply (HChild _ _ c); [left; reflexivity|exact G].
        -- intros G. inversion G as [| v ch I | v ch c' I]; subst.
           ++ apply existsb_id_In in I. rewrite I in E. discriminate.
           ++ destruct I as [<-|[]]. assumption.
Qed.

Lemma fold_last_all : forall (l : list vtree) b v, Forall (fun c => tree_is_empty c = v) l -> (l = [] -> b = v) ->
  fold_left (fun _ c => tree_is_empty c) l b = v.
Proof.
  induction l as [|x l IH]; intros b v H E; cbn.
  - exact (E eq_refl).
  - inversion H; subst. apply IH; [assumption|]. intros _. reflexivity.
Qed.

Lemma whole_container : forall k, ct_flag k <> Some true -> (ct_flag k = None -> ~ In true (ct_vars k)) ->
  Forall (fun t => pt_empty t = false) (ct_fields k) -> tree_is_empty (container_tree k) = false.
Proof.
  intros [fl vs fs] H1 H2 H3. unfold container_tree. cbn [ct_flag ct_vars ct_fields] in *.
  destruct fl as [[|]|]; [destruct (H1 eq_refl)|reflexivity|].
  cbn. rewrite (existsb_id_false _ (H2 eq_refl)).
  apply fold_last_all; [|reflexivity].
  rewrite Forall_map. eapply Forall_impl; [|exact H3]. intros t E. cbn. exact E.
Qed.

Lemma whole_not_empty : forall c, Whole c -> coll_is_empty c = false.
Proof.
  intros [fl vs ks] (H1 & H2 & H3). unfold coll_is_empty, coll_tree. cbn [co_flag co_vars co_containers] in *.
  destruct fl as [[|]|]; [destruct (H1 eq_refl)|reflexivity|].
  cbn. rewrite (existsb_id_false _ (H2 eq_refl)).
  apply fold_last_all; [|reflexivity].
  rewrite Forall_map. eapply Forall_impl; [|exact H3].
  intros k (A1 & A2 & A3). apply whole_container; assumption.
Qed.

Lemma void_container : forall k, VoidContainer k -> tree_is_empty (container_tree k) = true.
Proof.
  intros [fl vs fs] H. unfold VoidContainer, container_tree in *. cbn [ct_flag ct_vars ct_fields] in *.
  destruct H as [->|(-> & [H|(H1 & H2)])]; [reflexivity| |].
  - cbn. assert (G := proj2 (existsb_id_In vs) H). rewrite G. reflexivity.
  - cbn. destruct (existsb id vs); [reflexivity|].
    apply fold_last_all.
    + rewrite Forall_map. eapply Forall_impl; [|exact H2]. intros t E. cbn. exact E.
    + intros E. apply map_eq_nil in E. destruct (H1 E).
Qed.

Lemma void_empty : forall c, Void c -> coll_is_empty c = true.
Proof.
  intros [fl vs ks] H. unfold Void, coll_is_empty, coll_tree in *. cbn [co_flag co_vars co_containers] in *.
  destruct H as [->|(-> & [H|(H1 & H2)])]; [reflexivity| |].
  - cbn. assert (G := proj2 (existsb_id_In vs) H). rewrite G. reflexivity.
  - cbn. destruct (existsb id vs); [reflexivity|].
    apply fold_last_all.
    + rewrite Forall_map. eapply Forall_impl; [|exact H2]. intros t E. apply void_container. exact E.
    + intros E. apply map_eq_nil in E. destruct (H1 E).
Qed.

Lemma coll_fields_of : forall c, coll_fields c = fields_of c.
Proof. intros c. unfold coll_fields, fields_of. apply flat_map_concat_map. Qed.

Lemma whole_fields : forall c t, Whole c -> In t (fields_of c) -> pt_empty t = false.
Proof.
  intros c t (_ & _ & H) I. unfold fields_of in I. apply in_concat in I. destruct I as (l & I1 & I2).
  apply in_map_iff in I1. destruct I1 as (k & <- & I1).
  rewrite Forall_forall in H. destruct (H k I1) as (_ & _ & G). rewrite Forall_forall in G. exact (G t I2).
Qed.

Lemma iter_void : forall c cs, Void c -> iter_colls (c :: cs) = iter_colls cs.
Proof. intros c cs H. unfold iter_colls. cbn [filter]. rewrite (void_empty _ H). reflexivity. Qed.
Lemma iter_whole : forall c cs, Whole c -> iter_colls (c :: cs) = c :: iter_colls cs.
Proof. intros c cs H. unfold iter_colls. cbn [filter]. rewrite (whole_not_empty _ H). reflexivity. Qed.
Lemma iter_all_void : forall cs, Forall Void cs -> iter_colls cs = [].
Proof. induction 1 as [|c cs H _ IH]; [reflexivity|]. rewrite (iter_void _ _ H). exact IH. Qed.

(** ** The loops, for any format

    [put f rs] is the file after the records [rs] are added to [f], [fresh] the
    new file for the columns in hand, and [good] the records that can be
    written. *)
Section Loop.
  Context {F : Type} (main : wmode -> option F -> ptable -> res (option F)).
  Variable put : F -> list record -> F.
  Variable fresh : F.
  Variable good : list record -> Prop.
  Hypothesis put_app : forall f a b, put f (a ++ b) = put (put f a) b.
  Hypothesis put_nil : forall f, put f [] = f.
  Hypothesis good_app : forall a b, good (a ++ b) <-> good a /\ good b.
  (** Only files with the columns in hand are appended to. *)
  Variable shaped : F -> Prop.
  Hypothesis shaped_fresh : shaped fresh.
  Hypothesis shaped_put : forall f rs, shaped f -> good rs -> shaped (put f rs).
  Definition filled (t : ptable) : Prop := pt_parts t <> [] /\ Forall (fun p => p <> []) (pt_parts t).
  Hypothesis main_fill : forall f t, shaped f -> filled t -> good (concat (pt_parts t)) ->
    main Fill (Some f) t = Ok (Some (put f (concat (pt_parts t)))).
  Hypothesis main_template : forall f t, filled t -> good (concat (pt_parts t)) -> main Template f t = Ok (Some fresh).
  Hypothesis main_normal : forall f t, filled t -> good (concat (pt_parts t)) ->
    main Normal f t = Ok (Some (put fresh (concat (pt_parts t)))).

  Lemma write_append : forall f t, shaped f -> pt_empty t = false -> filled t -> good (concat (pt_parts t)) ->
    write_field main (Some Append) (Some f) t = Ok (Some (put f (concat (pt_parts t)))).
  Proof.
    intros f t Sh E H G. unfold write_field, Append. rewrite E. cbn. rewrite (main_fill f t Sh H G). reflexivity.
  Qed.
  Lemma write_build : forall f t, pt_empty t = false -> filled t -> good (concat (pt_parts t)) ->
    write_field main None f t = Ok (Some (put fresh (concat (pt_parts t)))).
  Proof.
    intros f t E H G. unfold write_field, get_write_modes. rewrite E.
    destruct (1 <? length (pt_parts t))%nat.
    - cbn. rewrite (main_template f t H G). cbn. rewrite (main_fill _ t shaped_fresh H G). reflexivity.
    - cbn. rewrite (main_normal f t H G). reflexivity.
  Qed.

  Definition fine (ts : list ptable) : Prop := Forall (fun t => pt_empty t = false /\ filled t /\ good (concat (pt_parts t))) ts.
  Definition all_records (ts : list ptable) : list record := concat (map (fun t => concat (pt_parts t)) ts).

  Lemma good_nil_or : good [] -> forall ts, fine ts -> good (all_records ts).
  Proof.
    intros G ts. induction 1 as [|t ts (H1 & H2 & H3) _ IH]; [exact G|].
    unfold all_records in *. cbn. apply good_app. split; assumption.
  Qed.

  Lemma append_fields : forall ts f, shaped f -> fine ts ->
    exists f', fold_res (write_field main (Some Append)) ts (Some f) = Ok (Some f') /\ f' = put f (all_records ts) /\ shaped f'.
  Proof.
    induction ts as [|t ts IH]; intros f Sh H.
    - exists f. split; [reflexivity|]. split; [|exact Sh]. unfold all_records. cbn. symmetry. apply put_nil.
    - inversion H as [|? ? (H1 & H2 & H3) H4]; subst. cbn [fold_res].
      rewrite (write_append f t Sh H1 H2 H3). cbn [bind].
      destruct (IH (put f (concat (pt_parts t))) (shaped_put f _ Sh H3) H4) as (f' & E1 & E2 & E3).
      exists f'. split; [exact E1|]. split; [|exact E3].
      rewrite E2. unfold all_records. cbn. rewrite put_app. reflexivity.
  Qed.

  Lemma build_fields : forall ts t f, fine (ts ++ [t]) ->
    fold_res (write_field main None) (ts ++ [t]) f = Ok (Some (put fresh (concat (pt_parts t)))).
  Proof.
    induction ts as [|s ts IH]; intros t f H.
    - inversion H as [|? ? (H1 & H2 & H3) H4]; subst. cbn. rewrite (write_build f t H1 H2 H3). reflexivity.
    - inversion H as [|? ? (H1 & H2 & H3) H4]; subst. cbn [fold_res app].
      rewrite (write_build f s H1 H2 H3). cbn [bind]. apply IH. exact H4.
  Qed.

  Definition fine_coll (c : coll) : Prop := fine (fields_of c).

  Lemma append_loop : forall cs f, shaped f -> Forall fine_coll cs ->
    write_loop main false (Some f) cs = Ok (Some (put f (concat (map records_of cs)))).
  Proof.
    induction cs as [|c cs IH]; intros f Sh H.
    - cbn. rewrite put_nil. reflexivity.
    - inversion H as [|? ? H1 H2]; subst. cbn [write_loop]. unfold write_coll. rewrite coll_fields_of.
      destruct (append_fields (fields_of c) f Sh H1) as (f' & E1 & E2 & E3).
      rewrite E1. cbn [bind]. rewrite (IH f' E3 H2). subst f'. cbn [map concat].
      rewrite put_app. reflexivity.
  Qed.

  (** What a run writes: the last field of the first collection, then the
      records of the others. *)
  Lemma build_loop : forall c cs l t f, fields_of c = (l ++ [t])%list -> Forall fine_coll (c :: cs) ->
    write_loop main true f (c :: cs) = Ok (Some (put fresh (concat (pt_parts t) ++ concat (map records_of cs)))).
  Proof.
    intros c cs l t f E H. inversion H as [|? ? H1 H2]; subst. cbn [write_loop]. unfold write_coll. rewrite coll_fields_of.
    unfold fine_coll in H1. rewrite E in *.
    rewrite (build_fields l t f H1). cbn [bind].
    assert (G : good (concat (pt_parts t))).
    { unfold fine in H1. rewrite Forall_app in H1. destruct H1 as (_ & H1). inversion H1 as [|? ? (_ & _ & G) _]. exact G. }
    rewrite (append_loop cs _ (shaped_put _ _ shaped_fresh G) H2).
    rewrite put_app. reflexivity.
  Qed.

  (** The collections of a sequence, each empty or whole. *)
  Definition sorted_out (cs : list coll) : Prop := Forall (fun c => Void c \/ Whole c) cs.

  Lemma due_sorted : forall cs rs, Due cs rs -> sorted_out cs.
  Proof. induction 1; constructor; try assumption; [left|right]; assumption. Qed.
  Lemma due_iter : forall cs rs, Due cs rs -> rs = concat (map records_of (iter_colls cs)).
  Proof.
    induction 1 as [|c cs rs H _ IH|c cs rs H _ IH].
    - reflexivity.
    - rewrite (iter_void _ _ H). exact IH.
    - rewrite (iter_whole _ _ H). cbn. rewrite <- IH. reflexivity.
  Qed.
  Lemma iter_in : forall cs c, sorted_out cs -> In c (iter_colls cs) -> Whole c /\ In c cs.
  Proof.
    intros cs c H I. unfold iter_colls in I. apply filter_In in I. destruct I as (I & E).
    split; [|exact I]. unfold sorted_out in H. rewrite Forall_forall in H. destruct (H c I) as [V|W]; [|exact W].
    rewrite (void_empty _ V) in E. discriminate.
  Qed.

  Lemma good_concat : forall l, good (concat l) -> forall x, In x l -> good x.
  Proof.
    induction l as [|a l IH]; intros H x I; [destruct I|].
    cbn in H. apply good_app in H. destruct H as (H1 & H2).
    destruct I as [<-|I]; [exact H1|exact (IH H2 x I)].
  Qed.

  Lemma sorted_fine : forall cs, sorted_out cs -> Filled cs ->
    (forall c, In c cs -> Whole c -> good (records_of c)) -> Forall fine_coll (iter_colls cs).
  Proof.
    intros cs Hs Hf Hg. apply Forall_forall. intros c I.
    destruct (iter_in cs c Hs I) as (W & I').
    unfold fine_coll, fine. apply Forall_forall. intros t It. split; [|split].
    - exact (whole_fields c t W It).
    - exact (Hf c t I' It (whole_fields c t W It)).
    - specialize (Hg c I' W). unfold records_of in Hg.
      apply (good_concat _ Hg). apply in_map_iff. exists t. split; [reflexivity|exact It].
  Qed.

  Lemma due_good : forall cs rs, Due cs rs -> good rs -> forall c, In c cs -> Whole c -> good (records_of c).
  Proof.
    induction 1 as [|c cs rs H D IH|c cs rs H D IH]; intros G k I W.
    - destruct I.
    - destruct I as [<-|I].
      + apply void_empty in H. rewrite (whole_not_empty _ W) in H. discriminate.
      + exact (IH G k I W).
    - apply good_app in G. destruct G as (G1 & G2). destruct I as [<-|I]; [exact G1|exact (IH G2 k I W)].
  Qed.

  Lemma first_single : forall cs, FirstSingle cs -> exists c t rest, iter_colls cs = c :: rest /\ fields_of c = [t].
  Proof.
    induction 1 as [c cs H _ IH|c cs t H E].
    - destruct IH as (c' & t & rest & E1 & E2). exists c', t, rest. rewrite (iter_void _ _ H). split; assumption.
    - exists c, t, (iter_colls cs). rewrite (iter_whole _ _ H). split; [reflexivity|exact E].
  Qed.

  Lemma all_written : forall cs rs f, Due cs rs -> Filled cs -> FirstSingle cs -> good rs ->
    write_all main f cs = Ok (Some (put fresh rs)).
  Proof.
    intros cs rs f D Hf Hs G. unfold write_all.
    pose proof (sorted_fine cs (due_sorted cs rs D) Hf (due_good cs rs D G)) as Fi.
    rewrite (due_iter cs rs D).
    destruct (first_single cs Hs) as (c & t & rest & E1 & E2). rewrite E1 in *.
    rewrite (build_loop c rest [] t f E2 Fi). cbn [map concat]. unfold records_of at 2. rewrite E2. cbn [map concat].
    rewrite app_nil_r. reflexivity.
  Qed.
End Loop.

(** ** Tables in general *)

Lemma map_res_all : forall {X Y} (f : X -> res Y) (g : X -> Y) l, (forall x, In x l -> f x = Ok (g x)) ->
  map_res f l = Ok (map g l).
Proof.
  induction l as [|x l IH]; intros H; [reflexivity|].
  cbn. rewrite (H x (or_introl eq_refl)). cbn. rewrite (IH (fun y I => H y (or_intror I))). reflexivity.
Qed.

Lemma dget_in : forall {V} (r : list (string * V)) k v, NoDup (map fst r) -> In (k, v) r -> dget String.eqb r k = Some v.
Proof.
  induction r as [|(a, x) r IH]; intros k v N I; [destruct I|].
  cbn in N. inversion N as [|? ? N1 N2]; subst. cbn.
  destruct I as [E|I].
  - inversion E; subst. rewrite String.eqb_refl. reflexivity.
  - destruct (String.eqb_spec k a) as [->|D].
    + exfalso. apply N1. apply in_map_iff. exists (a, v). split; [reflexivity|exact I].
    + exact (IH k v N2 I).
Qed.

Lemma dget_some_in : forall {V} (r : list (string * V)) k v, dget String.eqb r k = Some v -> In (k, v) r.
Proof.
  induction r as [|(a, x) r IH]; intros k v E; [discriminate|].
  cbn in E. destruct (String.eqb_spec k a) as [->|D].
  - inversion E; subst. left. reflexivity.
  - right. exact (IH k v E).
Qed.

Lemma existsb_eqb : forall l (n : string), existsb (String.eqb n) l = true <-> In n l.
Proof.
  intros l n. rewrite existsb_exists. split.
  - intros (x & I & E). apply String.eqb_eq in E. subst x. exact I.
  - intros I. exists n. split; [exact I|apply String.eqb_refl].
Qed.

(** ** CSV *)

Lemma csv_row_own : forall cols r, NoDup cols -> map fst r = cols -> csv_row cols r = Ok (map snd r).
Proof.
  intros cols r N E. unfold csv_row.
  assert (G : forallb (fun p => existsb (String.eqb (fst p)) cols) r = true).
  { apply forallb_forall. intros p I. apply existsb_eqb. rewrite <- E. apply in_map. exact I. }
  rewrite G. f_equal. subst cols.
  assert (H : forall l, (forall p, In p l -> In p r) ->
    map (fun n => match dget String.eqb r n with Some v => v | None => ""%string end) (map fst l) = map snd l).
  { induction l as [|(k, v) l IH]; intros H; [reflexivity|].
    cbn. rewrite (dget_in r k v N (H (k, v) (or_introl eq_refl))).
    rewrite IH; [reflexivity|]. intros p I. apply H. right. exact I. }
  apply H. intros p I. exact I.
Qed.

Definition csv_good (cols : list string) (rs : list record) : Prop := HaveColumns cols rs.
Definition csv_put (f : csv_file) (rs : list record) : csv_file := (f ++ map (map snd) rs)%list.

Lemma have_app : forall cols a b, HaveColumns cols (a ++ b) <-> HaveColumns cols a /\ HaveColumns cols b.
Proof. intros. unfold HaveColumns. apply Forall_app. Qed.
Lemma have_concat : forall cols l, HaveColumns cols (concat l) <-> Forall (HaveColumns cols) l.
Proof.
  induction l as [|x l IH]; cbn; split; intros H.
  - constructor.
  - constructor.
  - apply have_app in H. destruct H as (H1 & H2). constructor; [exact H1|apply IH; exact H2].
  - inversion H; subst. apply have_app. split; [assumption|apply IH; assumption].
Qed.

Lemma field_names_part : forall cols p, p <> [] -> HaveColumns cols p -> field_names p = Ok cols.
Proof.
  intros cols [|r p] H G; [destruct (H eq_refl)|]. inversion G as [|? ? E _]; subst. reflexivity.
Qed.

Lemma names_all : forall {X} (f : list record -> res X) (x : X) ps, Forall (fun p => f p = Ok x) ps ->
  map_res f ps = Ok (map (fun _ => x) ps).
Proof.
  intros X f x ps H. apply map_res_all. intros p I. rewrite Forall_forall in H. exact (H p I).
Qed.

Section Csv.
  Variable cols : list string.
  Hypothesis N : NoDup cols.

  Lemma csv_append_part : forall f p, p <> [] -> HaveColumns cols p ->
    csv_append (Some f) p = Ok (Some (csv_put f p)).
  Proof.
    intros f p H G. unfold csv_append. rewrite (field_names_part cols p H G). cbn [bind].
    rewrite (map_res_all (csv_row cols) (map snd) p).
    - reflexivity.
    - intros r I. apply csv_row_own; [exact N|]. unfold HaveColumns in G. rewrite Forall_forall in G. exact (G r I).
  Qed.

  Lemma csv_append_parts : forall ps f, Forall (fun p => p <> []) ps -> Forall (HaveColumns cols) ps ->
    fold_res csv_append ps (Some f) = Ok (Some (csv_put f (concat ps))).
  Proof.
    induction ps as [|p ps IH]; intros f H G.
    - cbn. unfold csv_put. cbn. rewrite app_nil_r. reflexivity.
    - inversion H; subst. inversion G; subst. cbn [fold_res].
      rewrite csv_append_part by assumption. cbn [bind]. rewrite IH by assumption.
      unfold csv_put. cbn. rewrite map_app, app_assoc. reflexivity.
  Qed.

  Lemma csv_names : forall t, filled t -> HaveColumns cols (concat (pt_parts t)) ->
    exists l, map_res field_names (pt_parts t) = Ok (cols :: l).
  Proof.
    intros t (H1 & H2) G. apply have_concat in G.
    rewrite (names_all field_names cols).
    - destruct (pt_parts t) as [|p ps]; [destruct (H1 eq_refl)|]. exists (map (fun _ => cols) ps). reflexivity.
    - rewrite Forall_forall in *. intros p I. apply field_names_part; [exact (H2 p I)|exact (G p I)].
  Qed.

  Lemma csv_all_written : forall cs rs f, Due cs rs -> Filled cs -> FirstSingle cs -> HaveColumns cols rs ->
    write_all csv_main f cs = Ok (Some (cols :: map (map snd) rs)).
  Proof.
    intros cs rs f D Hf Hs G.
    refine (all_written csv_main csv_put [cols] (HaveColumns cols) _ _ _ (fun _ => True) I _ _ _ _ cs rs f D Hf Hs G).
    - intros x a b. unfold csv_put. rewrite map_app, app_assoc. reflexivity.
    - intros x. unfold csv_put. cbn. apply app_nil_r.
    - apply have_app.
    - intros. exact I.
    - intros x t _ H1 H2. unfold csv_main. destruct (csv_names t H1 H2) as (l & E). rewrite E. cbn.
      apply csv_append_parts; [exact (proj2 H1)|apply have_concat; exact H2].
    - intros x t H1 H2. unfold csv_main. destruct (csv_names t H1 H2) as (l & E). rewrite E. reflexivity.
    - intros x t H1 H2. unfold csv_main. destruct (csv_names t H1 H2) as (l & E). rewrite E. cbn.
      apply csv_append_parts; [exact (proj2 H1)|apply have_concat; exact H2].
  Qed.

  Lemma csv_first_lost : forall c cs l t f, fields_of c = (l ++ [t])%list -> Forall Whole (c :: cs) -> Filled (c :: cs) ->
    HaveColumns cols (concat (map records_of (c :: cs))) ->
    write_all csv_main f (c :: cs) = Ok (Some (cols :: map (map snd) (concat (pt_parts t) ++ concat (map records_of cs)))).
  Proof.
    intros c cs l t f E W Hf G.
    assert (So : sorted_out (c :: cs)).
    { unfold sorted_out. eapply Forall_impl; [|exact W]. intros k H. right. exact H. }
    assert (Di : forall ks, Forall Whole ks -> iter_colls ks = ks).
    { induction 1 as [|k ks Hk _ IH]; [reflexivity|]. rewrite (iter_whole _ _ Hk), IH. reflexivity. }
    assert (Fi : Forall (fine_coll (HaveColumns cols)) (c :: cs)).
    { rewrite <- (Di _ W). apply (sorted_fine (HaveColumns cols) (have_app cols) _ So Hf).
      intros k I _. apply (good_concat (HaveColumns cols) (have_app cols) _ G). apply in_map. exact I. }
    unfold write_all. rewrite (Di _ W).
    refine (build_loop csv_main csv_put [cols] (HaveColumns cols) _ _ (fun _ => True) I _ _ _ _ c cs l t f E Fi).
    - intros x a b. unfold csv_put. rewrite map_app, app_assoc. reflexivity.
    - intros x. unfold csv_put. cbn. apply app_nil_r.
    - intros. exact I.
    - intros x u _ H1 H2. unfold csv_main. destruct (csv_names u H1 H2) as (l0 & E0). rewrite E0. cbn.
      apply csv_append_parts; [exact (proj2 H1)|apply have_concat; exact H2].
    - intros x u H1 H2. unfold csv_main. destruct (csv_names u H1 H2) as (l0 & E0). rewrite E0. reflexivity.
    - intros x u H1 H2. unfold csv_main. destruct (csv_names u H1 H2) as (l0 & E0). rewrite E0. cbn.
      apply csv_append_parts; [exact (proj2 H1)|apply have_concat; exact H2].
  Qed.
End Csv.

Lemma combine_split : forall {X Y} (r : list (X * Y)), combine (map fst r) (map snd r) = r.
Proof. induction r as [|(a, b) r IH]; [reflexivity|]. cbn. rewrite IH. reflexivity. Qed.

Lemma csv_records_back : forall cols rs, HaveColumns cols rs -> csv_records (cols :: map (map snd) rs) = rs.
Proof.
  intros cols rs H. cbn. rewrite map_map. induction H as [|r rs E _ IH]; [reflexivity|].
  cbn. rewrite IH. subst cols. rewrite combine_split. reflexivity.
Qed.

Lemma convert_write : forall {X} (main : wmode -> option X -> ptable -> res (option X)) ow ex cs,
  ex = None \/ ow = true -> convert main ow ex cs = write_all main ex cs.
Proof. intros X main ow [x|] cs H; cbn; [|reflexivity]. destruct H as [H| ->]; [discriminate|reflexivity]. Qed.

Lemma csv_written : forall cs rs cols ow ex, Due cs rs -> Filled cs -> FirstSingle cs -> HaveColumns cols rs -> NoDup cols ->
  ex = None \/ ow = true ->
  exists file, convert csv_main ow ex cs = Ok (Some file) /\ hd_error file = Some cols /\ csv_records file = rs.
Proof.
  intros cs rs cols ow ex D Hf Hs G N H. exists (cols :: map (map snd) rs). split; [|split].
  - rewrite (convert_write _ _ _ _ H). exact (csv_all_written cols N cs rs ex D Hf Hs G).
  - reflexivity.
  - exact (csv_records_back cols rs G).
Qed.

Lemma csv_lost : forall c cs l t cols ow ex, fields_of c = (l ++ [t])%list -> Forall Whole (c :: cs) -> Filled (c :: cs) ->
  HaveColumns cols (concat (map records_of (c :: cs))) -> NoDup cols -> ex = None \/ ow = true ->
  exists file, convert csv_main ow ex (c :: cs) = Ok (Some file) /\
    csv_records file = (concat (pt_parts t) ++ concat (map records_of cs))%list.
Proof.
  intros c cs l t cols ow ex E W Hf G N H.
  exists (cols :: map (map snd) (concat (pt_parts t) ++ concat (map records_of cs))). split.
  - rewrite (convert_write _ _ _ _ H). exact (csv_first_lost cols N c cs l t ex E W Hf G).
  - apply csv_records_back. cbn [map concat] in G. apply have_app in G. destruct G as (G1 & G2).
    apply have_app. split; [|exact G2].
    unfold records_of in G1. rewrite E in G1. rewrite map_app, concat_app in G1. apply have_app in G1.
    destruct G1 as (_ & G1). cbn in G1. rewrite app_nil_r in G1. exact G1.
Qed.

Lemma convert_exists : forall {X} (main : wmode -> option X -> ptable -> res (option X)) x cs,
  convert main false (Some x) cs = Err IOError.
Proof. reflexivity. Qed.

Lemma convert_stale : forall {X} (main : wmode -> option X -> ptable -> res (option X)) x cs, Forall Void cs ->
  convert main true (Some x) cs = Ok (Some x).
Proof. intros X main x cs H. cbn. unfold write_all. rewrite (iter_all_void _ H). reflexivity. Qed.

(** A collection whose last field is empty is passed over. *)
Lemma last_skipped : forall {X} (main : wmode -> option X -> ptable -> res (option X)) ow ex c cs ks k fs t,
  co_flag c = None -> ~ In true (co_vars c) -> co_containers c = (ks ++ [k])%list ->
  ct_flag k = None -> ct_fields k = (fs ++ [t])%list -> pt_empty t = true ->
  convert main ow ex (c :: cs) = convert main ow ex cs.
Proof.
  intros X main ow ex c cs ks k fs t H1 H2 H3 H4 H5 H6.
  assert (E : coll_is_empty c = true).
  { unfold coll_is_empty, coll_tree. rewrite H1, H3, map_app. cbn [map]. rewrite (tree_last _ _ _ H2).
    unfold container_tree. rewrite H4, H5, map_app. cbn [map].
    destruct (existsb id (ct_vars k)) eqn:G.
    - cbn. rewrite G. reflexivity.
    - rewrite tree_last.
      + cbn. exact H6.
      + intros I. apply existsb_id_In in I. rewrite I in G. discriminate. }
  assert (G : forall f, write_all main f (c :: cs) = write_all main f cs).
  { intros f. unfold write_all, iter_colls. cbn [filter]. rewrite E. reflexivity. }
  unfold convert. destruct ex; rewrite !G; reflexivity.
Qed.

(** ** Vector files *)

Lemma dset_fresh : forall {V} (d : list (string * V)) k v, ~ In k (map fst d) -> dset String.eqb d k v = (d ++ [(k, v)])%list.
Proof.
  induction d as [|(a, x) d IH]; intros k v H; [reflexivity|].
  cbn in *. destruct (String.eqb_spec k a) as [->|D].
  - exfalso. apply H. left. reflexivity.
  - rewrite IH; [reflexivity|]. intros I. apply H. right. exact I.
Qed.

Lemma substring_prefix : forall s n, (String.length s <= n)%nat -> substring 0 n s = s.
Proof.
  induction s as [|a s IH]; intros n H.
  - destruct n; reflexivity.
  - destruct n as [|n]; [cbn in H; lia|]. cbn. rewrite IH; [reflexivity|]. cbn in H. lia.
Qed.

Lemma cut_ten : forall k, cut_name k = ten k.
Proof.
  intros k. unfold cut_name, ten. destruct (10 <? String.length k)%nat eqn:E; [reflexivity|].
  symmetry. apply substring_prefix. apply Nat.ltb_ge in E. exact E.
Qed.

Lemma format_fold : forall r d, NoDup (map fst d ++ map (fun p => ten (fst p)) r) ->
  fold_left (fun d p => dset String.eqb d (cut_name (fst p)) (snd p)) r d = (d ++ renamed ten r)%list.
Proof.
  induction r as [|(k, v) r IH]; intros d N.
  - cbn. rewrite app_nil_r. reflexivity.
  - cbn [fold_left fst snd]. rewrite cut_ten. rewrite dset_fresh.
    + rewrite IH.
      * rewrite <- app_assoc. reflexivity.
      * rewrite map_app. cbn. rewrite <- app_assoc. exact N.
    + intros I. cbn in N. apply NoDup_remove_2 in N. apply N. apply in_or_app. left. exact I.
Qed.

Lemma format_renamed : forall r, NoDup (map ten (map fst r)) -> format_shapefile r = renamed ten r.
Proof. intros r N. unfold format_shapefile. rewrite format_fold; [reflexivity|]. cbn. rewrite map_map in N. exact N. Qed.

Lemma renamed_id : forall r, renamed (fun k => k) r = r.
Proof. intros r. unfold renamed. induction r as [|(a, b) r IH]; [reflexivity|]. cbn. rewrite IH. reflexivity. Qed.

Lemma same_names_refl : forall l, same_names l l = true.
Proof.
  intros l. unfold same_names. apply andb_true_intro. split; apply forallb_forall; intros n I; apply existsb_eqb; exact I.
Qed.

Section Vector.
  Variable cols : list string.
  Variable format : record -> record.
  Variable ren : string -> string.
  Hypothesis format_ren : forall r, map fst r = cols -> format r = renamed ren r.

  Lemma renamed_names : forall r, map fst r = cols -> map fst (renamed ren r) = map ren cols.
  Proof. intros r <-. unfold renamed. rewrite !map_map. reflexivity. Qed.

  Definition v_put (f : vfile) (rs : list record) : vfile := mkvfile (vf_names f) (vf_features f ++ map (renamed ren) rs)%list.
  Definition v_shaped (f : vfile) : Prop := vf_names f = map ren cols.

  Lemma sink_all : forall p s, v_shaped s -> HaveColumns cols p ->
    fold_res (fun s r => sink_write s (format r)) p s = Ok (v_put s p).
  Proof.
    induction p as [|r p IH]; intros s Sh G.
    - cbn. unfold v_put. cbn. rewrite app_nil_r. destruct s. reflexivity.
    - inversion G as [|? ? E G']; subst.
      assert (W : sink_write s (format r) = Ok (mkvfile (vf_names s) (vf_features s ++ [renamed ren r])%list)).
      { unfold sink_write. rewrite (format_ren r E). unfold v_shaped in Sh. rewrite Sh, (renamed_names r E), same_names_refl. reflexivity. }
      cbn [fold_res]. rewrite W. cbn [bind]. rewrite IH.
      + unfold v_put. cbn. rewrite <- app_assoc. reflexivity.
      + exact Sh.
      + exact G'.
  Qed.

  Lemma schema_part : forall p, p <> [] -> HaveColumns cols p -> schema_names format p = Ok (map ren cols).
  Proof.
    intros [|r p] H G; [destruct (H eq_refl)|]. inversion G as [|? ? E _]. cbn.
    rewrite (format_ren r E), (renamed_names r E). reflexivity.
  Qed.

  Lemma v_names : forall t, filled t -> HaveColumns cols (concat (pt_parts t)) ->
    exists l, map_res (schema_names format) (pt_parts t) = Ok (map ren cols :: l).
  Proof.
    intros t (H1 & H2) G. apply have_concat in G.
    rewrite (names_all (schema_names format) (map ren cols)).
    - destruct (pt_parts t) as [|p ps]; [destruct (H1 eq_refl)|]. exists (map (fun _ => map ren cols) ps). reflexivity.
    - rewrite Forall_forall in *. intros p I. apply schema_part; [exact (H2 p I)|exact (G p I)].
  Qed.

  Lemma v_append_part : forall f p, v_shaped f -> p <> [] -> HaveColumns cols p ->
    vector_append false format (Some f) p = Ok (Some (v_put f p)).
  Proof.
    intros f p Sh H G. unfold vector_append. rewrite (schema_part p H G). cbn [bind open_sink].
    rewrite (sink_all p f Sh G). reflexivity.
  Qed.

  Lemma v_append_parts : forall ps f, v_shaped f -> Forall (fun p => p <> []) ps -> Forall (HaveColumns cols) ps ->
    fold_res (vector_append false format) ps (Some f) = Ok (Some (v_put f (concat ps))).
  Proof.
    induction ps as [|p ps IH]; intros f Sh H G.
    - cbn. unfold v_put. cbn. rewrite app_nil_r. destruct f. reflexivity.
    - inversion H; subst. inversion G; subst. cbn [fold_res].
      rewrite v_append_part by assumption. cbn [bind]. rewrite IH by assumption.
      unfold v_put. cbn. rewrite map_app, app_assoc. reflexivity.
  Qed.

  Lemma v_all_written : forall cs rs f, Due cs rs -> Filled cs -> FirstSingle cs -> HaveColumns cols rs ->
    write_all (vector_main false format) f cs = Ok (Some (mkvfile (map ren cols) (map (renamed ren) rs))).
  Proof.
    intros cs rs f D Hf Hs G.
    refine (all_written (vector_main false format) v_put (mkvfile (map ren cols) []) (HaveColumns cols) _ _ _ v_shaped
              _ _ _ _ _ cs rs f D Hf Hs G).
    - intros x a b. unfold v_put. cbn. rewrite map_app, app_assoc. reflexivity.
    - intros x. unfold v_put. cbn. rewrite app_nil_r. destruct x. reflexivity.
    - apply have_app.
    - reflexivity.
    - intros x l Sh _. exact Sh.
    - intros x t Sh H1 H2. unfold vector_main. destruct (v_names t H1 H2) as (l & E). rewrite E. cbn.
      apply v_append_parts; [exact Sh|exact (proj2 H1)|apply have_concat; exact H2].
    - intros x t H1 H2. unfold vector_main. destruct (v_names t H1 H2) as (l & E). rewrite E. reflexivity.
    - intros x t H1 H2. unfold vector_main. destruct (v_names t H1 H2) as (l & E). rewrite E. cbn.
      apply v_append_parts; [reflexivity|exact (proj2 H1)|apply have_concat; exact H2].
  Qed.
End Vector.

Lemma shapefile_written : forall cs rs cols ow ex, Due cs rs -> Filled cs -> FirstSingle cs -> HaveColumns cols rs ->
  NoDup (map ten cols) -> ex = None \/ ow = true ->
  convert shapefile_main ow ex cs = Ok (Some (mkvfile (map ten cols) (map (renamed ten) rs))).
Proof.
  intros cs rs cols ow ex D Hf Hs G N H. rewrite (convert_write _ _ _ _ H).
  unfold shapefile_main. refine (v_all_written cols format_shapefile ten _ cs rs ex D Hf Hs G).
  intros r E. apply format_renamed. rewrite E. exact N.
Qed.

(** ** GeoJSON *)

Section Geojson.
  Variable cols : list string.
  Let fmt : record -> record := fun r => r.
  Lemma fmt_id : forall r, map fst r = cols -> fmt r = renamed (fun k => k) r.
  Proof. intros r _. rewrite renamed_id. reflexivity. Qed.

  Lemma map_renamed_id : forall p, map (renamed (fun k => k)) p = p.
  Proof. induction p as [|r p IH]; [reflexivity|]. cbn. rewrite renamed_id, IH. reflexivity. Qed.

  Lemma g_append_part : forall f p, p <> [] -> HaveColumns cols p ->
    vector_append true fmt f p = Ok (Some (mkvfile cols p)).
  Proof.
    intros f p H G. unfold vector_append. rewrite (schema_part cols fmt (fun k => k) fmt_id p H G). cbn [bind open_sink].
    rewrite map_id. rewrite (sink_all cols fmt (fun k => k) fmt_id p (mkvfile cols [])).
    - unfold v_put. cbn. rewrite map_renamed_id. reflexivity.
    - unfold v_shaped. cbn. rewrite map_id. reflexivity.
    - exact G.
  Qed.

  Lemma g_append_parts : forall ps p f, Forall (fun p => p <> []) (ps ++ [p]) -> Forall (HaveColumns cols) (ps ++ [p]) ->
    fold_res (vector_append true fmt) (ps ++ [p]) f = Ok (Some (mkvfile cols p)).
  Proof.
    induction ps as [|q ps IH]; intros p f H G.
    - inversion H; subst. inversion G; subst. cbn [app fold_res]. rewrite g_append_part by assumption. reflexivity.
    - inversion H; subst. inversion G; subst. cbn [app fold_res]. rewrite g_append_part by assumption. cbn [bind].
      apply IH; assumption.
  Qed.

  (** Whatever was in the file, a field leaves the records of its last rank. *)
  Lemma g_field : forall mode f t ps p, mode = None \/ mode = Some Append -> pt_empty t = false -> filled t ->
    HaveColumns cols (concat (pt_parts t)) -> pt_parts t = (ps ++ [p])%list ->
    write_field geojson_main mode f t = Ok (Some (mkvfile cols p)).
  Proof.
    intros mode f t ps p Hm E H G Ep.
    assert (Ns := v_names cols fmt (fun k => k) fmt_id t H G). destruct Ns as (l & Ns).
    assert (Fo : forall f, fold_res (vector_append true fmt) (pt_parts t) f = Ok (Some (mkvfile cols p))).
    { intros f'. rewrite Ep. apply g_append_parts; rewrite <- Ep; [exact (proj2 H)|apply have_concat; exact G]. }
    assert (Mf : forall f, geojson_main Fill f t = Ok (Some (mkvfile cols p))).
    { intros f'. unfold geojson_main, vector_main. fold fmt. rewrite Ns. cbn. apply Fo. }
    assert (Mn : forall f, geojson_main Normal f t = Ok (Some (mkvfile cols p))).
    { intros f'. unfold geojson_main, vector_main. fold fmt. rewrite Ns. cbn. apply Fo. }
    assert (Mt : forall f, geojson_main Template f t = Ok f).
    { intros f'. unfold geojson_main, vector_main. fold fmt. rewrite Ns. reflexivity. }
    unfold write_field. rewrite E. destruct Hm as [->| ->].
    - unfold get_write_modes. destruct (1 <? length (pt_parts t))%nat.
      + cbn [fold_res]. rewrite Mt. cbn [bind]. rewrite Mf. reflexivity.
      + cbn [fold_res]. rewrite Mn. reflexivity.
    - cbn [fold_res]. unfold Append. rewrite Mf. reflexivity.
  Qed.

  Definition g_fine (t : ptable) : Prop := pt_empty t = false /\ filled t /\ HaveColumns cols (concat (pt_parts t)).

  Lemma last_part : forall t, filled t -> exists ps p, pt_parts t = (ps ++ [p])%list.
  Proof. intros t (H & _). destruct (exists_last H) as (ps & p & E). exists ps, p. exact E. Qed.

  Lemma g_fields : forall ts f mode, mode = None \/ mode = Some Append -> Forall g_fine ts ->
    exists f', fold_res (write_field geojson_main mode) ts f = Ok f'.
  Proof.
    induction ts as [|t ts IH]; intros f mode Hm H.
    - exists f. reflexivity.
    - inversion H as [|? ? (H1 & H2 & H3) H4]; subst. destruct (last_part t H2) as (ps & p & E).
      cbn [fold_res]. rewrite (g_field mode f t ps p Hm H1 H2 H3 E). cbn [bind]. apply IH; assumption.
  Qed.

  Lemma fold_res_app : forall {X S} (g : S -> X -> res S) a b s, fold_res g (a ++ b) s = (do s' <- fold_res g a s; fold_res g b s').
  Proof. induction a as [|x a IH]; intros b s; [reflexivity|]. cbn. destruct (g s x); [apply IH|reflexivity]. Qed.

  Lemma g_coll : forall c f mode l t ps p, mode = None \/ mode = Some Append -> Forall g_fine (fields_of c) ->
    fields_of c = (l ++ [t])%list -> pt_parts t = (ps ++ [p])%list ->
    write_coll geojson_main mode f c = Ok (Some (mkvfile cols p)).
  Proof.
    intros c f mode l t ps p Hm H E Ep. unfold write_coll. rewrite coll_fields_of, E, fold_res_app.
    rewrite E, Forall_app in H. destruct H as (Ha & Hb). inversion Hb as [|? ? (H1 & H2 & H3) _]; subst.
    destruct (g_fields l f mode Hm Ha) as (f' & ->). cbn [bind fold_res].
    rewrite (g_field mode f' t ps p Hm H1 H2 H3 Ep). reflexivity.
  Qed.

  Lemma g_loop : forall cs build f t ps p, sorted_out cs ->
    Forall (fun c => Forall g_fine (fields_of c)) (iter_colls cs) ->
    LastField cs t -> pt_parts t = (ps ++ [p])%list ->
    write_loop geojson_main build f (iter_colls cs) = Ok (Some (mkvfile cols p)).
  Proof.
    intros cs build f t ps p Hs H L Ep. revert build f Hs H. induction L as [c cs l t W E V|c cs t L IH]; intros build f Hs H.
    - rewrite (iter_whole _ _ W) in *. inversion H as [|? ? Hc Hr]; subst. cbn [write_loop].
      rewrite (g_coll c f (if build then None else Some Append) l t ps p) by
        first [ assumption | destruct build; [left|right]; reflexivity ].
      cbn [bind]. rewrite (iter_all_void _ V). reflexivity.
    - inversion Hs as [|? ? [V|W] Hs']; subst.
      + rewrite (iter_void _ _ V) in *. apply IH; assumption.
      + rewrite (iter_whole _ _ W) in *. inversion H as [|? ? Hc Hr]; subst. cbn [write_loop]. unfold write_coll.
        rewrite coll_fields_of.
        destruct (g_fields (fields_of c) f (if build then None else Some Append)) as (f' & ->).
        * destruct build; [left|right]; reflexivity.
        * exact Hc.
        * cbn [bind]. apply IH; assumption.
  Qed.
End Geojson.

Lemma geojson_last : forall cs rs cols t ps p ow ex, Due cs rs -> Filled cs -> HaveColumns cols rs ->
  LastField cs t -> pt_parts t = (ps ++ [p])%list -> ex = None \/ ow = true ->
  convert geojson_main ow ex cs = Ok (Some (mkvfile cols p)).
Proof.
  intros cs rs cols t ps p ow ex D Hf G L Ep H. rewrite (convert_write _ _ _ _ H). unfold write_all.
  pose proof (sorted_fine (HaveColumns cols) (have_app cols) cs (due_sorted cs rs D) Hf
                (due_good (HaveColumns cols) (have_app cols) cs rs D G)) as Fi.
  apply (g_loop cols cs true ex t ps p (due_sorted cs rs D)); [|exact L|exact Ep].
  eapply Forall_impl; [|exact Fi]. intros c F. exact F.
Qed.

Lemma geojson_single : forall cs c t p cols ow ex, Due cs (records_of c) -> Filled cs -> LastField cs t ->
  fields_of c = [t] -> pt_parts t = [p] -> HaveColumns cols p -> ex = None \/ ow = true ->
  convert geojson_main ow ex cs = Ok (Some (mkvfile cols (records_of c))).
Proof.
  intros cs c t p cols ow ex D Hf L E1 E2 G H.
  assert (R : records_of c = p).
  { unfold records_of. rewrite E1. cbn. rewrite E2. cbn. rewrite !app_nil_r. reflexivity. }
  rewrite R in *. exact (geojson_last cs p cols t [] p ow ex D Hf G L E2 H).
Qed.

(** ** Reading CSV *)

Lemma column_get : forall name rs l, Forall (fun r => NoDup (map fst r)) rs -> Column name rs l ->
  Forall2 (fun r v => dget String.eqb r name = Some v) rs l.
Proof.
  intros name rs l N C. induction C as [|r v rs l I C IH]; [constructor|].
  inversion N; subst. constructor; [apply dget_in; assumption|apply IH; assumption].
Qed.

Lemma read_after : forall rs l name lo hi idx, lo <= idx ->
  Forall2 (fun r v => dget String.eqb r name = Some v) rs l ->
  csv_read_loop rs name lo hi idx = Ok (firstn (Z.to_nat (hi - idx)) l).
Proof.
  intros rs l name lo hi idx H C. revert idx H. induction C as [|r v rs l E C IH]; intros idx H.
  - cbn. rewrite firstn_nil. reflexivity.
  - cbn [csv_read_loop]. destruct (Z.ltb_spec idx lo) as [L|L]; [lia|].
    destruct (Z.leb_spec hi idx) as [L'|L'].
    + replace (Z.to_nat (hi - idx)) with 0%nat by lia. reflexivity.
    + rewrite E. rewrite IH by lia. cbn [bind].
      replace (Z.to_nat (hi - idx)) with (S (Z.to_nat (hi - (idx + 1)))) by lia. reflexivity.
Qed.

Lemma read_from : forall rs l name lo hi idx, idx <= lo -> lo <= hi ->
  Forall2 (fun r v => dget String.eqb r name = Some v) rs l ->
  csv_read_loop rs name lo hi idx = Ok (firstn (Z.to_nat (hi - lo)) (skipn (Z.to_nat (lo - idx)) l)).
Proof.
  intros rs l name lo hi idx H H' C. revert idx H. induction C as [|r v rs l E C IH]; intros idx H.
  - cbn. rewrite skipn_nil, firstn_nil. reflexivity.
  - destruct (Z.eq_dec idx lo) as [->|D].
    + replace (Z.to_nat (lo - lo)) with 0%nat by lia. cbn [skipn].
      apply read_after; [lia|]. constructor; assumption.
    + cbn [csv_read_loop]. destruct (Z.ltb_spec idx lo) as [L|L]; [|lia].
      rewrite IH by lia. replace (Z.to_nat (lo - idx)) with (S (Z.to_nat (lo - (idx + 1)))) by lia. reflexivity.
Qed.

Lemma csv_read_column : forall f cols rows name l lo hi, f = cols :: rows -> NoDup cols ->
  Forall (fun r => length r = length cols) rows -> Column name (csv_records f) l -> 0 <= lo -> lo <= hi ->
  csv_read f name lo hi = Ok (firstn (Z.to_nat (hi - lo)) (skipn (Z.to_nat lo) l)).
Proof.
  intros f cols rows name l lo hi -> N H C H1 H2. unfold csv_read.
  rewrite (read_from _ l name lo hi 0 H1 H2).
  - rewrite Z.sub_0_r. reflexivity.
  - apply column_get; [|exact C]. cbn. rewrite Forall_map. eapply Forall_impl; [|exact H].
    intros r E. cbn. clear - N E. revert r E. 
    assert (G : forall (a : list string) (b : list string), length b = length a -> map fst (combine a b) = a).
    { induction a as [|x a IH]; intros [|y b] E; try discriminate; [reflexivity|]. cbn. rewrite IH; [reflexivity|]. cbn in E. lia. }
    intros r E. rewrite G by exact E. exact N.
Qed.

(** Ranks holding consecutive rows together read the column. *)
Lemma skipn_firstn_glue : forall {X} (l : list X) a b, firstn a l ++ firstn b (skipn a l) = firstn (a + b) l.
Proof.
  intros X l a. revert l. induction a as [|a IH]; intros l b; [reflexivity|].
  destruct l as [|x l]; [cbn; rewrite firstn_nil; reflexivity|]. cbn. rewrite IH. reflexivity.
Qed.

Lemma skipn_twice : forall {X} a b (l : list X), skipn a (skipn b l) = skipn (b + a) l.
Proof.
  intros X a b. induction b as [|b IH]; intros l; [reflexivity|].
  destruct l as [|x l]; [rewrite !skipn_nil; reflexivity|]. cbn. apply IH.
Qed.

Lemma glue : forall {X} (l : list X) lo mid hi, 0 <= lo <= mid -> mid <= hi ->
  (firstn (Z.to_nat (mid - lo)) (skipn (Z.to_nat lo) l) ++ firstn (Z.to_nat (hi - mid)) (skipn (Z.to_nat mid) l)
   = firstn (Z.to_nat (hi - lo)) (skipn (Z.to_nat lo) l))%list.
Proof.
  intros X l lo mid hi H1 H2.
  replace (skipn (Z.to_nat mid) l) with (skipn (Z.to_nat (mid - lo)) (skipn (Z.to_nat lo) l)).
  - rewrite skipn_firstn_glue. f_equal. lia.
  - rewrite skipn_twice. f_equal. lia.
Qed.

Lemma tiles_le : forall lo hi bs, Tiles lo hi bs -> lo <= hi.
Proof. induction 1; lia. Qed.

Lemma read_tiles : forall f cols rows name l lo hi bs, TableFile f cols rows -> Column name (csv_records f) l ->
  0 <= lo -> Tiles lo hi bs ->
  exists parts, map_res (fun b => csv_read f name (fst b) (snd b)) bs = Ok parts /\
    concat parts = firstn (Z.to_nat (hi - lo)) (skipn (Z.to_nat lo) l).
Proof.
  intros f cols rows name l lo hi bs (F1 & F2 & F3) C H T. induction T as [lo|lo mid hi bs L T IH].
  - exists []. split; [reflexivity|]. replace (Z.to_nat (lo - lo)) with 0%nat by lia. reflexivity.
  - destruct IH as (parts & E1 & E2); [lia|]. pose proof (tiles_le _ _ _ T) as L'.
    cbn [map_res fst snd]. rewrite (csv_read_column f cols rows name l lo mid F1 F2 F3 C H L). cbn [bind].
    rewrite E1. cbn [bind]. eexists. split; [reflexivity|]. cbn [concat]. rewrite E2. apply glue; lia.
Qed.

Lemma column_length : forall name rs l, Column name rs l -> length l = length rs.
Proof. induction 1; cbn; congruence. Qed.

Lemma read_whole : forall f cols rows name l bs, TableFile f cols rows -> Column name (csv_records f) l ->
  Tiles 0 (zlen rows) bs ->
  exists parts, map_res (fun b => csv_read f name (fst b) (snd b)) bs = Ok parts /\ concat parts = l.
Proof.
  intros f cols rows name l bs F C T.
  destruct (read_tiles f cols rows name l 0 (zlen rows) bs F C) as (parts & E1 & E2); [lia|exact T|].
  exists parts. split; [exact E1|]. rewrite E2. rewrite Z.sub_0_r. cbn [skipn Z.to_nat].
  apply firstn_all2. rewrite (column_length _ _ _ C). destruct F as (-> & _). cbn. rewrite map_length. unfold zlen. lia.
Qed.

Lemma read_unknown : forall f cols rows name lo hi, TableFile f cols rows -> ~ In name cols -> 0 <= lo -> lo < hi ->
  lo < zlen rows -> csv_read f name lo hi = Err KeyError.
Proof.
  intros f cols rows name lo hi (-> & _ & _) H H1 H2 H3. unfold csv_read. cbn [csv_records].
  assert (G : forall r : list string, dget String.eqb (combine cols r) name = None).
  { intros r. destruct (dget String.eqb (combine cols r) name) eqn:E; [|reflexivity].
    apply dget_some_in in E. exfalso. apply H. exact (in_combine_l _ _ _ _ E). }
  assert (K : forall rows idx, 0 <= lo - idx -> lo - idx < zlen rows ->
     csv_read_loop (map (fun r => combine cols r) rows) name lo hi idx = Err KeyError).
  { clear H3 rows. induction rows as [|r rows IH]; intros idx A B.
    - unfold zlen in B. cbn in B. lia.
    - cbn [map csv_read_loop]. destruct (Z.ltb_spec idx lo) as [L|L].
      + apply IH; [lia|]. unfold zlen in *. cbn [length] in B. lia.
      + destruct (Z.leb_spec hi idx) as [L'|L']; [lia|]. rewrite G. reflexivity. }
  apply K; lia.
Qed.

(** Writing, then reading on any number of ranks. *)
Lemma csv_roundtrip : forall cs rs cols ow ex name l bs, Due cs rs -> Filled cs -> FirstSingle cs -> HaveColumns cols rs ->
  NoDup cols -> ex = None \/ ow = true -> Column name rs l -> Tiles 0 (zlen rs) bs ->
  exists file parts, convert csv_main ow ex cs = Ok (Some file) /\ csv_metadata file = Ok (cols, zlen rs) /\
    map_res (fun b => csv_read file name (fst b) (snd b)) bs = Ok parts /\ concat parts = l.
Proof.
  intros cs rs cols ow ex name l bs D Hf Hs G N H C T.
  set (file := cols :: map (map snd) rs).
  assert (Tf : TableFile file cols (map (map snd) rs)).
  { split; [reflexivity|]. split; [exact N|]. rewrite Forall_map. eapply Forall_impl; [|exact G].
    intros r <-. rewrite !map_length. reflexivity. }
  assert (C' : Column name (csv_records file) l) by (unfold file; rewrite (csv_records_back cols rs G); exact C).
  assert (Z1 : zlen (map (map snd) rs) = zlen rs) by (unfold zlen; rewrite map_length; reflexivity).
  destruct (read_whole file cols (map (map snd) rs) name l bs Tf C') as (parts & E1 & E2).
  - rewrite Z1. exact T.
  - exists file, parts. split; [|split; [|split; assumption]].
    + rewrite (convert_write _ _ _ _ H). exact (csv_all_written cols N cs rs ex D Hf Hs G).
    + cbn. rewrite Z1. reflexivity.
Qed.
