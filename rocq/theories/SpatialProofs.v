(** Proofs about spatial collections. *)
From Verif Require Import Py Lib SpatialModel SpatialSpec DmapProofs.

Lemma key_spec a b : reflect (a = b) (key_eqb a b).
Proof.
  destruct a as [x|], b as [y|]; cbn; try (constructor; congruence). destruct (Z.eqb_spec x y); constructor; congruence.
Qed.

Section S.
  Context {V : Type}.
  Implicit Types (s : scoll V) (calls : list (call V)) (k : option Z) (n : string) (f : sfield V).

  Definition kids s k : list (string * sfield V) := match dget key_eqb s k with Some c => c_children c | None => [] end.
  Definition perform s (c : call V) : scoll V * res unit := add_field s (field_of c) (snd (fst c)) (forced c).

  Lemma run_snoc s calls (c : call V) : run s (calls ++ [c])%list = fst (perform (run s calls) c).
  Proof.
    revert s. induction calls as [|[[f cont] force] t IH]; intros s; cbn [app run]; [destruct c as [[f cont] force]; reflexivity|]. apply IH.
  Qed.

  Definition isnew (c : call V) : Prop := match snd (fst c) with Some c => c_children c = [] | None => True end.

  Lemma dset_none_key s k (c : container V) : dget key_eqb s k = None -> dset key_eqb s k c = (s ++ [(k, c)])%list.
  Proof.
    induction s as [|[k' c'] t IH]; cbn [dset dget app]; intros H; [reflexivity|]. destruct (key_eqb k k'); [discriminate|]. now rewrite IH.
  Qed.

  (** The effect of one call. *)
  Lemma add_cases s (c : call V) : isnew c -> let k := key_of c in let n := f_name (field_of c) in
    (dmem String.eqb (kids s k) n = true /\ forced c = false /\ perform s c = (s, Err ValueError)) \/
    ((dmem String.eqb (kids s k) n = false \/ forced c = true) /\ snd (perform s c) = Ok tt /\
     map fst (fst (perform s c)) = (if dmem key_eqb s k then map fst s else map fst s ++ [k])%list /\
     (forall k2, k2 <> k -> dget key_eqb (fst (perform s c)) k2 = dget key_eqb s k2) /\
     exists c' : container V, dget key_eqb (fst (perform s c)) k = Some c' /\ c_children c' = dset String.eqb (kids s k) n (field_of c)).
  Proof.
    intros Hnew k n. set (given := match snd (fst c) with Some c => match c_ugid c with Some u => c | None => mkcont None [] end | None => mkcont None [] end).
    assert (Hg : c_children given = []) by (unfold given, isnew in *; destruct (snd (fst c)) as [c0|]; [destruct (c_ugid c0)|]; auto).
    assert (E : perform s c = let s := if dmem key_eqb s k then s else dset key_eqb s k given in
      match dget key_eqb s k with
      | Some c' => match add_child c' (field_of c) (forced c) with Ok c'' => (dset key_eqb s k c'', Ok tt) | Err e => (s, Err e) end
      | None => (s, Err KeyError) end).
    { unfold perform, add_field, k, key_of, given. destruct (snd (fst c)) as [c0|]; [|reflexivity]. destruct (c_ugid c0); reflexivity. }
    rewrite E. unfold kids. cbv zeta. destruct (dget key_eqb s k) as [c0|] eqn:Ek.
    - assert (Em : dmem key_eqb s k = true) by (unfold dmem; now rewrite Ek). rewrite Em, Ek. unfold add_child. fold n.
      destruct (dmem String.eqb (c_children c0) n) eqn:Ed; destruct (forced c) eqn:Ef; cbn [negb andb fst snd].
      + right. split; [now right|]. split; [reflexivity|]. split; [rewrite dset_keys, Em; reflexivity|]. split.
        * intros k2 N. apply (dget_dset_other _ key_spec). exact N.
        * eexists. split; [apply (dget_dset_same _ key_spec)|reflexivity].
      + left. auto.
      + right. split; [now left|]. split; [reflexivity|]. split; [rewrite dset_keys, Em; reflexivity|]. split.
        * intros k2 N. apply (dget_dset_other _ key_spec). exact N.
        * eexists. split; [apply (dget_dset_same _ key_spec)|reflexivity].
      + right. split; [now left|]. split; [reflexivity|]. split; [rewrite dset_keys, Em; reflexivity|]. split.
        * intros k2 N. apply (dget_dset_other _ key_spec). exact N.
        * eexists. split; [apply (dget_dset_same _ key_spec)|reflexivity].
    - assert (Em : dmem key_eqb s k = false) by (unfold dmem; now rewrite Ek). rewrite Em. rewrite (dget_dset_same _ key_spec).
      unfold add_child. rewrite Hg. cbn [dmem dget andb fst snd]. right. split; [now left|]. split; [reflexivity|]. split.
      + rewrite dset_keys. unfold dmem. rewrite (dget_dset_same _ key_spec). rewrite dset_none_key by exact Ek. now rewrite map_app.
      + split.
        * intros k2 N. rewrite !(dget_dset_other _ key_spec) by exact N. reflexivity.
        * eexists. split; [apply (dget_dset_same _ key_spec)|reflexivity].
  Qed.

  (** * What the calls file *)

  Lemma filed_new calls k n (c : call V) : Concerns k n c -> (forced c = true \/ Forall (fun b => ~ Concerns k n b) calls) ->
    forall f, Filed (calls ++ [c])%list k n f <-> f = field_of c.
  Proof.
    intros Hc Hf f. split.
    - intros [b [x [a [E [H1 [H2 [H3 H4]]]]]]]. destruct a as [|a0 a] using rev_ind.
      + apply app_inj_tail in E. destruct E as [_ ->]. congruence.
      + clear IHa. rewrite app_comm_cons, app_assoc in E. apply app_inj_tail in E. destruct E as [E ->]. 
        apply Forall_app in H4. destruct H4 as [_ H4]. apply Forall_inv in H4. specialize (H4 Hc). destruct Hf as [Hf|Hf]; [congruence|].
        exfalso. rewrite E in Hf. apply Forall_app in Hf. destruct Hf as [_ Hf]. apply Forall_inv in Hf. tauto.
    - intros ->. exists calls, c, []. repeat split; try apply Hc; auto.
  Qed.

  Lemma filed_old calls k n (c : call V) : ~ (Concerns k n c /\ forced c = true) -> (Concerns k n c -> ~ Forall (fun b => ~ Concerns k n b) calls) ->
    forall f, Filed (calls ++ [c])%list k n f <-> Filed calls k n f.
  Proof.
    intros Hc Hf f. split.
    - intros [b [x [a [E [H1 [H2 [H3 H4]]]]]]]. destruct a as [|a0 a] using rev_ind.
      + apply app_inj_tail in E. destruct E as [-> ->]. exfalso. destruct H3 as [H3|H3]; [tauto|]. now apply Hf.
      + clear IHa. rewrite app_comm_cons, app_assoc in E. apply app_inj_tail in E. destruct E as [-> ->].
        apply Forall_app in H4. exists b, x, a. repeat split; try apply H1; tauto.
    - intros [b [x [a [-> [H1 [H2 [H3 H4]]]]]]]. exists b, x, (a ++ [c])%list. split; [now rewrite <- app_assoc|]. split; [exact H1|]. split; [exact H2|]. split; [exact H3|].
      apply Forall_app. split; [exact H4|]. constructor; [|constructor]. intros K. destruct (forced c) eqn:E; [|reflexivity]. tauto.
  Qed.

  Lemma concerns_dec k n (c : call V) : {Concerns k n c} + {~ Concerns k n c}.
  Proof.
    unfold Concerns. destruct (key_dec (key_of c) k); [|right; tauto]. destruct (string_dec (f_name (field_of c)) n); [left; auto|right; tauto].
  Qed.

  Lemma dmem_get {W} (d : list (string * W)) x : dmem String.eqb d x = match dget String.eqb d x with Some _ => true | None => false end.
  Proof. reflexivity. Qed.

  Lemma filed_run calls : NewContainers calls -> forall k n,
    (dget String.eqb (kids (run [] calls) k) n = None <-> Forall (fun b => ~ Concerns k n b) calls) /\
    (forall f, dget String.eqb (kids (run [] calls) k) n = Some f <-> Filed calls k n f).
  Proof.
    induction calls as [|c calls IH] using rev_ind; intros Hnew k n.
    - cbn. split; [split; constructor|]. intros f. split; [discriminate|]. intros [b [x [a [E _]]]]. destruct b; discriminate.
    - unfold NewContainers in Hnew. apply Forall_app in Hnew. destruct Hnew as [Hnew Hc]. apply Forall_inv in Hc. specialize (IH Hnew).
      rewrite run_snoc. set (s := run [] calls) in *. destruct (add_cases s c Hc) as [[H1 [H2 H3]]|[H1 [H2 [H3 [H4 [c' [H5 H6]]]]]]].
      + rewrite H3. cbn [fst]. destruct (IH k n) as [I1 I2].
        assert (Hkn : Concerns k n c -> ~ Forall (fun b => ~ Concerns k n b) calls).
        { intros [<- <-] K. apply I1 in K. rewrite dmem_get, K in H1. discriminate. }
        split.
        * rewrite I1. rewrite Forall_app. split; [intros K; split; [exact K|constructor; [|constructor]]; intros Kc; exact (Hkn Kc K)|tauto].
        * intros f. rewrite I2. symmetry. apply filed_old; [intros [_ K]; congruence|exact Hkn].
      + destruct (concerns_dec k n c) as [Kc|Kc].
        * pose proof Kc as [<- <-]. assert (Ek : kids (fst (perform s c)) (key_of c) = dset String.eqb (kids s (key_of c)) (f_name (field_of c)) (field_of c)) by (unfold kids at 1; now rewrite H5).
          rewrite Ek, dget_same. split.
          -- split; [discriminate|]. intros K. apply Forall_app in K. destruct K as [_ K]. apply Forall_inv in K. tauto.
          -- intros f. rewrite (filed_new calls _ _ c Kc); [split; congruence|]. destruct H1 as [H1|H1]; [right|left; exact H1].
             apply (proj1 (IH _ _)). rewrite dmem_get in H1. destruct (dget String.eqb (kids s (key_of c)) (f_name (field_of c))); [discriminate|reflexivity].
        * assert (Ek : dget String.eqb (kids (fst (perform s c)) k) n = dget String.eqb (kids s k) n).
          { destruct (key_dec k (key_of c)) as [->|N].
            - unfold kids at 1. rewrite H5, H6. apply dget_other. intros K. apply Kc. split; [reflexivity|congruence].
            - unfold kids. rewrite H4 by exact N. reflexivity. }
          rewrite Ek. destruct (IH k n) as [I1 I2]. split.
          -- rewrite I1, Forall_app. split; [intros K; split; [exact K|constructor; [exact Kc|constructor]]|tauto].
          -- intros f. rewrite I2. symmetry. apply filed_old; tauto.
  Qed.

  (** * Order *)

  Lemma firsts_snoc {X} dec (l : list X) x : firsts dec (l ++ [x])%list = if in_dec dec x (firsts dec l) then firsts dec l else (firsts dec l ++ [x])%list.
  Proof. unfold firsts. rewrite fold_left_app. reflexivity. Qed.

  Lemma firsts_in {X} dec (l : list X) x : In x (firsts dec l) <-> In x l.
  Proof.
    induction l as [|y l IH] using rev_ind; [reflexivity|]. rewrite firsts_snoc, in_app_iff. cbn [In]. destruct (in_dec dec y (firsts dec l)) as [H|H].
    - rewrite IH. split; [tauto|]. intros [K|[<-|[]]]; [exact K|]. now apply IH.
    - rewrite in_app_iff, IH. reflexivity.
  Qed.

  Lemma firsts_nodup {X} dec (l : list X) : NoDup (firsts dec l).
  Proof.
    induction l as [|y l IH] using rev_ind; [constructor|]. rewrite firsts_snoc. destruct (in_dec dec y (firsts dec l)) as [H|H]; [exact IH|].
    clear - IH H. induction (firsts dec l) as [|a t IHt]; cbn [app]; [constructor; [intros []|constructor]|]. inversion IH as [|? ? K1 K2]; subst. constructor.
    - rewrite in_app_iff. intros [K|[->|[]]]; [tauto|]. apply H. left; reflexivity.
    - apply IHt; [exact K2|]. intros K. apply H. right; exact K.
  Qed.

  Definition names_at calls k := map (fun c => f_name (field_of c)) (filter (fun c => key_eqb (key_of c) k) calls).

  Lemma names_in calls k n : In n (names_at calls k) <-> Exists (Concerns k n) calls.
  Proof.
    unfold names_at. rewrite in_map_iff, Exists_exists. split; intros [c [H1 H2]]; exists c.
    - apply filter_In in H2. destruct H2 as [H2 H3]. destruct (key_spec (key_of c) k); [|discriminate]. repeat split; assumption.
    - destruct H2 as [H2 H3]. split; [exact H3|]. apply filter_In. split; [exact H1|]. destruct (key_spec (key_of c) k); [reflexivity|congruence].
  Qed.

  Lemma dmem_keys_key s k : dmem key_eqb s k = true <-> In k (map fst s).
  Proof.
    unfold dmem. destruct (dget key_eqb s k) eqn:E; split; try discriminate; auto.
    - intros _. apply (dget_in _ key_spec) in E. change k with (fst (k, c)). now apply in_map.
    - intros K. apply (dget_none _ key_spec) in E. tauto.
  Qed.

  Lemma dmem_keys_str {W} (d : list (string * W)) n : dmem String.eqb d n = true <-> In n (map fst d).
  Proof.
    unfold dmem. destruct (dget String.eqb d n) eqn:E; split; try discriminate; auto.
    - intros _. apply (dget_in _ String.eqb_spec) in E. change n with (fst (n, w)). now apply in_map.
    - intros K. apply (dget_none _ String.eqb_spec) in E. tauto.
  Qed.

  Lemma order_run calls : NewContainers calls ->
    map fst (run [] calls) = firsts key_dec (map key_of calls) /\
    forall k, map fst (kids (run [] calls) k) = firsts string_dec (names_at calls k).
  Proof.
    induction calls as [|c calls IH] using rev_ind; intros Hnew; [split; reflexivity|].
    unfold NewContainers in Hnew. apply Forall_app in Hnew. destruct Hnew as [Hnew Hc]. apply Forall_inv in Hc. specialize (IH Hnew). destruct IH as [I1 I2].
    rewrite run_snoc, map_app. cbn [map]. rewrite firsts_snoc. set (s := run [] calls) in *.
    assert (Hsn : forall k, names_at (calls ++ [c])%list k = (names_at calls k ++ if key_eqb (key_of c) k then [f_name (field_of c)] else [])%list).
    { intros k. unfold names_at. rewrite filter_app, map_app. cbn [filter]. destruct (key_eqb (key_of c) k); reflexivity. }
    destruct (add_cases s c Hc) as [[H1 [H2 H3]]|[H1 [H2 [H3 [H4 [c' [H5 H6]]]]]]].
    - rewrite H3. cbn [fst]. apply dmem_keys_str in H1. rewrite I2 in H1. split.
      + destruct (in_dec key_dec (key_of c) (firsts key_dec (map key_of calls))) as [K|K]; [exact I1|]. exfalso. apply K. apply firsts_in.
        apply firsts_in in H1. apply names_in in H1. apply Exists_exists in H1. destruct H1 as [c0 [H0 [Hk _]]]. rewrite <- Hk. now apply in_map.
      + intros k. rewrite I2, Hsn. destruct (key_spec (key_of c) k) as [<-|N]; [|now rewrite app_nil_r]. rewrite firsts_snoc.
        destruct (in_dec string_dec (f_name (field_of c)) (firsts string_dec (names_at calls (key_of c)))); [reflexivity|tauto].
    - split.
      + rewrite H3, I1. destruct (in_dec key_dec (key_of c) (firsts key_dec (map key_of calls))) as [K|K].
        * rewrite <- I1 in K. apply dmem_keys_key in K. now rewrite K.
        * destruct (dmem key_eqb s (key_of c)) eqn:E; [|reflexivity]. apply dmem_keys_key in E. rewrite I1 in E. tauto.
      + intros k. rewrite Hsn. destruct (key_spec (key_of c) k) as [<-|N].
        * unfold kids at 1. rewrite H5, H6, dset_keys, firsts_snoc, I2.
          destruct (in_dec string_dec (f_name (field_of c)) (firsts string_dec (names_at calls (key_of c)))) as [K|K].
          -- rewrite <- I2 in K. apply dmem_keys_str in K. now rewrite K.
          -- destruct (dmem String.eqb (kids s (key_of c)) (f_name (field_of c))) eqn:E; [|reflexivity]. apply dmem_keys_str in E. rewrite I2 in E. tauto.
        * rewrite app_nil_r, <- I2. unfold kids. rewrite H4 by congruence. reflexivity.
  Qed.

  Lemma run_nodup calls : NewContainers calls -> NoDup (map fst (run [] calls)).
  Proof. intros H. rewrite (proj1 (order_run calls H)). apply firsts_nodup. Qed.

  Lemma kids_nodup calls k : NewContainers calls -> NoDup (map fst (kids (run [] calls) k)).
  Proof. intros H. rewrite (proj2 (order_run calls H)). apply firsts_nodup. Qed.

  Lemma kids_in s k cont : NoDup (map fst s) -> In (k, cont) s -> kids s k = c_children cont.
  Proof. intros H K. unfold kids. now rewrite (in_dget _ key_spec _ _ _ H K). Qed.

  (** A nested dictionary read in the order of its keys. *)
  Lemma nested_order (P : option Z -> string -> sfield V -> Prop) s : NoDup (map fst s) ->
    (forall k n f, dget String.eqb (kids s k) n = Some f <-> P k n f) -> (forall k, NoDup (map fst (kids s k))) ->
    Forall2 (fun kn f => P (fst kn) (snd kn) f)
      (flat_map (fun k => map (fun n => (k, n)) (map fst (kids s k))) (map fst s)) (iter_fields s).
  Proof.
    intros Hn HP Hk. unfold iter_fields. rewrite flat_map_concat_map, map_map, <- flat_map_concat_map.
    assert (Hin : forall kc, In kc s -> kids s (fst kc) = c_children (snd kc)) by (intros [k c0] K; apply kids_in; assumption).
    assert (Hall : forall l, incl l s -> Forall2 (fun kn f => P (fst kn) (snd kn) f)
      (flat_map (fun x => map (fun n => (fst x, n)) (map fst (kids s (fst x)))) l) (flat_map (fun kc => map snd (c_children (snd kc))) l)).
    { induction l as [|kc l IH]; intros Hi; cbn [flat_map]; [constructor|]. apply Forall2_app; [|apply IH; intros x Hx; apply Hi; right; exact Hx].
      rewrite (Hin kc) by (apply Hi; left; reflexivity). pose proof (Hk (fst kc)) as Hd. rewrite (Hin kc) in Hd by (apply Hi; left; reflexivity).
      assert (HP' : forall n f, In (n, f) (c_children (snd kc)) -> P (fst kc) n f).
      { intros n f K. apply HP. rewrite (Hin kc) by (apply Hi; left; reflexivity). apply (in_dget _ String.eqb_spec); assumption. }
      clear - HP'. induction (c_children (snd kc)) as [|[n f] t IHt]; cbn [map]; constructor; [apply HP'; left; reflexivity|].
      apply IHt. intros n' f' K. apply HP'. right; exact K. }
    apply Hall. apply incl_refl.
  Qed.

  Lemma iteration_order calls : NewContainers calls ->
    Forall2 (fun kn f => Filed calls (fst kn) (snd kn) f) (order calls) (iter_fields (run [] calls)).
  Proof.
    intros H. destruct (order_run calls H) as [O1 O2].
    pose proof (nested_order (fun k n f => Filed calls k n f) (run [] calls) (run_nodup calls H) (fun k n => proj2 (filed_run calls H k n)) (fun k => kids_nodup calls k H)) as N.
    rewrite O1 in N. assert (E : flat_map (fun k => map (fun n => (k, n)) (map fst (kids (run [] calls) k))) (firsts key_dec (map key_of calls)) = order calls); [|rewrite E in N; exact N].
    unfold order. apply flat_map_ext. intros k. now rewrite O2.
  Qed.

  Lemma order_nodup calls : NoDup (order calls).
  Proof.
    unfold order. generalize (firsts_nodup key_dec (map key_of calls)). generalize (firsts key_dec (map key_of calls)) as ks.
    induction ks as [|k ks IH]; intros Hn; cbn [flat_map]; [constructor|]. inversion Hn as [|? ? H1 H2]; subst.
    assert (Ha : forall (a b : list (option Z * string)), NoDup a -> NoDup b -> (forall x, In x a -> ~ In x b) -> NoDup (a ++ b)%list).
    { clear. induction a as [|x a IH]; intros b Ha Hb Hd; [exact Hb|]. inversion Ha as [|? ? K1 K2]; subst. cbn [app]. constructor.
      - rewrite in_app_iff. intros [K|K]; [tauto|]. apply (Hd x); [left; reflexivity|exact K].
      - apply IH; auto. intros y Hy. apply Hd. right; exact Hy. }
    apply Ha; [|apply IH; exact H2|].
    - apply FinFun.Injective_map_NoDup; [intros x y E; congruence|apply firsts_nodup].
    - intros [k' n'] K1 K2. apply in_map_iff in K1. destruct K1 as [y [E1 _]]. injection E1 as <- <-. apply in_flat_map in K2. destruct K2 as [k2 [K2 K3]].
      apply in_map_iff in K3. destruct K3 as [z [E3 _]]. injection E3 as <- _. tauto.
  Qed.

  Lemma order_in calls k n : In (k, n) (order calls) <-> Exists (Concerns k n) calls.
  Proof.
    unfold order. rewrite in_flat_map. split.
    - intros [k' [H1 H2]]. apply in_map_iff in H2. destruct H2 as [n' [E H2]]. injection E as -> ->. apply firsts_in in H2. now apply (names_in calls k n).
    - intros H. exists k. split.
      + apply firsts_in. apply Exists_exists in H. destruct H as [c [H1 [<- _]]]. now apply in_map.
      + apply in_map_iff. exists n. split; [reflexivity|]. apply firsts_in. now apply (names_in calls k n).
  Qed.

  (** * Looking fields up *)

  Definition under (k : option Z) : cont_arg V := match k with Some u => CUgid u | None => CField (mkcont None []) end.

  Lemma lookup_under s k n : get_field s (Some n) (under k) = lookup String.eqb (kids s k) n \/ (dget key_eqb s k = None /\ get_field s (Some n) (under k) = Err KeyError).
  Proof.
    unfold get_field, under, lookup, kids. destruct k as [u|]; cbn [c_ugid]; (destruct (dget key_eqb s _) eqn:E; cbn [bind]; [left; reflexivity|right; auto]).
  Qed.

  Lemma found_run calls : NewContainers calls -> forall k n f, get_field (run [] calls) (Some n) (under k) = Ok f <-> Filed calls k n f.
  Proof.
    intros H k n f. destruct (filed_run calls H k n) as [_ F]. rewrite <- F. destruct (lookup_under (run [] calls) k n) as [E|[E1 E2]].
    - rewrite E. unfold lookup. destruct (dget String.eqb (kids (run [] calls) k) n); split; congruence.
    - rewrite E2. unfold kids. rewrite E1. cbn. split; discriminate.
  Qed.

  Lemma field_arg s (n : option string) (cont : container V) : get_field s n (CField cont) = get_field s n (under (c_ugid cont)).
  Proof. unfold get_field, under, lookup. destruct (c_ugid cont) as [u|] eqn:E; reflexivity. Qed.

  Lemma refused_run calls (c : call V) : NewContainers (calls ++ [c])%list ->
    (snd (perform (run [] calls) c) = Err ValueError <-> forced c = false /\ Exists (Concerns (key_of c) (f_name (field_of c))) calls) /\
    (snd (perform (run [] calls) c) = Err ValueError -> fst (perform (run [] calls) c) = run [] calls) /\
    (snd (perform (run [] calls) c) <> Err ValueError -> snd (perform (run [] calls) c) = Ok tt).
  Proof.
    intros Hnew. unfold NewContainers in Hnew. apply Forall_app in Hnew. destruct Hnew as [Hnew Hc]. apply Forall_inv in Hc.
    destruct (filed_run calls Hnew (key_of c) (f_name (field_of c))) as [I1 _].
    assert (Hex : Exists (Concerns (key_of c) (f_name (field_of c))) calls <-> dmem String.eqb (kids (run [] calls) (key_of c)) (f_name (field_of c)) = true).
    { rewrite dmem_get. destruct (dget String.eqb (kids (run [] calls) (key_of c)) (f_name (field_of c))) eqn:E; split; try discriminate; auto.
      - intros _. destruct (Exists_dec (Concerns (key_of c) (f_name (field_of c))) calls (concerns_dec _ _)) as [K|K]; [exact K|].
        apply Forall_Exists_neg in K. apply I1 in K. discriminate.
      - intros K. exfalso. apply Exists_exists in K. destruct K as [x [K1 K2]]. pose proof (proj1 I1 eq_refl) as F. rewrite Forall_forall in F. exact (F x K1 K2). }
    destruct (add_cases (run [] calls) c Hc) as [[H1 [H2 H3]]|[H1 [H2 _]]].
    - rewrite H3. cbn [fst snd]. split; [split; [intros _; split; [exact H2|apply Hex; exact H1]|reflexivity]|]. split; [reflexivity|congruence].
    - rewrite H2. split; [|split; [discriminate|reflexivity]]. split; [discriminate|]. intros [K1 K2]. apply Hex in K2. destruct H1; congruence.
  Qed.

  (** * Melted iteration *)
  Lemma melted_in calls k n vn v : NewContainers calls ->
    (In (k, n, vn, v) (iter_melted (run [] calls)) <-> exists f, Filed calls k n f /\ In (vn, v) (f_vars f)).
  Proof.
    intros H. unfold iter_melted. rewrite in_flat_map. split.
    - intros [[k0 c0] [K1 K2]]. apply in_flat_map in K2. destruct K2 as [[n0 f0] [K2 K3]]. apply in_map_iff in K3. destruct K3 as [[vn0 v0] [E K3]]. cbn [fst snd] in *.
      injection E as -> -> -> ->. exists f0. split; [|exact K3]. apply (filed_run calls H). rewrite (kids_in _ _ _ (run_nodup calls H) K1).
      apply (in_dget _ String.eqb_spec); [|exact K2]. rewrite <- (kids_in _ _ _ (run_nodup calls H) K1). apply kids_nodup. exact H.
    - intros [f [F K]]. apply (filed_run calls H) in F. unfold kids in F. destruct (dget key_eqb (run [] calls) k) as [c0|] eqn:E; [|discriminate].
      exists (k, c0). split; [apply (dget_in _ key_spec); exact E|]. apply in_flat_map. exists (n, f). split; [apply (dget_in _ String.eqb_spec); exact F|].
      apply in_map_iff. exists (vn, v). auto.
  Qed.

  (** * The first field *)
  Lemma firsts_head {X} dec (x : X) l : exists t, firsts dec (x :: l) = x :: t.
  Proof.
    induction l as [|y l IH] using rev_ind; [exists []; reflexivity|]. destruct IH as [t E].
    rewrite app_comm_cons, firsts_snoc, E. destruct (in_dec dec y (x :: t)); [exists t; reflexivity|]. exists (t ++ [y])%list. reflexivity.
  Qed.

  Lemma first_run (c : call V) t : NewContainers (c :: t) ->
    exists f, get_field (run [] (c :: t)) None CNone = Ok f /\ archetype_field (run [] (c :: t)) = Some f /\
      Filed (c :: t) (key_of c) (f_name (field_of c)) f /\
      (has_container_geometries (run [] (c :: t)) = true <-> key_of c <> None).
  Proof.
    intros H. destruct (order_run (c :: t) H) as [O1 O2]. set (s := run [] (c :: t)) in *.
    destruct (firsts_head key_dec (key_of c) (map key_of t)) as [ks E1]. cbn [map] in O1. rewrite E1 in O1.
    assert (Nm : names_at (c :: t) (key_of c) = f_name (field_of c) :: names_at t (key_of c)).
    { unfold names_at. cbn [filter]. destruct (key_spec (key_of c) (key_of c)); [reflexivity|congruence]. }
    specialize (O2 (key_of c)). rewrite Nm in O2. destruct (firsts_head string_dec (f_name (field_of c)) (names_at t (key_of c))) as [ns E2]. rewrite E2 in O2.
    pose proof (proj2 (filed_run (c :: t) H (key_of c) (f_name (field_of c)))) as FR. fold s in FR.
    destruct s as [|[k0 c0] rest]; [discriminate|]. cbn [map fst] in O1. injection O1 as -> _.
    assert (K : kids ((key_of c, c0) :: rest) (key_of c) = c_children c0).
    { unfold kids. cbn [dget]. destruct (key_spec (key_of c) (key_of c)); [reflexivity|congruence]. }
    rewrite K in O2, FR. destruct (c_children c0) as [|[n0 f0] cs] eqn:EC; [discriminate|]. cbn [map fst] in O2. injection O2 as -> _.
    exists f0. cbn [get_field bind]. rewrite EC. split; [reflexivity|]. split.
    - unfold archetype_field, iter_fields. cbn [flat_map snd]. rewrite EC. reflexivity.
    - split; [|cbn; destruct (key_of c); split; congruence]. apply FR. cbn [dget]. rewrite String.eqb_refl. reflexivity.
  Qed.
End S.
