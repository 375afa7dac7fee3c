(** The invariant through extraction, removal, adding and renaming. *)
From Verif Require Import Py Lib CollModel CollSpec DmapProofs CollProofs.
Local Open Scope string_scope.
Local Open Scope Z_scope.

(** ** Reading *)
Lemma parent_of_some v c h : v_parent (h_var h v) = Some c -> parent_of v h = (h, Ok c).
Proof. intros H. unfold parent_of, mbind, get_var. now rewrite H. Qed.
Lemma lookup_some {V} (d : list (string * V)) k x h : dget String.eqb d k = Some x -> lookup d k h = (h, Ok x).
Proof. intros H; unfold lookup; now rewrite H. Qed.
Lemma lookup_none {V} (d : list (string * V)) k h : dget String.eqb d k = None -> lookup d k h = (h, Err KeyError).
Proof. intros H; unfold lookup; now rewrite H. Qed.

Lemma resolve_ok h c names :
  ok h c -> (forall n, In n names -> exists d, Registered h c n d) ->
  exists ds, resolve (h_coll h c) names = Ok ds /\ Forall2 (fun n d => Registered h c n d) names ds.
Proof.
  intros Ho. induction names as [|n names IH]; intros H.
  - exists []. split; [reflexivity|constructor].
  - destruct (H n (or_introl eq_refl)) as [d Hd]. destruct IH as [ds [E F]]; [intros; apply H; now right|].
    exists (d :: ds). split; [|now constructor].
    unfold resolve in *. cbn [map_res]. apply (reg_get _ _ _ _ Ho) in Hd. rewrite Hd. cbn [bind]. now rewrite E.
Qed.
Lemma names_of_run h ds : names_of ds h = (h, Ok (map (fun d => d_name (h_dim h d)) ds)).
Proof.
  induction ds as [|d ds IH]; [reflexivity|]. cbn [names_of]. unfold mbind at 1, get_dim. unfold mbind. now rewrite IH.
Qed.
Definition dim_names (h : heap) (v : Z) : list string := match v_dims (h_var h v) with Some l => l | None => [] end.

Lemma dimensions_of_run h c k v :
  ok h c -> Listed h c k v ->
  exists ds, dimensions_of v h = (h, Ok ds) /\ Forall2 (fun n d => Registered h c n d) (dim_names h v) ds.
Proof.
  intros Ho Hl. unfold dimensions_of, dim_names, mbind at 1, get_var. destruct (v_dims (h_var h v)) as [names|] eqn:E.
  - destruct (resolve_ok h c names Ho) as [ds [Hr HF]]; [intros; eapply (cs_registered _ _ (ok_cs _ _ Ho)); eauto|].
    exists ds. split; [|exact HF]. unfold mbind at 1. rewrite (parent_of_some _ c) by (eapply (cs_parent _ _ (ok_cs _ _ Ho)); eauto).
    unfold mbind, get_coll. now rewrite Hr.
  - exists []. split; [reflexivity|constructor].
Qed.
Lemma dimension_names_run h c k v :
  ok h c -> Listed h c k v -> dimension_names_of v h = (h, Ok (dim_names h v)).
Proof.
  intros Ho Hl. destruct (dimensions_of_run _ _ _ _ Ho Hl) as [ds [E F]].
  unfold dimension_names_of, mbind. rewrite E, names_of_run. f_equal; f_equal.
  clear E. revert F. generalize (dim_names h v). intros l F.
  induction F; [reflexivity|]. cbn [map]. f_equal; [|assumption]. now apply (cs_dim_name _ _ (ok_cs _ _ Ho)).
Qed.

(** The bounds of a listed variable. *)
Definition bounds_res (h : heap) (c v : Z) : res (option Z) :=
  match v_bounds (h_var h v) with
  | None => Ok None
  | Some b => match dget String.eqb (c_vars (h_coll h c)) b with Some w => Ok (Some w) | None => Err KeyError end
  end.
Lemma bounds_of_run h c k v : ok h c -> Listed h c k v -> bounds_of v h = (h, bounds_res h c v).
Proof.
  intros Ho Hl. unfold bounds_of, bounds_res, mbind, get_var, get_coll, lookup.
  rewrite (cs_parent _ _ (ok_cs _ _ Ho) _ _ Hl).
  destruct (v_bounds (h_var h v)) as [b|]; [|reflexivity].
  destruct (dget String.eqb (c_vars (h_coll h c)) b); reflexivity.
Qed.
Lemma bounds_listed h c v w : ok h c -> bounds_res h c v = Ok (Some w) ->
  exists b, v_bounds (h_var h v) = Some b /\ Listed h c b w.
Proof.
  intros Ho. unfold bounds_res. destruct (v_bounds (h_var h v)) as [b|]; [|discriminate].
  destruct (dget String.eqb (c_vars (h_coll h c)) b) as [w'|] eqn:E; [|discriminate].
  intros H; injection H as <-. exists b. split; [reflexivity|]. now apply listed_get.
Qed.

(** ** Popping several names *)
Lemma pop_vars_run c l : forall h,
  NoDup (map fst (c_vars (h_coll h c))) -> NoDup l -> (forall k, In k l -> In k (map fst (c_vars (h_coll h c)))) ->
  exists h', mfor l (fun k => pop_var c k) h = (h', Ok tt) /\ hm c h h' /\ h_coll h' c = set_vars (h_coll h c) (rem l (c_vars (h_coll h c))).
Proof.
  induction l as [|k l IH]; intros h Hn Hl Hin.
  - exists h. split; [reflexivity|split; [apply hm_refl|]]. cbn. now destruct (h_coll h c).
  - inversion Hl as [|? ? Hk Hl']; subst.
    set (h1 := hput h c (set_vars (h_coll h c) (dremove String.eqb (c_vars (h_coll h c)) k))).
    assert (Hc1 : h_coll h1 c = set_vars (h_coll h c) (dremove String.eqb (c_vars (h_coll h c)) k)) by (unfold h1, hput; cbn; now rewrite upd_same).
    destruct (IH h1) as [h' [E [Hm Hc]]].
    + rewrite Hc1. cbn. now apply dremove_nodup.
    + exact Hl'.
    + intros k' Hk'. rewrite Hc1. cbn [set_vars c_vars].
      destruct (proj1 (in_map_iff _ _ _) (Hin k' (or_intror Hk'))) as [[k2 v2] [<- Hx]]. cbn [fst] in *.
      apply in_map_iff. exists (k2, v2). split; [reflexivity|]. apply in_dremove_iff; [exact Hn|].
      split; [exact Hx|]. intros ->. contradiction.
    + exists h'. split; [|split].
      * cbn [mfor]. rewrite (bind_ok _ _ h h1 tt); [exact E|].
        unfold pop_var, mbind, get_coll. rewrite (proj2 (dmem_in _ k) (Hin k (or_introl eq_refl))). reflexivity.
      * eapply hm_trans; [apply hm_hput|exact Hm].
      * rewrite Hc, Hc1. reflexivity.
Qed.
Lemma pop_dims_run c l : forall h,
  NoDup (map fst (c_dims (h_coll h c))) -> NoDup l -> (forall k, In k l -> In k (map fst (c_dims (h_coll h c)))) ->
  exists h', mfor l (fun k => pop_dim c k) h = (h', Ok tt) /\ hm c h h' /\ h_coll h' c = set_dims (h_coll h c) (rem l (c_dims (h_coll h c))).
Proof.
  induction l as [|k l IH]; intros h Hn Hl Hin.
  - exists h. split; [reflexivity|split; [apply hm_refl|]]. cbn. now destruct (h_coll h c).
  - inversion Hl as [|? ? Hk Hl']; subst.
    set (h1 := hput h c (set_dims (h_coll h c) (dremove String.eqb (c_dims (h_coll h c)) k))).
    assert (Hc1 : h_coll h1 c = set_dims (h_coll h c) (dremove String.eqb (c_dims (h_coll h c)) k)) by (unfold h1, hput; cbn; now rewrite upd_same).
    destruct (IH h1) as [h' [E [Hm Hc]]].
    + rewrite Hc1. cbn. now apply dremove_nodup.
    + exact Hl'.
    + intros k' Hk'. rewrite Hc1. cbn [set_dims c_dims].
      destruct (proj1 (in_map_iff _ _ _) (Hin k' (or_intror Hk'))) as [[k2 v2] [<- Hx]]. cbn [fst] in *.
      apply in_map_iff. exists (k2, v2). split; [reflexivity|]. apply in_dremove_iff; [exact Hn|].
      split; [exact Hx|]. intros ->. contradiction.
    + exists h'. split; [|split].
      * cbn [mfor]. rewrite (bind_ok _ _ h h1 tt); [exact E|].
        unfold pop_dim, mbind, get_coll. rewrite (proj2 (dmem_in _ k) (Hin k (or_introl eq_refl))). reflexivity.
      * eapply hm_trans; [apply hm_hput|exact Hm].
      * rewrite Hc, Hc1. reflexivity.
Qed.

Lemma bind_assoc {A B C} (m : M A) (f : A -> M B) (g : B -> M C) h : mbind (mbind m f) g h = mbind m (fun x => mbind (f x) g) h.
Proof. unfold mbind. now destruct (m h) as [h' [x|e]]. Qed.

(** The loop of [extract_keep]: a variable not kept is popped. *)
Lemma pop_unkept_run c keep (l : list (string * Z)) : forall h,
  (forall k w, In (k, w) l -> v_name (h_var h w) = k) ->
  mfor (map snd l) (fun w => y <-- get_var w ;; if existsb (String.eqb (v_name y)) keep then mret tt else pop_var c (v_name y)) h
  = mfor (filter (fun k => negb (existsb (String.eqb k) keep)) (map fst l)) (fun k => pop_var c k) h.
Proof.
  induction l as [|[k w] l IH]; intros h H; [reflexivity|].
  cbn [map fst snd mfor filter].
  rewrite (bind_assoc (get_var w)). rewrite (bind_ok (get_var w) _ h h (h_var h w) eq_refl).
  rewrite (H k w (or_introl eq_refl)). destruct (existsb (String.eqb k) keep); cbn [negb].
  - rewrite (bind_ok (mret tt) _ h h tt eq_refl). apply IH. intros; apply H; now right.
  - cbn [mfor].
    destruct (pop_var c k h) as [h' [[]|e]] eqn:E; [|now rewrite !(bind_err _ _ _ _ _ E)].
    rewrite !(bind_ok _ _ _ _ _ E). apply IH. intros k' w' Hin.
    unfold pop_var, mbind, get_coll in E. destruct (dmem _ _ _) in E; [|discriminate]. injection E as <-. cbn. apply H; now right.
Qed.
Lemma existsb_eqb_in k l : existsb (String.eqb k) l = true <-> In k l.
Proof.
  rewrite existsb_exists. split.
  - intros [x [Hx E]]. apply String.eqb_eq in E. now subst.
  - intros H. exists k. split; [exact H|apply String.eqb_refl].
Qed.
Lemma in_filter_not keep l k : In k (filter (fun k => negb (existsb (String.eqb k) keep)) l) <-> In k l /\ ~ In k keep.
Proof.
  rewrite filter_In. rewrite <- (existsb_eqb_in k keep). destruct (existsb (String.eqb k) keep); cbn [negb]; intuition congruence.
Qed.

(** ** [drop_dims]: [r] was copied from [v], with its bounds if they are kept *)
Definition used_names (h : heap) (x r : Z) (kb : bool) : list string :=
  (dim_names h r ++ (if kb then match bounds_res h x r with Ok (Some w) => dim_names h w | _ => [] end else []))%list.
Lemma drop_dims_run h c x v k r kr kb :
  ok h c -> ok h x -> Listed h c k v \/ v_parent (h_var h v) = Some c -> Listed h x kr r ->
  (kb = true -> exists b, bounds_res h x r = Ok b) ->
  (forall n, In n (map fst (c_dims (h_coll h c))) -> In n (map fst (c_dims (h_coll h x)))) ->
  exists h', drop_dims v r kb h = (h', Ok tt) /\ hm x h h'
    /\ h_coll h' x = set_dims (h_coll h x) (rem (filter (fun k => negb (existsb (String.eqb k) (used_names h x r kb))) (map fst (c_dims (h_coll h c)))) (c_dims (h_coll h x))).
Proof.
  intros Hc Hx Hv Hr Hb Hsub.
  assert (Hp : v_parent (h_var h v) = Some c) by (destruct Hv as [Hv|Hv]; [eapply (cs_parent _ _ (ok_cs _ _ Hc)); eauto|exact Hv]).
  destruct (pop_dims_run x (filter (fun k => negb (existsb (String.eqb k) (used_names h x r kb))) (map fst (c_dims (h_coll h c)))) h)
    as [h' [E [Hm Hcol]]].
  - apply (cs_dims_once _ _ (ok_cs _ _ Hx)).
  - apply NoDup_filter, (cs_dims_once _ _ (ok_cs _ _ Hc)).
  - intros n Hn. apply filter_In in Hn as [Hn _]. auto.
  - exists h'. split; [|split; [exact Hm|exact Hcol]]. rewrite <- E.
    unfold drop_dims. rewrite (bind_ok _ _ h h (dim_names h r)) by (eapply dimension_names_run; eauto).
    assert (Hrest : forall more, used_names h x r kb = (dim_names h r ++ more)%list ->
      (p <-- parent_of v ;; pc <-- get_coll p ;; rp <-- parent_of r ;;
       mfor (filter (fun k0 => negb (existsb (String.eqb k0) (dim_names h r ++ more)%list)) (map fst (c_dims pc))) (fun k0 => pop_dim rp k0)) h
      = mfor (filter (fun k0 => negb (existsb (String.eqb k0) (used_names h x r kb))) (map fst (c_dims (h_coll h c)))) (fun k0 => pop_dim x k0) h).
    { intros more Hmore. rewrite (bind_ok _ _ h h c) by now apply parent_of_some.
      rewrite (bind_ok _ _ h h (h_coll h c)) by reflexivity.
      rewrite (bind_ok _ _ h h x) by (apply parent_of_some; eapply (cs_parent _ _ (ok_cs _ _ Hx)); eauto).
      now rewrite Hmore. }
    destruct kb.
    + destruct (Hb eq_refl) as [b Eb].
      rewrite (bind_ok _ _ h h b) by (rewrite (bounds_of_run _ _ _ _ Hx Hr), Eb; reflexivity).
      destruct b as [w|].
      * destruct (bounds_listed _ _ _ _ Hx Eb) as [bn [_ Hw]].
        rewrite (bind_ok _ _ h h (dim_names h w)) by (eapply dimension_names_run; eauto).
        apply Hrest. unfold used_names. now rewrite Eb.
      * rewrite (bind_ok _ _ h h []) by reflexivity. apply Hrest. unfold used_names. now rewrite Eb.
    + rewrite (bind_ok _ _ h h None) by reflexivity. rewrite (bind_ok _ _ h h []) by reflexivity. apply Hrest. reflexivity.
Qed.
