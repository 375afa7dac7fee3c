(** Round trip of dimension maps through dictionaries (C34). *)
From Verif Require Import Py Lib DmapModel DmapSpec DmapProofs.
Local Open Scope string_scope.
Local Open Scope Z_scope.

(** ** The recursive functions with their inner loops named *)
Definition group_dict (nx : string * dmap) : res (string * ddict) := do y <- as_dict (snd nx); Ok (fst nx, y).
Fixpoint groups_dict (g : list (string * dmap)) : res (list (string * ddict)) :=
  match g with
  | [] => Ok []
  | (n, x) :: g => do y <- as_dict x; do ys <- groups_dict g; Ok ((n, y) :: ys)
  end.
Fixpoint tops_dict (g : list (string * option dmap)) : res (list (string * ddict)) :=
  match g with
  | [] => Ok []
  | (n, Some x) :: g => do y <- as_dict x; do ys <- tops_dict g; Ok ((n, y) :: ys)
  | (n, None) :: _ => Err AttributeError
  end.
Definition item_dict (i : item) : res dvalue :=
  match i with
  | IEntry e => Ok (VEntry e)
  | ISpecial s => Ok (VText s)
  | IGroups g => do g <- groups_dict g; Ok (VGroups g)
  | ITopology t => do g <- tops_dict t; Ok (VTopology g)
  end.
Fixpoint items_dict (l : storage) : res (list (string * dvalue)) :=
  match l with
  | [] => Ok []
  | (k, i) :: t => do v <- item_dict i; do vs <- items_dict t; Ok ((k, v) :: vs)
  end.
Lemma as_dict_eq st : as_dict (DMap st) = (do l <- items_dict st; Ok (DDict l)).
Proof.
  reflexivity.
Qed.

Fixpoint add_groups (g : list (string * ddict)) (st : storage) : res storage :=
  match g with
  | [] => Ok st
  | (n, x) :: g => do y <- from_dict x; do st <- lift (set_group st n y); add_groups g st
  end.
Fixpoint find_groups (m : list (string * dvalue)) (st : storage) : res storage :=
  match m with
  | [] => Ok st
  | (k, VGroups g) :: m => if String.eqb k "groups" then add_groups g st else find_groups m st
  | _ :: m => find_groups m st
  end.
Lemma from_dict_eq l : from_dict (DDict l) = (do st <- fold_res from_item l []; do st <- find_groups l st; Ok (DMap st)).
Proof. reflexivity. Qed.

(** ** The invariant *)
Definition trips (d : dmap) : Prop := exists dd d', as_dict d = Ok dd /\ from_dict dd = Ok d' /\ DmEq d d'.

Definition good_item (k : string) (i : item) : Prop :=
  match i with
  | IEntry e =>
      (is_coordinate k /\ exists n b d a s, e = mkentry (Some (Some n)) (Some b) (Some d) (Some a) s)
      \/ (k = "crs" /\ exists v, e = mkentry (Some v) None None None None)
      \/ (k = "spatial_mask" /\ exists v, e = mkentry (Some v) None None (Some (template_attrs "spatial_mask")) None)
  | ISpecial s => k = "driver" /\ In s driver_keys
  | IGroups g => k = "groups" /\ NoDup (map fst g) /\ g <> [] /\ forall n d, In (n, d) g -> trips d
  | ITopology _ => False
  end.
Definition inv (st : storage) : Prop := NoDup (map fst st) /\ forall k i, In (k, i) st -> good_item k i.

Lemma inv_get st k i : inv st -> dg st k = Some i -> good_item k i.
Proof. intros [_ H] Hg; apply H, (dget_in _ String.eqb_spec), Hg. Qed.

Lemma in_dset {V} (d : list (string * V)) k v k2 v2 : In (k2, v2) (ds d k v) -> (k2 = k /\ v2 = v) \/ In (k2, v2) d.
Proof.
  induction d as [|[k' v'] t IH]; cbn [dset].
  - intros [H|[]]; injection H as <- <-; auto.
  - destruct (String.eqb_spec k k') as [->|Hne].
    + intros [H|H]; [injection H as <- <-; auto|right; right; exact H].
    + intros [H|H]; [right; left; exact H|destruct (IH H); [auto|right; right; assumption]].
Qed.

Lemma inv_set st k i : inv st -> good_item k i -> inv (ds st k i).
Proof.
  intros [Hn H] Hi; split; [now apply (dset_nodup _ String.eqb_spec)|].
  intros k' i' Hin. apply in_dset in Hin. destruct Hin as [[-> ->]|Hin]; auto.
Qed.

Lemma inv_remove st k : inv st -> inv (dremove String.eqb st k).
Proof.
  intros [Hn H]; split; [now apply dremove_nodup|].
  intros k' i' Hin. apply in_dremove in Hin. auto.
Qed.

Lemma inv_entry st key : inv st -> is_coordinate key -> dg st key = None \/
  exists n b d a s, dg st key = Some (IEntry (mkentry (Some (Some n)) (Some b) (Some d) (Some a) s)).
Proof.
  intros Hi Hc. destruct (dg st key) as [i|] eqn:Eg; [|now left]. right.
  pose proof (inv_get _ _ _ Hi Eg) as Hg. pose proof (coordinate_ne _ Hc) as [N1 [N2 [N3 [N4 [N5 N6]]]]].
  destruct i; cbn [good_item] in Hg.
  - destruct Hg as [[_ [n [b [d [a [s ->]]]]]]|[[? _]|[? _]]]; [|contradiction|contradiction]. repeat eexists.
  - destruct Hg; contradiction.
  - destruct Hg; contradiction.
  - destruct Hg.
Qed.

(** ** An entry set again gives the same entry *)
Lemma from_entry_coordinate st k n b d a s :
  is_coordinate k -> dg st k = None ->
  from_item st (k, VEntry (mkentry (Some (Some n)) (Some b) (Some d) (Some a) s))
  = Ok (st ++ [(k, IEntry (mkentry (Some (Some n)) (Some b) (Some d) (Some a) s))])%list.
Proof.
  intros Hc Hg. pose proof (coordinate_ne _ Hc) as [N1 [N2 [N3 [N4 [N5 N6]]]]]. destruct Hc as [Hin Hs].
  unfold from_item.
  destruct (String.eqb_spec k "groups"); [contradiction|].
  destruct (String.eqb_spec k "driver"); [contradiction|].
  cbn [et_variable et_bounds et_dimension et_attrs et_section].
  destruct (String.eqb_spec k "crs"); [contradiction|].
  destruct (String.eqb_spec k "spatial_mask"); [contradiction|].
  unfold set_variable. apply existsb_not_in in Hs; rewrite Hs.
  assert (Hb : (match s with Some _ => false | None => false end) = false) by (destruct s; reflexivity).
  match goal with |- context [if ?b then _ else _] => replace b with false by (destruct s; reflexivity) end.
  unfold get_entry. apply existsb_in in Hin; rewrite Hin; cbn [negb]. rewrite Hg.
  cbn [dvar_name fill_from_variable dvar_attrs et_attrs empty_entry dict_update fold_left et_section].
  unfold put_entry. rewrite dset_dset. rewrite dset_new by exact Hg.
  destruct s; reflexivity.
Qed.

Lemma from_entry_crs st v :
  dg st "crs" = None ->
  from_item st ("crs", VEntry (mkentry (Some v) None None None None))
  = Ok (st ++ [("crs", IEntry (mkentry (Some v) None None None None))])%list.
Proof.
  intros Hg. unfold from_item.
  replace (String.eqb "crs" "groups") with false by reflexivity.
  replace (String.eqb "crs" "driver") with false by reflexivity.
  replace (String.eqb "crs" "crs") with true by reflexivity.
  cbn [et_variable]. unfold set_crs, get_entry.
  replace (negb (existsb (String.eqb "crs") entry_keys)) with false by reflexivity.
  rewrite Hg. unfold put_entry. unfold lift. rewrite dset_dset. now rewrite dset_new by exact Hg.
Qed.

Lemma from_entry_mask st v :
  dg st "spatial_mask" = None ->
  from_item st ("spatial_mask", VEntry (mkentry (Some v) None None (Some (template_attrs "spatial_mask")) None))
  = Ok (st ++ [("spatial_mask", IEntry (mkentry (Some v) None None (Some (template_attrs "spatial_mask")) None))])%list.
Proof.
  intros Hg. unfold from_item.
  replace (String.eqb "spatial_mask" "groups") with false by reflexivity.
  replace (String.eqb "spatial_mask" "driver") with false by reflexivity.
  replace (String.eqb "spatial_mask" "crs") with false by reflexivity.
  replace (String.eqb "spatial_mask" "spatial_mask") with true by reflexivity.
  cbn [et_variable et_bounds et_dimension et_attrs et_section].
  unfold set_spatial_mask, get_entry. cbv zeta.
  replace (negb (existsb (String.eqb "spatial_mask") entry_keys)) with false by reflexivity.
  rewrite Hg. unfold put_entry. cbn [lift]. rewrite dset_dset. rewrite dset_new by exact Hg.
  destruct v; reflexivity.
Qed.

Lemma from_driver st s :
  dg st "driver" = None -> In s driver_keys -> from_item st ("driver", VText s) = Ok (st ++ [("driver", ISpecial s)])%list.
Proof.
  intros Hg Hs. unfold from_item.
  replace (String.eqb "driver" "groups") with false by reflexivity.
  replace (String.eqb "driver" "driver") with true by reflexivity.
  unfold set_driver. apply existsb_in in Hs; rewrite Hs. cbn [lift]. now rewrite dset_new by exact Hg.
Qed.

Definition not_groups (ki : string * item) : bool := negb (String.eqb (fst ki) "groups").

Lemma from_good st k i v :
  dg st k = None -> good_item k i -> item_dict i = Ok v ->
  from_item st (k, v) = Ok (st ++ filter not_groups [(k, i)])%list.
Proof.
  intros Hg Hi Hv; unfold not_groups; cbn [filter fst]. destruct i; cbn [good_item item_dict] in *.
  - injection Hv as <-. destruct Hi as [[Hc [n [b [d [a [s ->]]]]]]|[[-> [x ->]]|[-> [x ->]]]].
    + rewrite from_entry_coordinate by assumption.
      pose proof (coordinate_ne _ Hc) as [N1 [N2 [N3 [N4 [N5 N6]]]]].
      destruct (String.eqb_spec k "groups"); [contradiction|reflexivity].
    + now rewrite from_entry_crs by assumption.
    + now rewrite from_entry_mask by assumption.
  - destruct Hi as [-> Hs]. injection Hv as <-. now rewrite from_driver by assumption.
  - destruct Hi as [-> _]. destruct (groups_dict g); [|discriminate]. injection Hv as <-.
    unfold from_item. replace (String.eqb "groups" "groups") with true by reflexivity. cbn [negb]. now rewrite app_nil_r.
  - destruct Hi.
Qed.

Lemma filter_none (l : storage) k : dg l k = None -> dg (filter not_groups l) k = None.
Proof.
  induction l as [|[k' v'] t IH]; cbn [dget filter]; intros H; [reflexivity|].
  destruct (String.eqb k k') eqn:E; [discriminate|].
  destruct (not_groups _); cbn [dget]; [rewrite E|]; now apply IH.
Qed.

Lemma fold_from l vs st :
  items_dict l = Ok vs -> NoDup (map fst l) -> (forall k i, In (k, i) l -> good_item k i) ->
  (forall k, In k (map fst l) -> dg st k = None) ->
  fold_res from_item vs st = Ok (st ++ filter not_groups l)%list.
Proof.
  revert vs st; induction l as [|[k i] t IH]; cbn [items_dict]; intros vs st Hv Hn Hgood Hnew.
  - injection Hv as <-. cbn. now rewrite app_nil_r.
  - destruct (item_dict i) as [v|] eqn:Ei; cbn [bind] in Hv; [|discriminate].
    destruct (items_dict t) as [vt|] eqn:Et; cbn [bind] in Hv; [|discriminate].
    injection Hv as <-. cbn [map fst] in Hn; inversion Hn; subst.
    cbn [fold_res]. rewrite (from_good _ _ i) by first [assumption|apply Hnew; now left|apply Hgood; now left].
    cbn [bind]. rewrite (IH vt); try assumption.
    + rewrite <- app_assoc. f_equal. f_equal. change ((k, i) :: t) with ([(k, i)] ++ t)%list. now rewrite filter_app.
    + reflexivity.
    + intros; apply Hgood; now right.
    + intros k' Hk'. rewrite dget_app. rewrite Hnew by now right.
      apply filter_none. cbn [dget]. destruct (String.eqb_spec k' k) as [->|]; [contradiction|reflexivity].
Qed.

(** ** Groups *)
Lemma groups_dict_ok g :
  (forall n d, In (n, d) g -> trips d) -> exists gd, groups_dict g = Ok gd /\
    forall st gs, NoDup (map fst gs ++ map fst g)%list ->
      (gs = [] /\ dg st "groups" = None \/ dg st "groups" = Some (IGroups gs)) ->
      exists gs' st', add_groups gd st = Ok st'
        /\ (g = [] /\ st' = st \/ st' = ds st "groups" (IGroups (gs ++ gs')%list))
        /\ map fst gs' = map fst g /\ (forall n, OptEq (dg g n) (dg gs' n)).
Proof.
  induction g as [|[n x] g IH]; intros Ht.
  - exists []; split; [reflexivity|]. intros st gs Hn Hgs. exists [], st. repeat split; auto. intros n; constructor.
  - destruct (Ht n x (or_introl eq_refl)) as [dd [d' [Ha [Hf He]]]].
    destruct IH as [gd [Hgd Hadd]]; [intros n' d'' H; eapply Ht; right; exact H|].
    exists ((n, dd) :: gd); split.
    { cbn [groups_dict]. rewrite Ha; cbn [bind]. rewrite Hgd; reflexivity. }
    intros st gs Hn Hgs. cbn [add_groups]. rewrite Hf; cbn [bind].
    cbn [map fst] in Hn.
    assert (Hnew : dg gs n = None).
    { apply (dget_none _ String.eqb_spec). intros Hin. apply NoDup_remove_2 in Hn. apply Hn, in_or_app; now left. }
    assert (Hset : set_group st n d' = (ds st "groups" (IGroups (gs ++ [(n, d')])%list), None)).
    { unfold set_group. destruct Hgs as [[-> ->]| ->]; [reflexivity|].
      unfold dmem; rewrite Hnew. now rewrite (dset_new gs) by exact Hnew. }
    rewrite Hset; cbn [lift bind].
    destruct (Hadd (ds st "groups" (IGroups (gs ++ [(n, d')])%list)) (gs ++ [(n, d')])%list) as [gs' [st' [Hs [Hst [Hk Hq]]]]].
    { rewrite map_app, <- app_assoc. exact Hn. }
    { right; apply dget_same. }
    exists ((n, d') :: gs'), st'. split; [exact Hs|split; [|split]].
    + right. destruct Hst as [[-> ->]| ->].
      * destruct gs'; [reflexivity|discriminate].
      * rewrite dset_dset, <- app_assoc; reflexivity.
    + cbn [map fst]; now f_equal.
    + intros k; cbn [dget]. destruct (String.eqb k n); [now constructor|apply Hq].
Qed.

Lemma items_dict_ok l :
  (forall k i, In (k, i) l -> good_item k i) -> exists vs, items_dict l = Ok vs.
Proof.
  induction l as [|[k i] t IH]; intros H; [now exists []|].
  destruct IH as [vs Hvs]; [intros; apply H; now right|].
  assert (Hi : exists v, item_dict i = Ok v).
  { specialize (H k i (or_introl eq_refl)). destruct i; cbn [item_dict good_item] in *; eauto.
    - destruct H as [_ [_ [_ Ht]]]. destruct (groups_dict_ok g Ht) as [gd [-> _]]. cbn; eauto.
    - destruct H. }
  destruct Hi as [v Hv]. exists ((k, v) :: vs). cbn [items_dict]. rewrite Hv; cbn [bind]. now rewrite Hvs.
Qed.

Lemma find_groups_ok l vs st :
  items_dict l = Ok vs -> (forall k i, In (k, i) l -> good_item k i) -> NoDup (map fst l) -> dg st "groups" = None ->
  (dg l "groups" = None /\ find_groups vs st = Ok st)
  \/ (exists g g', dg l "groups" = Some (IGroups g) /\ find_groups vs st = Ok (ds st "groups" (IGroups g'))
       /\ forall n, OptEq (dg g n) (dg g' n)).
Proof.
  revert vs; induction l as [|[k i] t IH]; cbn [items_dict]; intros vs Hv Hgood Hn Hst.
  - injection Hv as <-. left; split; reflexivity.
  - destruct (item_dict i) as [v|] eqn:Ei; cbn [bind] in Hv; [|discriminate].
    destruct (items_dict t) as [vt|] eqn:Et; cbn [bind] in Hv; [|discriminate].
    injection Hv as <-. cbn [map fst] in Hn; inversion Hn; subst.
    pose proof (Hgood k i (or_introl eq_refl)) as Hi.
    cbn [dget]. destruct i; cbn [item_dict good_item] in *.
    + injection Ei as <-. cbn [find_groups].
      assert (k <> "groups").
      { destruct Hi as [[Hc _]|[[-> _]|[-> _]]]; [apply (coordinate_ne _ Hc)|discriminate|discriminate]. }
      destruct (String.eqb_spec "groups" k); [congruence|].
      apply IH; auto. intros; apply Hgood; now right.
    + injection Ei as <-. cbn [find_groups]. destruct Hi as [-> _].
      replace (String.eqb "groups" "driver") with false by reflexivity.
      apply IH; auto. intros; apply Hgood; now right.
    + destruct Hi as [-> [Hng [Hne Htr]]]. right.
      destruct (groups_dict_ok g Htr) as [gd [Hgd Hadd]]. rewrite Hgd in Ei; cbn [bind] in Ei; injection Ei as <-.
      cbn [find_groups]. replace (String.eqb "groups" "groups") with true by reflexivity.
      destruct (Hadd st []) as [gs' [st' [Hs [[[Hx _]|Hst'] [Hk Hq]]]]]; [exact Hng|left; auto|contradiction|].
      exists g, gs'. split; [reflexivity|]. split; [|exact Hq]. rewrite Hs. now subst.
    + destruct Hi.
Qed.

Lemma entry_eq_refl e : EntryEq e e.
Proof. unfold EntryEq, AttrsEq. destruct (et_attrs e); repeat split; reflexivity. Qed.

Lemma filter_get (l : storage) k : k <> "groups" -> dg (filter not_groups l) k = dg l k.
Proof.
  intros Hk; induction l as [|[k' v'] t IH]; cbn [dget filter]; [reflexivity|].
  unfold not_groups at 1; cbn [fst]. destruct (String.eqb_spec k' "groups") as [->|Hne]; cbn [negb].
  - destruct (String.eqb_spec k "groups"); [contradiction|exact IH].
  - cbn [dget]. destruct (String.eqb k k'); [reflexivity|exact IH].
Qed.
Lemma filter_groups (l : storage) : dg (filter not_groups l) "groups" = None.
Proof.
  induction l as [|[k' v'] t IH]; cbn [filter]; [reflexivity|].
  unfold not_groups at 1; cbn [fst]. destruct (String.eqb_spec k' "groups") as [->|Hne]; cbn [negb]; [exact IH|].
  cbn [dget]. destruct (String.eqb_spec "groups" k'); [congruence|exact IH].
Qed.

Lemma inv_trips st : inv st -> trips (DMap st).
Proof.
  intros [Hn Hgood].
  destruct (items_dict_ok st Hgood) as [vs Hvs].
  exists (DDict vs).
  assert (Hfold : fold_res from_item vs [] = Ok (filter not_groups st)).
  { rewrite (fold_from st vs []); auto. }
  assert (Hrefl : forall k, k <> "groups" -> forall i, dg st k = Some i -> ItemEq (Some i) (Some i)).
  { intros k Hk i Hi. pose proof (Hgood k i (dget_in _ String.eqb_spec _ _ _ Hi)) as Hg.
    destruct i; cbn [good_item] in Hg.
    - constructor; apply entry_eq_refl.
    - constructor.
    - destruct Hg; contradiction.
    - destruct Hg. }
  destruct (find_groups_ok st vs (filter not_groups st) Hvs Hgood Hn (filter_groups st)) as [[Hg Hf]|[g [g' [Hg [Hf Hq]]]]].
  - exists (DMap (filter not_groups st)). rewrite as_dict_eq, Hvs, from_dict_eq, Hfold; cbn [bind]. rewrite Hf.
    split; [reflexivity|split; [reflexivity|]]. constructor. intros k.
    destruct (string_dec k "groups") as [->|Hk].
    + rewrite Hg, filter_groups. constructor.
    + rewrite filter_get by exact Hk. destruct (dg st k) eqn:E; [eapply Hrefl; eauto|constructor].
  - exists (DMap (ds (filter not_groups st) "groups" (IGroups g'))). rewrite as_dict_eq, Hvs, from_dict_eq, Hfold; cbn [bind]. rewrite Hf.
    split; [reflexivity|split; [reflexivity|]]. constructor. intros k.
    destruct (string_dec k "groups") as [->|Hk].
    + rewrite Hg, dget_same. now constructor.
    + rewrite dget_other by exact Hk. rewrite filter_get by exact Hk.
      destruct (dg st k) eqn:E; [eapply Hrefl; eauto|constructor].
Qed.

(** ** Built maps meet the invariant *)
Lemma inv_crs st : inv st -> dg st "crs" = None \/ exists v, dg st "crs" = Some (IEntry (mkentry (Some v) None None None None)).
Proof.
  intros Hi. destruct (dg st "crs") as [i|] eqn:Eg; [|now left]. right.
  pose proof (inv_get _ _ _ Hi Eg) as Hg. destruct i; cbn [good_item] in Hg.
  - destruct Hg as [[Hc _]|[[_ [v ->]]|[? _]]]; [|eauto|discriminate].
    destruct (coordinate_ne _ Hc) as [N _]. contradiction.
  - destruct Hg; discriminate.
  - destruct Hg; discriminate.
  - destruct Hg.
Qed.
Lemma inv_mask st : inv st -> dg st "spatial_mask" = None
  \/ exists v, dg st "spatial_mask" = Some (IEntry (mkentry (Some v) None None (Some (template_attrs "spatial_mask")) None)).
Proof.
  intros Hi. destruct (dg st "spatial_mask") as [i|] eqn:Eg; [|now left]. right.
  pose proof (inv_get _ _ _ Hi Eg) as Hg. destruct i; cbn [good_item] in Hg.
  - destruct Hg as [[Hc _]|[[? _]|[_ [v ->]]]]; [|discriminate|eauto].
    destruct (coordinate_ne _ Hc) as [_ [N _]]. contradiction.
  - destruct Hg; discriminate.
  - destruct Hg; discriminate.
  - destruct Hg.
Qed.
Lemma inv_groups st : inv st -> dg st "groups" = None
  \/ exists g, dg st "groups" = Some (IGroups g) /\ NoDup (map fst g) /\ g <> [] /\ forall n d, In (n, d) g -> trips d.
Proof.
  intros Hi. destruct (dg st "groups") as [i|] eqn:Eg; [|now left]. right.
  pose proof (inv_get _ _ _ Hi Eg) as Hg. destruct i; cbn [good_item] in Hg.
  - destruct Hg as [[Hc _]|[[? _]|[? _]]]; [|discriminate|discriminate].
    destruct (coordinate_ne _ Hc) as [_ [_ [_ [N _]]]]. contradiction.
  - destruct Hg; discriminate.
  - destruct Hg as [_ Hg]; eauto.
  - destruct Hg.
Qed.

Lemma get_entry_some st key e : In key entry_keys -> dg st key = Some (IEntry e) -> get_entry st key = (st, Ok e).
Proof.
  intros Hin Hg. unfold get_entry. apply existsb_in in Hin; rewrite Hin; cbn [negb]. now rewrite Hg.
Qed.
Lemma get_entry_none st key : In key entry_keys -> dg st key = None -> get_entry st key = (put_entry st key empty_entry, Ok empty_entry).
Proof.
  intros Hin Hg. unfold get_entry. apply existsb_in in Hin; rewrite Hin; cbn [negb]. now rewrite Hg.
Qed.

Lemma dget_remove_put st key e : dg st key = None -> dremove String.eqb (put_entry st key e) key = st.
Proof.
  intros H. unfold put_entry. rewrite dset_new by exact H.
  induction st as [|[k v] t IH]; cbn [app dremove dget] in *.
  - now rewrite String.eqb_refl.
  - destruct (String.eqb key k) eqn:E; [discriminate|]. now rewrite IH.
Qed.

Lemma dmem_some {V} (d : list (string * V)) k : dmem String.eqb d k = true -> exists x, dg d k = Some x.
Proof. unfold dmem; destruct (dg d k); [eauto|discriminate]. Qed.

Lemma built_inv d : Built d -> inv (storage_of d) /\ trips d.
Proof.
  intros H.
  assert (Hi : inv (storage_of d)).
  { induction H; cbn [storage_of] in *.
    - split; [constructor|intros ? ? []].
    - apply set_variable_ok in H0. destruct H0 as [Hin [Hns [Hex [[-> ->]|[name [b [dd [Hn [Hf ->]]]]]]]]].
      + destruct (inv_entry st key IHBuilt (conj Hin Hns)) as [Hg|[n [b [d [a [s Hg]]]]]].
        * rewrite get_entry_none by assumption. cbn [fst]. now rewrite dget_remove_put.
        * rewrite (get_entry_some _ _ _ Hin Hg). now apply inv_remove.
      + apply inv_set; [exact IHBuilt|]. left. split; [split; assumption|]. repeat eexists.
    - apply coordinate_iff in H0. apply set_bounds_ok in H1. destruct H1 as [Hin [e [n [Hg [Hv ->]]]]].
      apply inv_set; [exact IHBuilt|]. left. split; [exact H0|].
      destruct (inv_entry st key IHBuilt H0) as [Hx|[n' [b' [d' [a [s Hx]]]]]]; rewrite Hx in Hg; [discriminate|].
      injection Hg as <-. repeat eexists.
    - unfold set_crs in H0. destruct (inv_crs st IHBuilt) as [Hg|[x Hg]].
      + rewrite get_entry_none in H0 by (cbn; tauto). injection H0 as <-. unfold put_entry. rewrite dset_dset.
        apply inv_set; [exact IHBuilt|]. right; left. split; [reflexivity|]. eexists; reflexivity.
      + rewrite (fun Hin => get_entry_some _ _ _ Hin Hg) in H0 by (cbn; tauto). injection H0 as <-.
        apply inv_set; [exact IHBuilt|]. right; left. split; [reflexivity|]. eexists; reflexivity.
    - unfold set_driver in H0. destruct (existsb _ _) eqn:E; [|discriminate]. injection H0 as <-.
      apply existsb_in in E. apply inv_set; [exact IHBuilt|]. split; [reflexivity|exact E].
    - unfold set_spatial_mask in H1. cbv zeta in H1. rewrite H0 in H1. destruct (inv_mask st IHBuilt) as [Hg|[x Hg]].
      + rewrite get_entry_none in H1 by (cbn; tauto). injection H1 as <-. unfold put_entry. rewrite dset_dset.
        apply inv_set; [exact IHBuilt|]. right; right. split; [reflexivity|]. eexists; reflexivity.
      + rewrite (fun Hin => get_entry_some _ _ _ Hin Hg) in H1 by (cbn; tauto). injection H1 as <-.
        apply inv_set; [exact IHBuilt|]. right; right. split; [reflexivity|]. eexists; reflexivity.
    - assert (Ht : trips g) by (destruct g; now apply inv_trips).
      unfold set_group in H1. destruct (inv_groups st IHBuilt1) as [Hg|[gs [Hg [Hn [Hne Hall]]]]]; rewrite Hg in H1.
      + injection H1 as <-. apply inv_set; [exact IHBuilt1|]. split; [reflexivity|split; [|split]].
        * repeat constructor; intros [].
        * discriminate.
        * intros n d [Hx|[]]; injection Hx as <- <-; exact Ht.
      + destruct (dmem _ _ _); injection H1 as <-; [exact IHBuilt1|].
        apply inv_set; [exact IHBuilt1|]. split; [reflexivity|split; [|split]].
        * now apply (dset_nodup _ String.eqb_spec).
        * intros Hx. destruct gs as [|[k v] gs]; [contradiction|]. cbn [dset] in Hx. destruct (String.eqb name k); discriminate.
        * intros n d Hx. apply in_dset in Hx. destruct Hx as [[-> ->]|Hx]; [exact Ht|eauto].
    - apply coordinate_iff in H1. apply dmem_some in H2.
      destruct (inv_entry st key IHBuilt H1) as [Hx|[n' [b' [d' [a [s Hx]]]]]]; [rewrite Hx in H2; destruct H2; discriminate|].
      pose proof (coordinate_ne _ H1) as [N1 _]. destruct H1 as [Hin _].
      repeat destruct H0 as [<-|H0]; try destruct H0; cbn [step] in H3;
        unfold get_variable, get_bounds, get_dimension, get_attrs in H3;
        erewrite get_element_full in H3 by (try eassumption; reflexivity);
        injection H3 as <-; exact IHBuilt.
    - apply dmem_some in H0. destruct (inv_crs st IHBuilt) as [Hg|[v Hg]]; [rewrite Hg in H0; destruct H0; discriminate|].
      cbn [step] in H1. unfold get_crs, get_name in H1. rewrite (fun Hin => get_entry_some _ _ _ Hin Hg) in H1 by (cbn; tauto).
      injection H1 as <-. exact IHBuilt.
    - apply dmem_some in H0. destruct (inv_mask st IHBuilt) as [Hg|[v Hg]]; [rewrite Hg in H0; destruct H0; discriminate|].
      cbn [step] in H1. unfold get_spatial_mask, get_name in H1. rewrite (fun Hin => get_entry_some _ _ _ Hin Hg) in H1 by (cbn; tauto).
      injection H1 as <-. exact IHBuilt.
    - cbn [step] in H0. unfold get_group in H0. cbv zeta in H0.
      destruct (inv_groups st IHBuilt) as [Hg|[gs [Hg _]]].
      + unfold dmem in H0. rewrite Hg in H0. rewrite dget_same in H0. cbn in H0. discriminate.
      + unfold dmem in H0. rewrite Hg in H0. rewrite Hg in H0. destruct (dg gs name); [|discriminate].
        injection H0 as <-. exact IHBuilt. }
  split; [exact Hi|]. destruct d; now apply inv_trips.
Qed.

Lemma round_trip d : Built d -> exists dd d', as_dict d = Ok dd /\ from_dict dd = Ok d' /\ DmEq d d'.
Proof. intros H; exact (proj2 (built_inv d H)). Qed.
