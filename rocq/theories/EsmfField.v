From Verif Require Import Py Lib Spec PartitionModel NdModel NdSpec NdProofs MaskProofs CoordModel RegridModel RegridProofs EsmfModel EsmfSpec EsmfProofs.
Local Close Scope Q_scope.
Local Open Scope Z_scope.

(** ** Fields *)
Lemma broadcast_names {A} (v w : nvar A) dst : broadcast_variable v dst = Ok w -> forall n, In n dst -> In n (nv_names v).
Proof.
  unfold broadcast_variable. intros H n Hn. destruct (broadcast_array _ _ _) as [val|]; [cbn [bind] in H|discriminate].
  destruct (match nv_mask v with None => _ | Some _ => _ end) as [k|]; [cbn [bind] in H|discriminate].
  destruct (map_res _ dst) as [ds|] eqn:E; [|discriminate].
  clear H. revert ds E. induction dst as [|a t IH]; intros ds E; [destruct Hn|]. cbn [map_res] in E.
  destruct (dget String.eqb (nv_dims v) a) as [z|] eqn:Eg; [cbn [bind] in E|discriminate].
  destruct (map_res _ t) as [dt|] eqn:Et; [cbn [bind] in E|discriminate].
  destruct Hn as [<-|Hn]; [|apply (IH Hn dt eq_refl)].
  destruct (in_dec String.string_dec a (nv_names v)) as [I|I]; [exact I|]. apply dget_None in I. unfold nv_names in I. congruence.
Qed.

Lemma same_dim (l : list (string * Z)) a b : NoDup (map fst l) -> In a l -> In b l -> fst a = fst b -> a = b.
Proof.
  intros N. destruct a as [a1 a2], b as [b1 b2]. intros Ha Hb Hf. cbn in Hf. subst b1. pose proof (dget_In _ _ _ N Ha). pose proof (dget_In _ _ _ N Hb). congruence.
Qed.
Lemma two_dims (l : list (string * Z)) a b : NoDup (map fst l) -> In a l -> In b l -> [fst a; fst b] = map fst l -> l = [a; b].
Proof.
  intros N Ha Hb E. destruct l as [|d1 [|d2 [|]]]; try discriminate E. injection E as E1 E2.
  f_equal; [|f_equal]; eapply same_dim; eauto; cbn; auto.
Qed.
Lemma index_range (l : list (string * Z)) d : NoDup (map fst l) -> In d l -> forall idx p x, Forall2 (fun i n => 0 <= n < i) (map snd l) idx ->
  nth_error (map fst l) p = Some (fst d) -> nth_error idx p = Some x -> 0 <= x < snd d.
Proof.
  intros N I idx p x H Hn Hx.
  assert (Dp : nth_error l p = Some d).
  { rewrite nth_error_map in Hn. destruct (nth_error l p) as [d'|] eqn:Ep; [|discriminate]. cbn in Hn. injection Hn as E.
    rewrite (same_dim l d' d N (nth_error_In _ _ Ep) I E). reflexivity. }
  clear - H Dp Hx. revert idx p H Dp Hx. induction l as [|d0 ds IHd]; intros idx p H Dp Hx; [destruct p; discriminate|].
  cbn in H. inversion H as [|? ? ? ? H1 H2]; subst. destruct p; cbn in *; [congruence|]. eapply IHd; eauto.
Qed.

Section F.
Context {A : Type} (zero : A) (f : dfield A) (v : dvar A) (name : option string).
Let g := df_grid f.
Let dims := nv_dims (dv_var v).
Definition time_last : list (string * Z) := match df_time f with Some (t :: _) => [t] | _ => [] end.
Definition the_others : list (string * Z) :=
  filter (fun d : string * Z => negb (str_mem (fst d) [fst (rg_x g); fst (rg_y g)]) &&
     negb (match time_last with t :: _ => String.eqb (fst d) (fst t) | [] => false end)) dims.
Definition new_order : list (string * Z) := [rg_x g; rg_y g] ++ the_others ++ time_last.
Hypothesis Cv : Convertible f v.
Hypothesis Gg : GoodCells g.

Lemma order_in d : In d new_order <-> In d dims.
Proof.
  destruct Cv as [_ [Gv [_ [Iy [Ix Ht]]]]]. unfold new_order. rewrite !in_app_iff. cbn [In].
  assert (T : In d time_last -> In d dims).
  { unfold time_last. destruct (df_time f) as [[|t r]|]; cbn; try tauto. destruct Ht as [t' [r' [E [It _]]]]. injection E as -> ->. intros [<-|[]]. exact It. }
  split.
  - intros [[<-|[<-|[]]]|[H|H]]; auto. unfold the_others in H. apply filter_In in H. apply H.
  - intros H. unfold the_others. rewrite filter_In.
    destruct (str_mem (fst d) [fst (rg_x g); fst (rg_y g)]) eqn:E.
    + left. apply str_mem_In in E. destruct Gv as [Nd _]. 
      assert (U : forall a b, In a dims -> In b dims -> fst a = fst b -> a = b).
      { intros [a1 a2] [b1 b2] Ha Hb Hf. cbn in Hf. subst b1. pose proof (dget_In _ _ _ Nd Ha). pose proof (dget_In _ _ _ Nd Hb). congruence. }
      destruct E as [E|[E|[]]]; [left|right; left]; apply U; auto.
    + right. unfold time_last. destruct (df_time f) as [[|t r]|]; cbn [negb andb]; try (left; split; [exact H|reflexivity]).
      destruct (String.eqb_spec (fst d) (fst t)) as [Et|Et]; [|left; split; [exact H|reflexivity]].
      right. left. destruct Ht as [t' [r' [E' [It _]]]]. injection E' as <- <-. destruct Gv as [Nd _].
      destruct d as [d1 d2], t as [t1 t2]. cbn in Et. subst d1. pose proof (dget_In _ _ _ Nd H). pose proof (dget_In _ _ _ Nd It). congruence.
Qed.

Lemma filter_map_nodup (p : string * Z -> bool) (l : list (string * Z)) : NoDup (map fst l) -> NoDup (map fst (filter p l)).
Proof.
  induction l as [|a l IH]; intros H; [exact H|]. cbn in *. inversion H; subst. destruct (p a); [|auto]. cbn. constructor; [|auto].
  intros I. apply in_map_iff in I. destruct I as [b [Hb Ib]]. apply filter_In in Ib. apply H2. apply in_map_iff. exists b. tauto.
Qed.

Lemma order_nodup : NoDup (map fst new_order).
Proof.
  destruct Cv as [_ [[Nd _] [_ [Iy [Ix Ht]]]]]. destruct Gg as [Ne _]. unfold new_order. cbn [app map].
  assert (No : forall d, In d (the_others ++ time_last) -> fst d <> fst (rg_x g) /\ fst d <> fst (rg_y g)).
  { intros d H. apply in_app_iff in H. destruct H as [H|H].
    - unfold the_others in H. apply filter_In in H. destruct H as [_ H]. apply andb_true_iff in H. destruct H as [H _].
      apply negb_true_iff in H. split; intros E; rewrite E in H; cbn in H; rewrite String.eqb_refl in H; rewrite ?orb_true_r in H; discriminate.
    - unfold time_last in H. destruct (df_time f) as [[|t r]|]; cbn in H; try tauto. destruct H as [<-|[]].
      destruct Ht as [t' [r' [E [_ [H1 H2]]]]]. injection E as <- <-. auto. }
  constructor; [|constructor].
  - intros [E|I]; [congruence|]. apply in_map_iff in I. destruct I as [d [Hd Id]]. destruct (No d Id). congruence.
  - intros I. apply in_map_iff in I. destruct I as [d [Hd Id]]. destruct (No d Id). congruence.
  - rewrite map_app. apply NoDup_app_intro.
    + apply filter_map_nodup. exact Nd.
    + unfold time_last. destruct (df_time f) as [[|t r]|]; cbn; repeat constructor; auto.
    + intros n I1 I2. unfold time_last in I2. unfold the_others in I1. apply in_map_iff in I1. destruct I1 as [d [<- Id]]. apply filter_In in Id.
      destruct Id as [_ Id]. apply andb_true_iff in Id. destruct Id as [_ Id]. unfold time_last in Id.
      destruct (df_time f) as [[|t r]|]; cbn in I2; try tauto. destruct I2 as [E|[]]. rewrite E, String.eqb_refl in Id. discriminate.
Qed.

Lemma create_ok m : (m = Flag Conserve -> rg_bounds g = true) -> exists eg, create_esmf_grid g m None = Ok eg /\ eg_nx eg = rg_nx g /\ eg_ny eg = rg_ny g.
Proof.
  intros Hm. unfold create_esmf_grid. cbn [bind]. destruct Gg as [_ [_ [_ Sk]]].
  assert (M : exists em, (match rg_mask g with Some k => bind (np_assign (np_swapaxes 0 1 (np_invert k)) [rg_nx g; rg_ny g]) (fun r => Ok (Some r)) | None => Ok None end) = Ok em).
  { destruct (rg_mask g) as [k|]; [|eexists; reflexivity]. destruct (swap2 (np_invert k) _ _ Sk) as [S1 _]. destruct (assign2 _ _ _ S1) as [r [E _]]. rewrite E. eexists; reflexivity. }
  destruct M as [em ->]. cbn [bind].
  assert (Cc : exists c, (match m with Auto => Ok (rg_bounds g) | Flag f => if is_conserve f then (if rg_bounds g then Ok true else Err AttributeError) else Ok false end) = Ok c).
  { destruct m as [|[]]; cbn; try (eexists; reflexivity). rewrite Hm by reflexivity. eexists; reflexivity. }
  destruct Cc as [c ->]. cbn [bind]. eexists. split; [reflexivity|]. auto.
Qed.

Lemma combine_order (l : list (string * Z)) : combine (map fst l) (map snd l) = l.
Proof. induction l as [|[a b] l IH]; [reflexivity|]. cbn. rewrite IH. reflexivity. Qed.

Theorem field_roundtrip m : (m = Flag Conserve -> rg_bounds g = true) ->
  exists e v' w, to_efield f name m None = Ok (e, v') /\ SameVar v' (dv_var v) /\ from_efield zero e = Ok w /\
    dv_name w = match name with Some n => n | None => dv_name v end /\ nv_dims (dv_var w) = nv_dims (dv_var v) /\
    SameArray (nv_value (dv_var w)) (nv_value (dv_var v)) /\
    forall idx, IndexOf (nv_shape (dv_var v)) idx ->
      (masked (dv_var w) idx = true <->
       exists k i j, rg_mask g = Some k /\ CellOf (nv_names (dv_var v)) g idx i j /\ nd_at k [i; j] = true).
Proof.
  intros Hm. pose proof Cv as [Hv [Gv [Fl [Iy [Ix Ht]]]]]. destruct (create_ok m Hm) as [eg [Ec [Enx Eny]]].
  assert (Et : exists time, (match df_time f with None => Ok None | Some [] => Err IndexError | Some (t :: _) => Ok (Some t) end) = Ok time /\
    match time with Some t => [t] | None => [] end = time_last).
  { unfold time_last. destruct (df_time f) as [[|t r]|]; [destruct Ht as [t' [r' [E _]]]; discriminate| |]; eexists; split; reflexivity. }
  destruct Et as [time [Et El]].
  assert (Eo : filter (fun d : string * Z => negb (str_mem (fst d) [fst (rg_x g); fst (rg_y g)]) &&
     negb (match time with Some t => String.eqb (fst d) (fst t) | None => false end)) dims = the_others).
  { unfold the_others. rewrite <- El. destruct time; reflexivity. }
  assert (Sn : SameNames (nv_names (dv_var v)) (map fst new_order)).
  { split; [apply Gv|]. split; [exact order_nodup|]. intros n. unfold nv_names. rewrite !in_map_iff. split; intros [d [E I]]; exists d; (split; [exact E|]); apply order_in; exact I. }
  destruct (broadcast_scope_spec (dv_var v) (map fst new_order) (fun w => (w, None)) Gv Sn) as [b [v' [Eb [Es [Hnb [Hdv Sv]]]]]]; [intros; auto|].
  unfold broadcast_scope in Es. rewrite Eb in Es. destruct (broadcast_variable b (nv_names (dv_var v))) as [v2|] eqn:E2; [|discriminate]. cbn [bind] in Es. injection Es as ->.
  cbn [fst] in Sv.
  destruct (broadcast_variable_spec _ _ Gv Sn) as [b' [Eb' [Gb [Hdb [Hvb _]]]]]. assert (b' = b) by congruence. subst b'.
  assert (Db : nv_dims b = new_order).
  { rewrite Hdb. rewrite map_map. rewrite <- (map_id new_order) at 2. apply map_ext_in. intros [n z] I. cbn [fst].
    apply order_in in I. unfold dsize. rewrite (dget_In _ n z (proj1 Gv) I). reflexivity. }
  assert (Sb : nd_shape (nv_value b) = map snd new_order) by (destruct Gb as [_ [_ [Sb _]]]; rewrite Sb; unfold nv_shape; rewrite Db; reflexivity).
  destruct (assign_same (nv_value b) _ Sb) as [data [Ed [Sd Ad]]].
  assert (SVb : SameVar b b) by (split; [reflexivity|split; [split; auto|destruct (nv_mask b); [split; auto|exact I]]]).
  exists (mkefield (match name with Some n => n | None => dv_name v end) (map fst new_order) dims data g), v'.
  (* back *)
  set (dv := mknvar new_order data None : nvar A).
  assert (Gd : GoodVar dv).
  { split; [exact order_nodup|]. split; [change (Forall (fun n => 0 <= n) (map snd new_order)); rewrite <- Db; apply Gb|]. split; [exact Sd|exact I]. }
  assert (Snd : SameNames (nv_names dv) (map fst dims)).
  { destruct Sn as [n1 [n2 n3]]. split; [exact n2|]. split; [exact n1|]. intros x. symmetry. apply n3. }
  destruct (broadcast_variable_spec dv (map fst dims) Gd Snd) as [r [Er [Gr [Hdr [Hvr Hmr]]]]]. cbn [nv_mask dv] in Hmr. destruct (nv_mask r) as [|] eqn:Mr; [destruct Hmr|].
  assert (Dr : nv_dims r = dims).
  { rewrite Hdr. rewrite map_map. rewrite <- (map_id dims) at 2. apply map_ext_in. intros [n z] I. cbn [fst dv nv_dims].
    apply order_in in I. unfold dsize. rewrite (dget_In _ n z order_nodup I). reflexivity. }
  set (w0 := mknvar dims (nv_value r) None : nvar A).
  assert (Gw : GoodVar w0).
  { destruct Gr as [r1 [r2 [r3 r4]]]. unfold nv_names, nv_shape in r1, r2, r3. rewrite Dr in r1, r2, r3. split; [exact r1|]. split; [exact r2|]. split; [exact r3|exact I]. }
  assert (Val : SameArray (nv_value r) (nv_value (dv_var v))).
  { destruct Gv as [v1 [v2' [v3 v4]]]. change (NoDup (map fst dims)) in v1. split; [destruct Gw as [_ [_ [W _]]]; cbn [nv_value w0] in W; rewrite W, v3; reflexivity|].
    destruct Gw as [_ [_ [W _]]]. cbn [nv_value w0] in W. rewrite W. intros idx H. unfold nv_shape in H. cbn [nv_dims w0] in H.
    rewrite (dims_shape dims v1) in H. destruct (index_as_map (dsize dims) (map fst dims) v1 idx H) as [h [-> Hh]].
    assert (Sz : forall n, In n (map fst dims) -> dsize new_order n = dsize dims n).
    { intros n I. apply in_map_iff in I. destruct I as [[n' z] [En I]]. cbn in En. subst n'. unfold dsize.
      rewrite (dget_In _ n z v1 I). apply order_in in I. rewrite (dget_In _ n z order_nodup I). reflexivity. }
    rewrite (Hvr h) by (intros n I; cbn [nv_dims dv]; rewrite Sz by exact I; apply Hh; exact I).
    change (nv_names dv) with (map fst new_order). cbn [nv_value dv].
    assert (Hh' : forall n, In n (map fst new_order) -> 0 <= h n < dsize dims n) by (intros n I; apply Hh; destruct Sn as [_ [_ Q]]; apply Q; exact I).
    rewrite Ad.
    - rewrite (Hvb h Hh'). reflexivity.
    - replace (map snd new_order) with (map (dsize dims) (map fst new_order)); [apply index_of_map; exact Hh'|].
      rewrite (dims_shape new_order order_nodup). apply map_ext_in. intros n I. symmetry. apply Sz. destruct Sn as [_ [_ Q]]. apply Q. exact I. }
  assert (Mk : exists w, (match rg_mask g with
          | Some k => set_mask_by_variable (mknvar (rg_dims g) (mknd [rg_ny g; rg_nx g] (fun _ => zero)) (Some k)) w0 false
          | None => Ok w0 end) = Ok w /\ nv_dims w = dims /\ nv_value w = nv_value r /\
          forall idx, IndexOf (nv_shape (dv_var v)) idx -> (masked w idx = true <-> exists k i j, rg_mask g = Some k /\ CellOf (nv_names (dv_var v)) g idx i j /\ nd_at k [i; j] = true)).
  { destruct Gg as [Ne [Py [Px Sk]]]. destruct (rg_mask g) as [k|] eqn:Ek.
    - set (src := mknvar (rg_dims g) (mknd [rg_ny g; rg_nx g] (fun _ => zero)) (Some k)).
      assert (Gs : GoodVar src).
      { split; [cbn; repeat constructor; cbn; intuition congruence|]. split; [cbn; repeat constructor; assumption|]. split; [reflexivity|exact Sk]. }
      destruct (set_mask_by_variable_spec src w0 k false Gs Gw eq_refl) as [w [Ew [Dw [Vw [_ Mw]]]]].
      { intros En. cbn in En. change (nv_shape src) with (map snd (rg_dims g)). unfold nv_shape. cbn [nv_dims w0].
        assert (Dims2 : dims = rg_dims g) by (apply two_dims; [apply Gv|exact Iy|exact Ix|exact En]).
        rewrite Dims2. reflexivity. }
      exists w. split; [exact Ew|]. split; [exact Dw|]. split; [exact Vw|]. intros idx H. rewrite (Mw idx H). split.
      + intros [[_ Q]|[s [Hs [Ms Ag]]]]; [discriminate Q|]. cbn in Hs. destruct (index2 _ _ _ Hs) as [i [j [-> [Hi Hj]]]].
        exists k, i, j. split; [reflexivity|]. split; [|exact Ms]. 
        assert (Pos : forall d, In d dims -> exists p, nth_error (nv_names (dv_var v)) p = Some (fst d)).
        { intros d I. apply (in_map fst) in I. apply In_nth_error in I. exact I. }
        destruct (Pos _ Iy) as [p Hp]. destruct (Pos _ Ix) as [q Hq]. exists p, q. split; [exact Hp|]. split; [exact Hq|].
        split; symmetry; [exact (Ag _ 0%nat p eq_refl Hp)|exact (Ag _ 1%nat q eq_refl Hq)].
      + intros [k' [i [j [Ek' [[p [q [Hp [Hq [Ip Iq]]]]] Hk]]]]]. injection Ek' as <-. right. exists [i; j].
        assert (Rng : forall (d : string * Z) p x, In d dims -> nth_error (nv_names (dv_var v)) p = Some (fst d) -> nth_error idx p = Some x -> 0 <= x < snd d).
        { intros d p0 x I Hn Hx. apply (index_range dims d (proj1 Gv) I idx p0 x H Hn Hx). }
        split; [constructor; [apply (Rng _ p i Iy Hp Ip)|constructor; [apply (Rng _ q j Ix Hq Iq)|constructor]]|]. split; [exact Hk|].
        intros n a b' Ha Hb'. assert (Nv : NoDup (nv_names (dv_var v))) by apply Gv.
        assert (Uq : forall c d, nth_error (nv_names (dv_var v)) c = Some n -> nth_error (nv_names (dv_var v)) d = Some n -> c = d).
        { intros c d Hc Hd. apply (proj1 (NoDup_nth_error _) Nv); [apply nth_error_Some; congruence|congruence]. }
        destruct a as [|[|a]]; cbn in Ha; [injection Ha as <-|injection Ha as <-|destruct a; discriminate].
        * rewrite (Uq _ _ Hb' Hp), Ip. reflexivity.
        * rewrite (Uq _ _ Hb' Hq), Iq. reflexivity.
    - exists w0. split; [reflexivity|]. split; [reflexivity|]. split; [reflexivity|]. intros idx _. unfold masked. cbn [nv_mask w0]. split; [discriminate|].
      intros [k [i [j [Q _]]]]. discriminate Q. }
  destruct Mk as [w [Ew [Dw [Vw Mw]]]].
  exists (mkdvar (match name with Some n => n | None => dv_name v end) w true). split.
  - unfold to_efield. rewrite Hv. fold g. rewrite Ec. cbn [bind]. rewrite Et. cbn [bind]. fold dims. rewrite Eo, El, Fl.
    change ([fst (rg_x g); fst (rg_y g)] ++ map fst (the_others ++ time_last)) with (map fst new_order).
    rewrite Eb. cbn [bind]. rewrite Enx, Eny. change ([rg_nx g; rg_ny g] ++ map snd (the_others ++ time_last)) with (map snd new_order).
    rewrite Ed. cbn [bind]. rewrite E2. cbn [bind]. reflexivity.
  - split; [apply Sv; exact SVb|]. split.
    + unfold from_efield. cbn [ef_names ef_data ef_back ef_grid ef_name]. rewrite Sd, combine_order. fold dv. rewrite Er. cbn [bind].
      rewrite Mr. fold w0. rewrite Ew. reflexivity.
    + cbn [dv_name dv_var]. split; [reflexivity|]. split; [exact Dw|]. split; [rewrite Vw; exact Val|exact Mw].
Qed.
End F.

Theorem field_no_time {A} (f : dfield A) v name m vm t r : df_vars f = [v] -> df_time f = Some (t :: r) -> ~ In (fst t) (nv_names (dv_var v)) ->
  exists ex, to_efield f name m vm = Err ex.
Proof.
  intros Hv Ht Hn. unfold to_efield. rewrite Hv, Ht. destruct (create_esmf_grid (df_grid f) m vm) as [eg|ex]; cbn [bind]; [|eauto].
  destruct (dv_float v); [|eauto]. destruct (broadcast_variable (dv_var v) _) as [b|ex] eqn:E; cbn [bind]; [|eauto]. exfalso. apply Hn.
  apply (broadcast_names _ _ _ E). apply in_app_iff. right. rewrite map_app. apply in_app_iff. right. left. reflexivity.
Qed.

Theorem field_integers {A} (f : dfield A) v name m vm : df_vars f = [v] -> dv_float v = false -> exists ex, to_efield f name m vm = Err ex.
Proof.
  intros Hv Ht. unfold to_efield. rewrite Hv, Ht. destruct (create_esmf_grid (df_grid f) m vm) as [eg|ex]; cbn [bind]; [|eauto].
  destruct (match df_time f with None => _ | Some _ => _ end) as [time|ex]; cbn [bind]; eauto.
Qed.

(** ** The operation *)
Section O.
Context {C F : Type} (eqb : C -> C -> bool) (spherical : C).
Variable transform : C -> C -> F -> res F.
Variable subset : ofield C F -> res (ofield C F).
Variable regrid : ofield C F -> ofield C F -> res (option (ofield C F)).
Hypothesis eqb_eq : forall a b, eqb a b = true <-> a = b.
Notation exec := (execute eqb spherical transform subset regrid).
Notation upd_crs := (update_crs transform).

Lemma update_system f c f' : upd_crs f c = Ok f' -> of_crs f' = Some c.
Proof. unfold update_crs. destruct (of_crs f); [|discriminate]. destruct (transform _ _ _); [|discriminate]. cbn. intros H. injection H as <-. reflexivity. Qed.

Lemma spherical_system f f1 b : to_spherical eqb spherical transform f = Ok (f1, b) ->
  of_crs f1 = Some spherical /\ match b with Some c => of_crs f = Some c /\ c <> spherical | None => f1 = f end.
Proof.
  unfold to_spherical, is_spherical. destruct (of_crs f) as [c|] eqn:E.
  - destruct (eqb c spherical) eqn:Eb.
    + intros H. injection H as <- <-. apply eqb_eq in Eb. subst c. auto.
    + destruct (update_crs transform f spherical) as [f'|] eqn:U; [|discriminate]. cbn. intros H. injection H as <- <-.
      split; [apply (update_system _ _ _ U)|]. split; [reflexivity|]. intros ->. rewrite (proj2 (eqb_eq _ _) eq_refl) in Eb. discriminate.
  - unfold update_crs. rewrite E. discriminate.
Qed.

Lemma to_spherical_again f f1 b : to_spherical eqb spherical transform f = Ok (f1, b) -> to_spherical eqb spherical transform f1 = Ok (f1, None).
Proof.
  intros H. destruct (spherical_system _ _ _ H) as [E _]. unfold to_spherical, is_spherical. rewrite E, (proj2 (eqb_eq _ _) eq_refl). reflexivity.
Qed.

Theorem operation_result u r src dst o s' d' : (forall a b x, regrid a b = Ok (Some x) -> of_crs x = Some spherical) ->
  exec u r src dst = (Ok (Some o), s', d') -> of_crs o = of_crs src.
Proof.
  intros Hr H. unfold execute in H. destruct (to_spherical eqb spherical transform dst) as [[dst1 bd]|]; [|discriminate].
  destruct (if u then subset dst1 else Ok dst1) as [sub|]; [|discriminate].
  destruct (to_spherical eqb spherical transform src) as [[src1 bs]|] eqn:Es; [|discriminate].
  destruct (spherical_system _ _ _ Es) as [S1 S2].
  destruct (regrid src1 sub) as [out|] eqn:Er; [|discriminate]. destruct bs as [c|].
  - destruct out as [x|]; [|discriminate]. destruct (update_crs transform x c) as [x'|] eqn:Eu; [|discriminate]. apply update_system in Eu.
    destruct S2 as [S2 _]. destruct (if r then bd else None); [destruct (update_crs transform dst1 _); [|discriminate]|]; injection H as <- _ _; congruence.
  - subst src1. destruct (if r then bd else None); [destruct (update_crs transform dst1 _); [|discriminate]|]; injection H as H _ _; subst out; apply Hr in Er; congruence.
Qed.

Theorem operation_source u r src dst o s' d' c : of_crs src = Some c -> c <> spherical ->
  exec u r src dst = (Ok o, s', d') -> of_crs s' = Some spherical.
Proof.
  intros Hc Hn H. unfold execute in H. destruct (to_spherical eqb spherical transform dst) as [[dst1 bd]|]; [|discriminate].
  destruct (if u then subset dst1 else Ok dst1) as [sub|]; [|discriminate].
  destruct (to_spherical eqb spherical transform src) as [[src1 bs]|] eqn:Es; [|discriminate].
  destruct (spherical_system _ _ _ Es) as [S1 S2].
  destruct (regrid src1 sub) as [out|] eqn:Er; [|discriminate]. destruct bs as [c'|]; [|subst src1; congruence].
  destruct out as [x|]; [|discriminate]. destruct (update_crs transform x c') as [x'|] eqn:Eu; [|discriminate].
  destruct (if r then bd else None); [destruct (update_crs transform dst1 _); [|discriminate]|]; injection H as _ <- _; exact S1.
Qed.

Lemma spherical_brought f f1 b : to_spherical eqb spherical transform f = Ok (f1, b) -> BroughtTo transform spherical f f1.
Proof.
  intros H. destruct (spherical_system _ _ _ H) as [S1 S2]. destruct b as [c|]; [|left; subst f1; auto].
  right. destruct S2 as [S2 S3]. unfold to_spherical in H. destruct (is_spherical eqb spherical f); [discriminate|].
  unfold update_crs in H. rewrite S2 in H. destruct (transform c spherical (of_rest f)) as [x|] eqn:E; [|discriminate]. cbn in H.
  exists c, x. injection H as <-. auto.
Qed.

Theorem operation_inputs u r src dst o s' d' c : (forall a b x, regrid a b = Ok (Some x) -> of_crs x = Some spherical) -> of_crs src = Some c ->
  exec u r src dst = (Ok (Some o), s', d') ->
  exists s d sub out, BroughtTo transform spherical src s /\ BroughtTo transform spherical dst d /\ (if u then subset d else Ok d) = Ok sub /\
    regrid s sub = Ok (Some out) /\ BroughtTo transform c out o.
Proof.
  intros Hr Hc H. unfold execute in H. destruct (to_spherical eqb spherical transform dst) as [[dst1 bd]|] eqn:Ed; [|discriminate].
  destruct (if u then subset dst1 else Ok dst1) as [sub|] eqn:Eu; [|discriminate].
  destruct (to_spherical eqb spherical transform src) as [[src1 bs]|] eqn:Es; [|discriminate].
  destruct (spherical_system _ _ _ Es) as [S1 S2].
  destruct (regrid src1 sub) as [[out|]|] eqn:Er; [| |discriminate].
  2: { destruct bs; [discriminate|]. destruct (if r then bd else None); [destruct (update_crs transform dst1 _); discriminate|discriminate]. }
  exists src1, dst1, sub, out. split; [apply (spherical_brought _ _ _ Es)|]. split; [apply (spherical_brought _ _ _ Ed)|]. split; [exact Eu|]. split; [exact Er|].
  pose proof (Hr _ _ _ Er) as Ho. destruct bs as [c'|].
  - destruct S2 as [S2 S3]. assert (c' = c) by congruence. subst c'. destruct (update_crs transform out c) as [x'|] eqn:Ex; [|discriminate].
    assert (x' = o) by (destruct (if r then bd else None); [destruct (update_crs transform dst1 _); [|discriminate]|]; congruence). subst x'.
    unfold update_crs in Ex. rewrite Ho in Ex. destruct (transform spherical c (of_rest out)) as [x|] eqn:Et; [|discriminate]. cbn in Ex. injection Ex as <-.
    right. exists spherical, x. repeat split; auto.
  - subst src1. assert (out = o) by (destruct (if r then bd else None); [destruct (update_crs transform dst1 _); [|discriminate]|]; congruence). subst out.
    left. split; congruence.
Qed.

Notation Exact := (Exact transform spherical).

Lemma back_exact f f1 c : Exact f -> to_spherical eqb spherical transform f = Ok (f1, Some c) -> upd_crs f1 c = Ok f.
Proof.
  intros Ex H. destruct (spherical_system _ _ _ H) as [S1 [S2 S3]]. unfold to_spherical, is_spherical in H. rewrite S2 in H.
  destruct (eqb c spherical) eqn:Eb; [discriminate|]. unfold update_crs in *. rewrite S2 in H. destruct (transform c spherical (of_rest f)) as [y|] eqn:Et; [|discriminate].
  cbn in H. injection H as <-. cbn [of_crs of_rest]. rewrite (Ex c _ y S2 eq_refl Et). cbn. destruct f. cbn in *. congruence.
Qed.

Theorem operation_destination u src dst o s' d' : Exact dst -> exec u true src dst = (Ok o, s', d') -> d' = dst.
Proof.
  intros Ex H. unfold execute in H. destruct (to_spherical eqb spherical transform dst) as [[dst1 bd]|] eqn:Ed; [|discriminate].
  destruct (if u then subset dst1 else Ok dst1) as [sub|]; [|discriminate].
  destruct (to_spherical eqb spherical transform src) as [[src1 bs]|] eqn:Es; [|discriminate].
  destruct (regrid src1 sub) as [out|]; [|discriminate].
  assert (B : match bd with Some d => upd_crs dst1 d = Ok dst | None => dst1 = dst end).
  { destruct bd as [d|]; [apply back_exact; assumption|]. apply (spherical_system _ _ _ Ed). }
  destruct bs as [c|].
  - destruct out as [x|]; [|discriminate]. destruct (update_crs transform x c) as [x'|]; [|discriminate].
    destruct bd as [d|]; [rewrite B in H|]; injection H as _ _ <-; auto.
  - destruct bd as [d|]; [rewrite B in H|]; injection H as _ _ <-; auto.
Qed.

(** The outcome depends on the destination only through its spherical form. *)
Lemma outcome_form u r src dst dst1 bd : to_spherical eqb spherical transform dst = Ok (dst1, bd) -> (r = true -> forall d, bd = Some d -> exists x, upd_crs dst1 d = Ok x) ->
  fst (fst (exec u r src dst)) = fst (fst (exec u false src dst1)).
Proof.
  intros H Hr. unfold execute. rewrite H, (to_spherical_again _ _ _ H).
  destruct (if u then subset dst1 else Ok dst1) as [sub|]; [|reflexivity].
  destruct (to_spherical eqb spherical transform src) as [[src1 bs]|]; [|reflexivity].
  destruct (regrid src1 sub) as [out|]; [|reflexivity].
  assert (B : (if r then bd else None) = None \/ exists d x, (if r then bd else None) = Some d /\ upd_crs dst1 d = Ok x).
  { destruct r; [|auto]. destruct bd as [d|]; [|auto]. destruct (Hr eq_refl d eq_refl) as [x Hx]. eauto. }
  destruct bs as [c|].
  - destruct out as [x|]; [|reflexivity]. destruct (update_crs transform x c) as [x'|]; [|reflexivity].
    destruct B as [->|[d [y [-> ->]]]]; reflexivity.
  - destruct B as [->|[d [y [-> ->]]]]; reflexivity.
Qed.

Lemma destination_kept u src dst o s' d' : exec u false src dst = (Ok o, s', d') -> exists bd, to_spherical eqb spherical transform dst = Ok (d', bd).
Proof.
  intros H. unfold execute in H. destruct (to_spherical eqb spherical transform dst) as [[dst1 bd]|] eqn:Ed; [|discriminate].
  destruct (if u then subset dst1 else Ok dst1) as [sub|]; [|discriminate].
  destruct (to_spherical eqb spherical transform src) as [[src1 bs]|] eqn:Es; [|discriminate].
  destruct (regrid src1 sub) as [out|]; [|discriminate]. exists bd. destruct bs as [c|].
  - destruct out as [x|]; [|discriminate]. destruct (update_crs transform x c) as [x'|]; [|discriminate]. injection H as _ _ <-. reflexivity.
  - injection H as _ _ <-. reflexivity.
Qed.

Theorem operation_sequence u r srcs dst outs : (r = true -> Exact dst) -> execute_all eqb spherical transform subset regrid u r srcs dst = outs ->
  Forall (fun o => exists x, o = Ok x) outs -> outs = map (fun s => fst (fst (exec u r s dst))) srcs.
Proof.
  intros Ex H Hok. subst outs. revert Ex Hok. destruct r; intros Ex Hok.
  - induction srcs as [|s rest IH]; [reflexivity|]. cbn [execute_all map] in *. destruct (exec u true s dst) as [[o s'] d'] eqn:E. cbn [fst].
    inversion Hok as [|? ? [x ->] Hok']; subst. f_equal. rewrite (operation_destination u s dst x s' d' (Ex eq_refl) E) in *. apply IH. exact Hok'.
  - clear Ex. assert (G : forall dst1, (exists b1, to_spherical eqb spherical transform dst1 = Ok (dst1, b1)) ->
      forall l, Forall (fun o => exists x, o = Ok x) (execute_all eqb spherical transform subset regrid u false l dst1) ->
      execute_all eqb spherical transform subset regrid u false l dst1 = map (fun s => fst (fst (exec u false s dst1))) l).
    { intros dst1 [b1 H1] l. induction l as [|s rest IH]; [reflexivity|]. cbn [execute_all map]. destruct (exec u false s dst1) as [[o s'] d'] eqn:E. cbn [fst].
      intros Hf. inversion Hf as [|? ? [x ->] Hf']; subst. f_equal. destruct (destination_kept _ _ _ _ _ _ E) as [bd Hd].
      assert (d' = dst1) by congruence. subst d'. apply IH. exact Hf'. }
    destruct srcs as [|s rest]; [reflexivity|]. cbn [execute_all map] in *. destruct (exec u false s dst) as [[o s'] d'] eqn:E. cbn [fst].
    inversion Hok as [|? ? [x ->] Hok']; subst. f_equal. destruct (destination_kept _ _ _ _ _ _ E) as [bd Hd].
    rewrite (G d' (ex_intro _ None (to_spherical_again _ _ _ Hd)) rest Hok'). apply map_ext. intros t. symmetry. apply (outcome_form u false t dst d' bd Hd). discriminate.
Qed.

Theorem operation_weights u r src dst c dst1 bd : of_crs src = Some c -> c <> spherical -> (forall a b, regrid a b = Ok None) ->
  to_spherical eqb spherical transform dst = Ok (dst1, bd) -> (u = true -> exists s, subset dst1 = Ok s) -> (exists s, upd_crs src spherical = Ok s) ->
  exists s' d', exec u r src dst = (Err AttributeError, s', d').
Proof.
  intros Hc Hn Hr Hd Hs [s1 Hu]. unfold execute. rewrite Hd.
  assert (Q : exists sub, (if u then subset dst1 else Ok dst1) = Ok sub) by (destruct u; eauto). destruct Q as [sub ->].
  assert (Es : to_spherical eqb spherical transform src = Ok (s1, Some c)).
  { unfold to_spherical, is_spherical. rewrite Hc. destruct (eqb c spherical) eqn:Eb; [apply eqb_eq in Eb; congruence|]. rewrite Hu. reflexivity. }
  rewrite Es, Hr. eauto.
Qed.

Theorem operation_failure u r src dst dst1 c e : of_crs dst = Some c -> c <> spherical -> to_spherical eqb spherical transform dst = Ok (dst1, Some c) ->
  fst (fst (exec u r src dst)) = Err e -> of_crs (snd (exec u r src dst)) = Some spherical.
Proof.
  intros Hc Hn Hd H. destruct (spherical_system _ _ _ Hd) as [S1 _]. unfold execute in *. rewrite Hd in *.
  destruct (if u then subset dst1 else Ok dst1) as [sub|]; [|exact S1].
  destruct (to_spherical eqb spherical transform src) as [[src1 bs]|]; [|exact S1].
  destruct (regrid src1 sub) as [out|]; [|exact S1]. destruct bs as [c'|].
  - destruct out as [x|]; [|exact S1]. destruct (update_crs transform x c') as [x'|]; [|exact S1].
    destruct r; [destruct (update_crs transform dst1 c); [discriminate H|exact S1]|exact S1].
  - destruct r; [destruct (update_crs transform dst1 c); [discriminate H|exact S1]|exact S1].
Qed.
End O.
