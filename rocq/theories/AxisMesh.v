(** Proofs about the distributed dimension and meshes. *)
From Coq Require Import List String Ascii ZArith Bool Lia.
From Verif Require Import Py Lib DmapModel DmapSpec DmapProofs AxisModel AxisSpec AxisProofs AxisMore AxisGroups RequestNames.
Import ListNotations.
Local Open Scope string_scope.
Local Open Scope Z_scope.

(** ** The distributed dimension *)

Lemma along_nil strict A dims : along strict A dims = [] -> dims = [].
Proof. destruct strict, dims as [|? [|? ?]]; cbn; try easy. destruct (String.eqb A "X"); [easy|]. destruct (String.eqb A "Y"); easy. Qed.

Lemma cf_good crs sph strict ms st : cf_map crs sph strict ms = Ok st -> good st.
Proof. intros H. now destruct (cf_spec _ _ _ _ _ H). Qed.

Lemma at_axis_settled strict ms a w o st : plain ms -> axis_out strict ms a w = Ok o -> at_axis st (w_key w) o -> updated_key ms st (w_key w) = None.
Proof.
  intros P O A. unfold updated_key, rd_var, rd_dims. destruct o as [[[n d] b]|]; cbn [at_axis] in A.
  - destruct A as (e & H & H1 & H2 & _). rewrite H, H1, H2. destruct d as [|]; [|reflexivity].
    destruct (axis_out_some _ _ _ _ _ _ _ P O) as (v & _ & I & D & _). symmetry in D. apply along_nil in D.
    unfold source_dims. now rewrite (dget_nodup ms n v (proj1 P) I), D.
  - now rewrite A.
Qed.

Lemma cf_settled crs sph strict ms st key : plain ms -> cf_map crs sph strict ms = Ok st -> In key axis_keys -> updated_key ms st key = None.
Proof.
  intros P H I. destruct (cf_spec _ _ _ _ _ H) as (_ & _ & T & X).
  assert (TT : forall w, In w time_level_axes -> updated_key ms st (w_key w) = None).
  { intros w J. destruct (T w J) as (o & O & A). now apply (at_axis_settled strict ms "axis" w o st). }
  assert (XX : forall key A value, In (key, A, value) [("x", "X", "longitude"); ("y", "Y", "latitude")] -> updated_key ms st key = None).
  { intros k A value J. destruct (X k A value J) as (o & o' & O & O' & AA). destruct sph.
    - destruct o' as [x|]; cbn [or_else] in AA.
      + exact (at_axis_settled strict ms "standard_name" (mkwanted k A value) _ st P (O' eq_refl) AA).
      + exact (at_axis_settled strict ms "axis" (mkwanted k A A) _ st P O AA).
    - exact (at_axis_settled strict ms "axis" (mkwanted k A A) _ st P O AA). }
  cbn in I. destruct I as [<-|[<-|[<-|[<-|[<-|[]]]]]].
  - apply (TT (mkwanted "realization" "R" "R")). cbn. auto.
  - apply (TT (mkwanted "time" "T" "T")). cbn. auto.
  - apply (TT (mkwanted "level" "Z" "Z")). cbn. auto.
  - apply (XX "x" "X" "longitude"). cbn. auto.
  - apply (XX "y" "Y" "latitude"). cbn. auto.
Qed.

Lemma dist_same st m sizes d : good st -> good m -> same3 m st "x" -> same3 m st "y" -> cf_distributed st sizes d = cf_distributed m sizes d.
Proof.
  intros G G' (x1 & x2 & _) (y1 & y2 & _). unfold cf_distributed, first_dim.
  rewrite !var_read, !dims_read by (try assumption; cbn; tauto). now rewrite x1, x2, y1, y2.
Qed.

Definition at_path (st : storage) (d : decomp) (g : gmeta) (path : list string) : res (list string * option string) :=
  match group_at g path with
  | None => Err KeyError
  | Some sub =>
      if zlen (g_dims sub) =? 0 then Ok (path, None)
      else match map_at st path with
           | Err DimensionMapError => Ok (path, None)
           | Err e => Err e
           | Ok m => do n <- cf_distributed m (g_dims sub) d; Ok (path, n)
           end
  end.

Lemma map_at_groups st st' path : path <> [] -> dg st' "groups" = dg st "groups" -> map_at st' path = map_at st path.
Proof. destruct path as [|a rest]; [easy|]. intros _ E. cbn [map_at]. now rewrite E. Qed.

Lemma distributed_spec crs sph d g st m : plain (g_vars g) -> from_metadata (cf_read crs sph) g = Ok st -> cf_read crs sph g = Ok m ->
  exists st', distributed crs sph d None g = map_res (at_path st' d g) (all_paths g) /\
    cf_distributed st' (g_dims g) d = cf_distributed m (g_dims g) d /\ forall path, path <> [] -> map_at st' path = map_at st path.
Proof.
  intros P H F. pose proof (cf_good _ _ _ _ _ F) as GM.
  assert (GA : forall k, k <> "groups" -> dg st k = dg m k) by (intros k N; now apply (groups_axes crs sph g)).
  assert (GS : good st).
  { intros k I. rewrite GA; [now apply GM|]. intros ->. cbn in I. intuition discriminate. }
  destruct (update_dimensions_spec (g_vars g) st GS) as (st' & U & G' & O & A).
  assert (SA : forall key, In key axis_keys -> same3 m st' key).
  { intros key I. assert (K : key <> "groups") by (intros ->; cbn in I; intuition discriminate).
    specialize (A key I). unfold after_update in A.
    assert (E : updated_key (g_vars g) st key = None).
    { pose proof (cf_settled crs sph false (g_vars g) m key P F I) as E. unfold updated_key, rd_var, rd_dims in *. now rewrite (GA key K). }
    rewrite E in A. unfold same3, rd_var, rd_dims, rd_bounds in *. now rewrite <- (GA key K). }
  exists st'. split; [|split].
  - unfold distributed. change (fun g0 => cf_map crs sph false (g_vars g0)) with (cf_read crs sph). rewrite H. cbn [bind]. rewrite U. cbn [bind]. reflexivity.
  - apply dist_same; [exact G'|exact GM|apply SA; cbn; tauto|apply SA; cbn; tauto].
  - intros path N. apply map_at_groups; [exact N|]. apply O. cbn. intuition discriminate.
Qed.

Lemma map_res_in {A B} (f : A -> res B) l r y : map_res f l = Ok r -> In y r -> exists x, In x l /\ f x = Ok y.
Proof.
  revert r. induction l as [|a l IH]; intros r H I; cbn [map_res] in H.
  - injection H as <-. destruct I.
  - apply bind_Ok in H. destruct H as (b & H1 & H). apply bind_Ok in H. destruct H as (bs & H2 & H). injection H as <-.
    destruct I as [<-|I]; [exists a; split; [now left|exact H1]|]. destruct (IH bs H2 I) as (x & J & E). exists x. split; [now right|exact E].
Qed.
Lemma map_res_fwd {A B} (f : A -> res B) l r x : map_res f l = Ok r -> In x l -> exists y, In y r /\ f x = Ok y.
Proof.
  revert r. induction l as [|a l IH]; intros r H I; [destruct I|]. cbn [map_res] in H.
  apply bind_Ok in H. destruct H as (b & H1 & H). apply bind_Ok in H. destruct H as (bs & H2 & H). injection H as <-.
  destruct I as [<-|I]; [exists b; split; [now left|exact H1]|]. destruct (IH bs H2 I) as (y & J & E). exists y. split; [now right|exact E].
Qed.

Lemma at_path_fst st d g path y : at_path st d g path = Ok y -> fst y = path.
Proof.
  unfold at_path. destruct (group_at g path) as [sub|]; [|discriminate]. destruct (zlen (g_dims sub) =? 0); [now intros [= <-]|].
  destruct (map_at st path) as [m|e].
  - destruct (cf_distributed m (g_dims sub) d); cbn [bind]; [now intros [= <-]|discriminate].
  - destruct e; try discriminate; now intros [= <-].
Qed.

Lemma paths_root g : exists rest, all_paths g = [] :: rest.
Proof. destruct g. cbn [all_paths]. now eexists. Qed.
Lemma paths_child g k sub : In (k, sub) (g_groups g) -> In [k] (all_paths g).
Proof.
  destruct g as [v d groups]. cbn [g_groups all_paths]. intros I. right.
  induction groups as [|[k' s'] t IH]; [destruct I|]. apply in_or_app. destruct I as [[= -> ->]|I].
  - left. destruct (paths_root sub) as [rest E]. rewrite E. now left.
  - right. now apply IH.
Qed.

Lemma dims_zero (l : list (string * Z)) : l <> [] -> (zlen l =? 0) = false.
Proof. intros N. pose proof (proj2 (dims_nonempty l) N) as H. now apply negb_true_iff in H. Qed.

Lemma distributed_root crs sph d g st m l : plain (g_vars g) -> from_metadata (cf_read crs sph) g = Ok st -> cf_read crs sph g = Ok m ->
  g_dims g <> [] -> distributed crs sph d None g = Ok l -> exists n, cf_distributed m (g_dims g) d = Ok n /\ In ([], n) l.
Proof.
  intros P H F N D. destruct (distributed_spec crs sph d g st m P H F) as (st' & E & C & _). rewrite E in D.
  destruct (paths_root g) as [rest R]. destruct (map_res_fwd _ _ _ [] D) as (y & J & Y); [rewrite R; now left|].
  unfold at_path in Y. cbn [group_at map_at] in Y. rewrite (dims_zero _ N), C in Y.
  destruct (cf_distributed m (g_dims g) d) as [n|]; cbn [bind] in Y; [|discriminate]. injection Y as <-. now exists n.
Qed.

Lemma distributed_root_err crs sph d g st m e : plain (g_vars g) -> from_metadata (cf_read crs sph) g = Ok st -> cf_read crs sph g = Ok m ->
  g_dims g <> [] -> cf_distributed m (g_dims g) d = Err e -> distributed crs sph d None g = Err e.
Proof.
  intros P H F N D. destruct (distributed_spec crs sph d g st m P H F) as (st' & E & C & _). rewrite E.
  destruct (paths_root g) as [rest R]. rewrite R. cbn [map_res]. unfold at_path at 1. cbn [group_at map_at]. now rewrite (dims_zero _ N), C, D.
Qed.

Lemma distributed_alone crs sph d g m n : plain (g_vars g) -> g_groups g = [] -> cf_read crs sph g = Ok m -> g_dims g <> [] ->
  cf_distributed m (g_dims g) d = Ok n -> distributed crs sph d None g = Ok [([], n)].
Proof.
  intros P G F N D. assert (H : from_metadata (cf_read crs sph) g = Ok m).
  { unfold from_metadata. rewrite F. cbn [bind]. destruct g as [v s gr]. cbn [g_groups] in G. subst gr. reflexivity. }
  destruct (distributed_spec crs sph d g m m P H F) as (st' & E & C & _). rewrite E.
  replace (all_paths g) with ([[]] : list (list string)) by (destruct g as [v s gr]; cbn [g_groups] in G; now subst gr).
  cbn [map_res]. unfold at_path at 1. cbn [group_at map_at]. rewrite (dims_zero _ N), C, D. reflexivity.
Qed.

Lemma distributed_child crs sph d g st k sub l : plain (g_vars g) -> from_metadata (cf_read crs sph) g = Ok st ->
  NoDup (map fst (below g)) -> In (k, sub) (g_groups g) -> g_dims sub <> [] -> distributed crs sph d None g = Ok l ->
  exists m n, cf_read crs sph sub = Ok m /\ cf_distributed m (g_dims sub) d = Ok n /\ In ([k], n) l.
Proof.
  intros P H ND I N D. destruct (from_metadata_spec crs sph g st H) as (m0 & F & _).
  destruct (distributed_spec crs sph d g st m0 P H F) as (st' & E & _ & M). rewrite E in D.
  destruct (map_res_fwd _ _ _ [k] D (paths_child g k sub I)) as (y & J & Y).
  assert (B : dg (below g) k = Some sub) by (apply dget_nodup; [exact ND|now apply in_below]).
  assert (GA : group_at g [k] = Some sub).
  { cbn [group_at]. destruct (dg (g_groups g) k) as [s'|] eqn:Eg.
    - apply dget_in in Eg. apply in_below in Eg. rewrite (dget_nodup _ _ _ ND Eg) in B. now injection B as ->.
    - exfalso. apply dget_none in Eg. apply Eg. apply in_map_iff. now exists (k, sub). }
  unfold at_path in Y. rewrite GA, (dims_zero _ N), (M [k]) in Y by discriminate.
  rewrite (groups_flat crs sph g st k H), B in Y.
  assert (FM : exists m, cf_read crs sph sub = Ok m).
  { destruct (from_metadata_spec crs sph g st H) as (m1 & F1 & _ & _ & Q). specialize (Q k).
    rewrite (bare_gs m1 (cf_read_bare crs sph g m1 F1)) in Q. cbn [dget] in Q. rewrite B in Q. destruct Q as (m & Q & _). now exists m. }
  destruct FM as [m FM]. rewrite FM in Y. destruct (cf_distributed m (g_dims sub) d) as [n|] eqn:C; cbn [bind] in Y; [|discriminate].
  injection Y as <-. exists m, n. auto.
Qed.

Lemma distributed_nested crs sph d g st l a b rest n : plain (g_vars g) -> from_metadata (cf_read crs sph) g = Ok st ->
  distributed crs sph d None g = Ok l -> In (a :: b :: rest, n) l -> n = None.
Proof.
  intros P H D I. destruct (from_metadata_spec crs sph g st H) as (m0 & F & _).
  destruct (distributed_spec crs sph d g st m0 P H F) as (st' & E & _ & M). rewrite E in D.
  destruct (map_res_in _ _ _ _ D I) as (path & _ & Y). pose proof (at_path_fst _ _ _ _ _ Y) as Q. cbn [fst] in Q. subst path.
  unfold at_path in Y. destruct (group_at g (a :: b :: rest)) as [sub|]; [|discriminate].
  destruct (zlen (g_dims sub) =? 0); [now injection Y as <-|].
  rewrite (M (a :: b :: rest)) in Y by discriminate. rewrite (groups_nested crs sph g st a b rest H) in Y. now injection Y as <-.
Qed.

Lemma truthy_name ms k : plain ms -> In k (map fst ms) -> truthy (Some k) = true.
Proof.
  intros P I. apply in_map_iff in I. destruct I as ((k' & v) & E & I). cbn [fst] in E. subst k'. destruct (proj2 P k v I) as (_ & N & _).
  cbn [truthy]. destruct (String.eqb_spec k ""); [contradiction|reflexivity].
Qed.

Lemma cf_var_in crs sph strict ms m key k : plain ms -> cf_map crs sph strict ms = Ok m -> In key axis_keys -> var_of m key = Ok (Some k) -> In k (map fst ms).
Proof.
  intros P H I V. destruct (cf_spec _ _ _ _ _ H) as (_ & _ & T & X).
  assert (Q : forall a w o, w_key w = key -> axis_out strict ms a w = Ok o -> at_axis m key o -> In k (map fst ms)).
  { intros a w o K O A. apply (at_axis_shown m key o I) in A. apply (found_iff strict ms a w o m key P O A k) in V.
    apply (candidate_in _ _ _ _ _ _ (proj1 V)). }
  assert (XX : forall A value, In (key, A, value) [("x", "X", "longitude"); ("y", "Y", "latitude")] -> In k (map fst ms)).
  { intros A value J. destruct (X key A value J) as (o & o' & O & O' & AA). destruct sph; [destruct o' as [x|]; cbn [or_else] in AA|].
    - exact (Q "standard_name" (mkwanted key A value) _ eq_refl (O' eq_refl) AA).
    - exact (Q "axis" (mkwanted key A A) _ eq_refl O AA).
    - exact (Q "axis" (mkwanted key A A) _ eq_refl O AA). }
  cbn in I. destruct I as [<-|[<-|[<-|[<-|[<-|[]]]]]].
  - destruct (T (mkwanted "realization" "R" "R")) as (o & O & A); [cbn; auto|]. exact (Q "axis" (mkwanted "realization" "R" "R") o eq_refl O A).
  - destruct (T (mkwanted "time" "T" "T")) as (o & O & A); [cbn; auto|]. exact (Q "axis" (mkwanted "time" "T" "T") o eq_refl O A).
  - destruct (T (mkwanted "level" "Z" "Z")) as (o & O & A); [cbn; auto|]. exact (Q "axis" (mkwanted "level" "Z" "Z") o eq_refl O A).
  - apply (XX "X" "longitude"). cbn. auto.
  - apply (XX "Y" "latitude"). cbn. auto.
Qed.

Section Pair.
Variables (crs : option string) (sph : bool) (ms : vmetas) (m : storage) (kx ky : string).
Hypothesis P : plain ms.
Hypothesis F : cf_map crs sph false ms = Ok m.
Hypothesis VX : var_of m "x" = Ok (Some kx).
Hypothesis VY : var_of m "y" = Ok (Some ky).

Lemma pair_truthy : truthy (Some kx) && truthy (Some ky) = true.
Proof.
  rewrite (truthy_name ms kx P), (truthy_name ms ky P); [reflexivity| |].
  - apply (cf_var_in crs sph false ms m "y" ky P F); [cbn; tauto|exact VY].
  - apply (cf_var_in crs sph false ms m "x" kx P F); [cbn; tauto|exact VX].
Qed.

Lemma cf_larger sizes dx dy rx ry n : dims_of m "x" = Ok (dx :: rx) -> dims_of m "y" = Ok (dy :: ry) ->
  cf_distributed m sizes DOcgis = Ok n -> exists name, n = Some name /\ larger sizes dx dy name.
Proof.
  intros DX DY H. unfold cf_distributed in H. rewrite VX, VY in H. cbn [bind] in H. rewrite pair_truthy in H.
  unfold first_dim in H. rewrite DX, DY in H. cbn in H.
  destruct (dg sizes dx) as [a|] eqn:Ea; [|discriminate]. destruct (dg sizes dy) as [b|] eqn:Eb; [|discriminate].
  injection H as <-. eexists. split; [reflexivity|]. exists a, b. split; [exact Ea|]. split; [exact Eb|].
  destruct (Z.ltb_spec a b); [right|left]; now split.
Qed.
Lemma cf_larger_ok sizes dx dy rx ry : dims_of m "x" = Ok (dx :: rx) -> dims_of m "y" = Ok (dy :: ry) ->
  In dx (map fst sizes) -> In dy (map fst sizes) -> exists n, cf_distributed m sizes DOcgis = Ok n.
Proof.
  intros DX DY IX IY. unfold cf_distributed. rewrite VX, VY. cbn [bind]. rewrite pair_truthy.
  unfold first_dim. rewrite DX, DY. cbn. apply dget_some_iff in IX. apply dget_some_iff in IY. destruct IX as [a ->], IY as [b ->]. now eexists.
Qed.
Lemma cf_esmf sizes dx rx : dims_of m "x" = Ok (dx :: rx) -> cf_distributed m sizes DEsmf = Ok (Some dx).
Proof.
  intros DX. unfold cf_distributed. rewrite VX, VY. cbn [bind]. rewrite pair_truthy. unfold first_dim. rewrite DX. reflexivity.
Qed.
Lemma cf_scalar sizes d : dims_of m "x" = Ok [] -> cf_distributed m sizes d = Err IndexError.
Proof.
  intros DX. unfold cf_distributed. rewrite VX, VY. cbn [bind]. rewrite pair_truthy. unfold first_dim. rewrite DX. reflexivity.
Qed.
Lemma cf_missing sizes dx dy rx ry : dims_of m "x" = Ok (dx :: rx) -> dims_of m "y" = Ok (dy :: ry) ->
  ~ In dx (map fst sizes) \/ ~ In dy (map fst sizes) -> cf_distributed m sizes DOcgis = Err KeyError.
Proof.
  intros DX DY IX. unfold cf_distributed. rewrite VX, VY. cbn [bind]. rewrite pair_truthy.
  unfold first_dim. rewrite DX, DY. cbn. destruct IX as [IX|IX]; apply dget_none in IX; rewrite IX; [reflexivity|]. now destruct (dg sizes dx).
Qed.
End Pair.

Lemma cf_absent m sizes d : good m -> var_of m "x" = Ok None \/ var_of m "y" = Ok None -> cf_distributed m sizes d = Ok None.
Proof.
  intros G. unfold cf_distributed. rewrite !var_read by (try assumption; cbn; tauto).
  intros [[= ->]|[= ->]]; cbn [bind truthy andb]; [reflexivity|]. now rewrite andb_false_r.
Qed.

(** ** Meshes *)

Definition tslot (st : storage) : Prop := dg st "topology" = None \/ exists ts, dg st "topology" = Some (ITopology ts) /\ forall n x, dg ts n = Some x -> x <> None.

Lemma on_topology_spec st name f st' : tslot st -> on_topology st name f = Ok st' ->
  exists s', f (match topology_of st name with Some s => s | None => [] end) = Ok s' /\ topology_of st' name = Some s' /\
    (forall n, n <> name -> topology_of st' n = topology_of st n) /\ tslot st'.
Proof.
  intros T. unfold on_topology, get_topology, topology_of. destruct T as [E|(ts & E & NN)]; rewrite E; cbv iota zeta; cbn [bind].
  - destruct (f []) as [s'|]; cbn [bind]; [|discriminate]. rewrite dget_same. intros [= <-]. exists s'. split; [reflexivity|].
    rewrite dset_dset, dget_same. cbn [dset]. rewrite String.eqb_refl. cbn [dget]. rewrite String.eqb_refl. split; [reflexivity|]. split.
    + intros n N. cbn [dget]. destruct (String.eqb_spec n name); [contradiction|reflexivity].
    + right. eexists. split; [apply dget_same|]. intros n x. cbn [dget]. destruct (String.eqb n name); [|discriminate]. now intros [= <-].
  - destruct (dg ts name) as [o|] eqn:Eo.
    + destruct o as [[s]|]; [|now destruct (NN name None Eo)]. cbn [bind]. destruct (f s) as [s'|]; cbn [bind]; [|discriminate].
      rewrite dget_same. intros [= <-]. exists s'. split; [reflexivity|]. rewrite dset_dset, (dset_id ts name _ Eo), dget_same, dget_same. split; [reflexivity|]. split.
      * intros n N. now rewrite dget_other.
      * right. eexists. split; [apply dget_same|]. intros n x. destruct (string_dec n name) as [->|N]; [rewrite dget_same; now intros [= <-]|].
        rewrite dget_other by exact N. apply NN.
    + cbn [bind]. destruct (f []) as [s'|]; cbn [bind]; [|discriminate]. rewrite dget_same. intros [= <-]. exists s'. split; [reflexivity|].
      rewrite dset_dset, dget_same, dset_dset, dget_same. split; [reflexivity|]. split.
      * intros n N. now rewrite dget_other.
      * right. eexists. split; [apply dget_same|]. intros n x. destruct (string_dec n name) as [->|N]; [rewrite dget_same; now intros [= <-]|].
        rewrite dget_other by exact N. apply NN.
Qed.

Lemma topology_read st name : tslot st -> snd (get_topology st name false) = Ok (option_map DMap (topology_of st name)).
Proof.
  intros T. unfold get_topology, topology_of. destruct T as [E|(ts & E & NN)]; rewrite E; [reflexivity|]. cbv zeta. cbn [snd].
  destruct (dg ts name) as [[[s]|]|] eqn:Eo; reflexivity.
Qed.

Fixpoint last_host (ms : vmetas) (host : option vmeta) : option vmeta :=
  match ms with
  | [] => host
  | (_, v) :: t => last_host t (if has_attr v "cf_role" "mesh_topology" then Some v else host)
  end.

Lemma set_host st n (a : list (string * string)) : good st -> exists e, settle (set_variable st "attribute_host" (DName n) None None (Some a) None false None) = Ok (ds st "attribute_host" (IEntry e)).
Proof.
  intros G. unfold set_variable. change (existsb (String.eqb "attribute_host") special_keys) with false. cbv iota. cbn [fill_from_variable dvar_name].
  destruct (good_entry st "attribute_host" G) as [e0 E0]; [cbn; tauto|]. rewrite E0. unfold settle. cbn [snd fst].
  eexists. rewrite (put_after_entry _ _ _ _ _ E0). unfold put_entry. reflexivity.
Qed.

Lemma find_host_spec : forall ms host st, good st -> (forall k v, In (k, v) ms -> exists a, m_attrs v = Some a) ->
  exists st', find_host ms host st = Ok (last_host ms host, st') /\ forall k, k <> "attribute_host" -> dg st' k = dg st k.
Proof.
  induction ms as [|[k v] ms IH]; intros host st G A.
  - exists st. now split.
  - cbn [find_host last_host]. destruct (A k v (or_introl eq_refl)) as [a E]. rewrite E.
    assert (A' : forall k v, In (k, v) ms -> exists a, m_attrs v = Some a) by (intros k0 v0 I; apply (A k0); now right).
    destruct (has_attr v "cf_role" "mesh_topology").
    + destruct (set_host st (m_name v) a G) as [e Es].
      match goal with |- context [settle ?t] => replace (settle t) with (Ok (ds st "attribute_host" (IEntry e))) by (symmetry; exact Es) end. cbn [bind].
      destruct (IH (Some v) (ds st "attribute_host" (IEntry e)) (good_set _ _ _ G) A') as (st' & E' & O). exists st'. split; [exact E'|].
      intros k' N. rewrite O by exact N. now apply dget_other.
    + apply (IH host st G A').
Qed.

Lemma last_host_app a b host : last_host (a ++ b)%list host = last_host b (last_host a host).
Proof. revert host. induction a as [|[k v] a IH]; intros host; [reflexivity|]. cbn [app last_host]. apply IH. Qed.
Lemma last_host_none l host : (forall k v, In (k, v) l -> attr v "cf_role" <> Some "mesh_topology") -> last_host l host = host.
Proof.
  revert host. induction l as [|[k v] l IH]; intros host H; [reflexivity|]. cbn [last_host].
  destruct (has_attr v "cf_role" "mesh_topology") eqn:E; [apply has_attr_iff in E; now destruct (H k v (or_introl eq_refl))|].
  apply IH. intros k' v' I. apply (H k'). now right.
Qed.
Lemma mesh_host_last ms host : mesh_host ms host -> last_host ms None = Some host.
Proof.
  intros (b & k & a & -> & H & N). rewrite last_host_app. cbn [last_host]. apply has_attr_iff in H. rewrite H. now apply last_host_none.
Qed.

Lemma bare_tslot st : bare st -> tslot st.
Proof. intros [_ H]. now left. Qed.

Lemma set_named_get st k n d st' : settle (set_variable st k (DName n) (Some d) None None None false None) = Ok st' -> In k entry_keys -> k <> "crs" ->
  var_of st' k = Ok (Some n) /\ dims_of st' k = Ok d /\ forall k', k' <> k -> dg st' k' = dg st k'.
Proof.
  unfold settle. destruct (set_variable st k (DName n) (Some d) None None None false None) as [s [e|]] eqn:E; cbn [snd fst]; [discriminate|].
  intros [= ->] K C. destruct (set_variable_ok _ _ _ _ _ _ _ _ _ _ E) as (_ & _ & _ & [[F _]|(name & b & d' & N & Fl & ->)]); [discriminate|].
  cbn [dvar_name] in N. injection N as <-. cbn in Fl. injection Fl as <- <-.
  unfold var_of, dims_of, get_variable, get_dimension, put_entry. split; [|split].
  - erewrite get_element_full; [reflexivity|exact K|exact C|apply dget_same|reflexivity].
  - erewrite get_element_full; [reflexivity|exact K|exact C|apply dget_same|reflexivity].
  - intros k' N. now apply dget_other.
Qed.

Lemma var_of_same st st' k : dg st k = dg st' k -> var_of st k = var_of st' k /\ dims_of st k = dims_of st' k.
Proof.
  intros E. unfold var_of, dims_of, get_variable, get_dimension, get_element, get_entry. rewrite E.
  destruct (String.eqb k "crs"); [now split|]. destruct (negb _); [now split|]. destruct (dg st' k) as [[]|]; cbn; try now split.
  destruct (et_variable e), (et_dimension e); now split.
Qed.

Section Ugrid.
Variables (crs : option string) (strict : bool) (ms : vmetas) (host : vmeta) (st : storage).
Hypothesis P : plain ms.
Hypothesis Hh : mesh_host ms host.
Hypothesis Hm : ugrid_map crs strict ms = Ok st.

Lemma ugrid_steps : exists st0 st1 st2, tslot st0 /\ topology_of st0 "point" = None /\ topology_of st0 "polygon" = None /\ topology_of st0 "line" = None /\
  host_coordinates host "face_coordinates" "point" ms st0 = Ok st1 /\ host_coordinates host "node_coordinates" "polygon" ms st1 = Ok st2 /\
  match attr host "node_coordinates" with
  | None => st = st2
  | Some _ => exists c d, attr host "face_node_connectivity" = Some c /\ first_dimension ms c = Ok d /\
      on_topology st2 "polygon" (fun t => settle (set_variable t "element_node_connectivity" (DName c) (Some [d]) None None None false None)) = Ok st
  end.
Proof.
  pose proof Hm as H. unfold ugrid_map in H. apply bind_Ok in H. destruct H as (s & A & H).
  destruct (abstract_spec "netcdf-ugrid" crs strict ms s eq_refl A) as (G & B & _).
  destruct (find_host_spec ms None s G) as (st0 & E & O).
  { intros k v I. now destruct (proj2 P k v I) as (_ & _ & X). }
  rewrite E in H. cbn [bind fst snd] in H. rewrite (mesh_host_last ms host Hh) in H.
  apply bind_Ok in H. destruct H as (st1 & H1 & H). apply bind_Ok in H. destruct H as (st2 & H2 & H).
  assert (T0 : dg st0 "topology" = None) by (rewrite O by discriminate; apply B).
  exists st0, st1, st2. unfold topology_of. rewrite T0. split; [now left|]. split; [reflexivity|]. split; [reflexivity|]. split; [reflexivity|]. split; [exact H1|]. split; [exact H2|].
  destruct (attr host "node_coordinates"); [|now injection H]. destruct (attr host "face_node_connectivity") as [c|]; [|discriminate].
  apply bind_Ok in H. destruct H as (d & D & H). exists c, d. auto.
Qed.

Lemma host_coordinates_spec target topo s s' : tslot s -> host_coordinates host target topo ms s = Ok s' ->
  tslot s' /\ (forall n, n <> topo -> topology_of s' n = topology_of s n) /\
  match attr host target with
  | None => topology_of s' topo = topology_of s topo
  | Some x => exists t, set_coordinates ms (split_space x) ["x"; "y"; "level"] (match topology_of s topo with Some t => t | None => [] end) = Ok t /\ topology_of s' topo = Some t
  end.
Proof.
  intros T. unfold host_coordinates. destruct (attr host target) as [x|].
  - intros H. destruct (on_topology_spec _ _ _ _ T H) as (t & F & E & O & T'). split; [exact T'|]. split; [exact O|]. now exists t.
  - intros [= <-]. auto.
Qed.

Lemma ugrid_points : attr host "node_coordinates" = None -> ugrid_distributed st = Err ValueError.
Proof.
  intros N. destruct ugrid_steps as (st0 & st1 & st2 & T0 & P0 & Q0 & L0 & H1 & H2 & E). rewrite N in E. subst st2.
  destruct (host_coordinates_spec _ _ _ _ T0 H1) as (T1 & O1 & _). destruct (host_coordinates_spec _ _ _ _ T1 H2) as (T2 & O2 & X). rewrite N in X.
  assert (A : topology_of st "polygon" = None) by (rewrite X, O1, Q0 by discriminate; reflexivity).
  assert (B : topology_of st "line" = None) by (rewrite O2, O1, L0 by discriminate; reflexivity).
  unfold ugrid_distributed, element_dim. rewrite !(topology_read st _ T2), A, B. reflexivity.
Qed.

Lemma ugrid_elements x : attr host "node_coordinates" = Some x -> exists c v d rest,
  attr host "face_node_connectivity" = Some c /\ In (c, v) ms /\ m_dims v = d :: rest /\ ugrid_distributed st = Ok d.
Proof.
  intros N. destruct ugrid_steps as (st0 & st1 & st2 & T0 & P0 & Q0 & L0 & H1 & H2 & E). rewrite N in E. destruct E as (c & d & C & D & H3).
  destruct (host_coordinates_spec _ _ _ _ T0 H1) as (T1 & O1 & _). destruct (host_coordinates_spec _ _ _ _ T1 H2) as (T2 & O2 & X).
  destruct (on_topology_spec _ _ _ _ T2 H3) as (t & F & E & O3 & T3).
  destruct (set_named_get _ _ _ _ _ F) as (V & DD & _); [cbn; tauto|discriminate|].
  unfold first_dimension in D. destruct (dg ms c) as [v|] eqn:Ec; [|discriminate]. apply dget_in in Ec.
  destruct (m_dims v) as [|d0 rest] eqn:Em; [discriminate|]. cbn in D. injection D as ->.
  exists c, v, d, rest. split; [exact C|]. split; [exact Ec|]. split; [exact Em|].
  unfold ugrid_distributed, element_dim. rewrite (topology_read st "polygon" T3), E. cbn [option_map bind]. rewrite V. cbn [bind]. unfold first_dim. rewrite DD. reflexivity.
Qed.

(** The coordinates of the nodes. *)
Lemma ugrid_nodes a b : attr host "node_coordinates" = Some (String.append a (String.append " " b)) -> ~ In "" [a; b] ->
  split_space (String.append a (String.append " " b)) = [a; b] -> exists t, topology_of st "polygon" = Some t /\ var_of t "x" = Ok (Some a) /\ var_of t "y" = Ok (Some b).
Proof.
  intros N _ S'. destruct ugrid_steps as (st0 & st1 & st2 & T0 & P0 & Q0 & L0 & H1 & H2 & E). rewrite N in E. destruct E as (c & d & C & D & H3).
  destruct (host_coordinates_spec _ _ _ _ T0 H1) as (T1 & O1 & _). destruct (host_coordinates_spec _ _ _ _ T1 H2) as (T2 & O2 & X).
  destruct (on_topology_spec _ _ _ _ T2 H3) as (t & F & E & O3 & T3). exists t. split; [exact E|].
  destruct (set_named_get _ _ _ _ _ F) as (_ & _ & K); [cbn; tauto|discriminate|].
  rewrite N in X. destruct X as (t2 & S2 & E2). rewrite E2 in F, K. rewrite S' in S2. cbn [set_coordinates] in S2.
  apply bind_Ok in S2. destruct S2 as (d1 & _ & S2). apply bind_Ok in S2. destruct S2 as (s1 & A1 & S2).
  apply bind_Ok in S2. destruct S2 as (d2 & _ & S2). apply bind_Ok in S2. destruct S2 as (s2 & A2 & S2). injection S2 as <-.
  destruct (set_named_get _ _ _ _ _ A1) as (V1 & _ & K1); [cbn; tauto|discriminate|].
  destruct (set_named_get _ _ _ _ _ A2) as (V2 & _ & K2); [cbn; tauto|discriminate|]. split.
  - rewrite (proj1 (var_of_same t s2 "x" (K "x" ltac:(discriminate)))), (proj1 (var_of_same s2 s1 "x" (K2 "x" ltac:(discriminate)))). exact V1.
  - rewrite (proj1 (var_of_same t s2 "y" (K "y" ltac:(discriminate)))). exact V2.
Qed.
End Ugrid.

Lemma split_word s : no_space s -> split_space s = [s].
Proof.
  induction s as [|c s IH]; [reflexivity|]. intros [N H]. cbn [split_space]. rewrite (IH H). destruct (Ascii.eqb_spec c " "%char) as [->|_]; [now destruct N|reflexivity].
Qed.
Lemma split_cons s t : no_space s -> split_space (String.append s (String " "%char t)) = s :: split_space t.
Proof.
  induction s as [|c s IH]; intros H.
  - cbn [String.append split_space]. destruct (split_space t) as [|w ws] eqn:E; [|reflexivity].
    exfalso. clear H. revert E. destruct t as [|c t]; [discriminate|]. cbn [split_space]. destruct (split_space t) eqn:E2.
    + intros _. clear c. revert E2. induction t as [|c t IHt]; [discriminate|]. cbn [split_space]. destruct (split_space t) eqn:E3; [now apply IHt|]. destruct (Ascii.eqb c " "%char); discriminate.
    + destruct (Ascii.eqb c " "%char); discriminate.
  - destruct H as [N H]. cbn [String.append split_space]. rewrite (IH H). destruct (Ascii.eqb_spec c " "%char) as [->|_]; [now destruct N|reflexivity].
Qed.
