(** Proofs about the model of netCDF files. *)
From Verif Require Import Py Lib AverModel AverProofs NcModel NcSpec.
Local Open Scope string_scope.
Local Open Scope Z_scope.

Notation dg := (dget String.eqb).
Notation ds := (dset String.eqb).

Lemma dg_set_same {V} (d : list (string * V)) k v : dg (ds d k v) k = Some v.
Proof.
  induction d as [|[k' v'] t IH]; cbn [dset dget]; [now rewrite String.eqb_refl|].
  destruct (String.eqb k k') eqn:E; cbn [dget]; rewrite E; [reflexivity|exact IH].
Qed.
Lemma dg_set_other {V} (d : list (string * V)) k k2 v : k2 <> k -> dg (ds d k v) k2 = dg d k2.
Proof.
  intro N. induction d as [|[k' v'] t IH]; cbn [dset dget].
  - apply String.eqb_neq in N. now rewrite N.
  - destruct (String.eqb k k') eqn:E; cbn [dget]; [|now rewrite IH].
    apply String.eqb_eq in E. subst k'. apply String.eqb_neq in N. now rewrite N.
Qed.
Lemma dg_app {V} (a b : list (string * V)) k : dg (a ++ b)%list k = match dg a k with Some x => Some x | None => dg b k end.
Proof. induction a as [|[k' v'] t IH]; cbn [dget app]; [reflexivity|]. destruct (String.eqb k k'); [reflexivity|exact IH]. Qed.
Lemma dg_none {V} (d : list (string * V)) k : dg d k = None <-> ~ In k (map fst d).
Proof.
  induction d as [|[k' v'] t IH]; cbn [dget map fst In]; [tauto|].
  destruct (String.eqb k k') eqn:E.
  - apply String.eqb_eq in E. subst. split; [discriminate|]. intro H. exfalso. apply H. now left.
  - apply String.eqb_neq in E. rewrite IH. split; [|tauto]. intros H [X|X]; [now symmetry in X|tauto].
Qed.
Lemma dg_in {V} (d : list (string * V)) k v : dg d k = Some v -> In (k, v) d.
Proof.
  induction d as [|[k' v'] t IH]; cbn [dget]; [discriminate|].
  destruct (String.eqb k k') eqn:E; [|now right; apply IH].
  apply String.eqb_eq in E. intro X. injection X as ->. subst. now left.
Qed.
Lemma dg_iff {V} (d : list (string * V)) k v : NoDup (map fst d) -> (dg d k = Some v <-> In (k, v) d).
Proof.
  intro N. split; [apply dg_in|]. induction d as [|[k' v'] t IH]; cbn [dget map fst In] in *; [easy|].
  inversion N as [|? ? N1 N2]. subst. intros [X|X].
  - injection X as -> ->. now rewrite String.eqb_refl.
  - destruct (String.eqb k k') eqn:E; [|now apply IH]. apply String.eqb_eq in E. subst. exfalso. apply N1.
    change k' with (fst (k', v)). now apply in_map.
Qed.
Lemma keys_set {V} (d : list (string * V)) k v x : dg d k = Some x -> map fst (ds d k v) = map fst d.
Proof.
  induction d as [|[k' v'] t IH]; cbn [dget dset]; [discriminate|].
  destruct (String.eqb k k') eqn:E; [reflexivity|]. intro H. cbn [map fst]. now rewrite IH.
Qed.

Lemma F2_length {A B} (R : A -> B -> Prop) l1 l2 : Forall2 R l1 l2 -> List.length l1 = List.length l2.
Proof. induction 1; cbn [List.length]; congruence. Qed.
Lemma F2_imp {A B} (R Q : A -> B -> Prop) l1 l2 : (forall a b, In a l1 -> In b l2 -> R a b -> Q a b) -> Forall2 R l1 l2 -> Forall2 Q l1 l2.
Proof.
  intros H F. induction F as [|a b l1 l2 r F IH]; constructor.
  - apply H; [now left|now left|exact r].
  - apply IH. intros x y X Y. apply H; now right.
Qed.
Lemma F2_and {A B} (R Q : A -> B -> Prop) l1 l2 : Forall2 R l1 l2 -> Forall2 Q l1 l2 -> Forall2 (fun a b => R a b /\ Q a b) l1 l2.
Proof. intro F. induction F; intro K; inversion K; subst; constructor; auto. Qed.
Lemma F2_left {A B} (R : A -> B -> Prop) l1 l2 a : Forall2 R l1 l2 -> In a l1 -> exists b, In b l2 /\ R a b.
Proof. intro F. induction F as [|x y l1 l2 r F IH]; [easy|]; intros [E|I]; subst; [exists y; split; [now left|exact r]|]. destruct (IH I) as [b [Hb Rb]]. exists b. split; [now right|exact Rb]. Qed.
Lemma F2_right {A B} (R : A -> B -> Prop) l1 l2 b : Forall2 R l1 l2 -> In b l2 -> exists a, In a l1 /\ R a b.
Proof. intro F. induction F as [|x y l1 l2 r F IH]; [easy|]; intros [E|I]; subst; [exists x; split; [now left|exact r]|]. destruct (IH I) as [a [Ha Ra]]. exists a. split; [now right|exact Ra]. Qed.

Lemma inside_iff l idx : inside l idx = true <-> in_block l idx.
Proof.
  unfold inside, in_block. revert idx. induction l as [|d t IH]; intros [|i s]; cbn [combine forallb List.length Nat.eqb andb].
  - split; constructor.
  - split; [discriminate|intro H; inversion H].
  - split; [discriminate|intro H; inversion H].
  - specialize (IH s). cbn [fst snd]. split.
    + intro H. rewrite !andb_true_iff in H. destruct H as [L [[A B] R]]. constructor.
      * apply Nat.leb_le in A. apply Nat.ltb_lt in B. lia.
      * apply IH. now rewrite andb_true_iff.
    + intro H. inversion H as [|? ? ? ? A B]. subst. apply IH in B. rewrite andb_true_iff in B. destruct B as [L R].
      rewrite !andb_true_iff. split; [exact L|]. split; [|exact R]. split; [apply Nat.leb_le|apply Nat.ltb_lt]; lia.
Qed.

(** A block, whatever the kind of its dimensions. *)
Record wpart (g : gvar) (v : var) : Prop := {
  wp_name : v_name v = gname g;
  wp_dims : Forall2 (fun gd d => d_name d = g_name gd /\ (d_lo d <= d_hi d <= g_len gd)%nat) (gdims g) (v_dims v);
  wp_type : v_byte v = gbyte g /\ v_default v = gdefault g /\ v_fill v = gfill g;
  wp_meta : v_attrs v = gattrs g /\ v_units v = gunits g;
  wp_value : exists value, v_value v = Some value /\
               forall idx, in_block (v_dims v) idx -> gmask g idx = false -> value (place (v_dims v) idx) = gvalue g idx;
  wp_mask : forall idx, in_block (v_dims v) idx -> mask_at (v_mask v) (place (v_dims v) idx) = gmask g idx }.

Definition wparts (G : list gvar) (cs : list coll) : Prop :=
  (forall c, In c cs -> Forall2 wpart G (c_vars c)) /\
  forall g idx, In g G -> in_array g idx -> exists c v, In c cs /\ In v (c_vars c) /\ v_name v = gname g /\ in_block (v_dims v) idx.

Lemma to_fixed_length : forall l, List.length (to_fixed l) = List.length l.
Proof. induction l as [|d l IH]; cbn [to_fixed]; [reflexivity|]. destruct (d_unlimited d); cbn [List.length]; congruence. Qed.
Lemma to_fixed_names : forall l, map d_name (to_fixed l) = map d_name l.
Proof. induction l as [|d l IH]; cbn [to_fixed]; [reflexivity|]. destruct (d_unlimited d); cbn [map d_name]; congruence. Qed.

Section Main.
  Variable fixed : bool.
  Variable G : list gvar.
  Variable PR : proper G.

  Definition fill_of (v : var) : option Z :=
    if (negb (Nat.eqb (List.length (v_dims v)) 0) && has_masked_values v) || dmem String.eqb (v_attrs v) "_FillValue" then Some (v_fill v) else None.
  Definition attrs_of (g : gvar) : list (string * attr) :=
    let a := write_attributes (gattrs g) [] in match gunits g with Some u => ds a "units" (AStr u) | None => a end.

  Definition dims_ok (f : nfile) : Prop :=
    forall k nd, dg (f_dims f) k = Some nd -> exists h d, In h G /\ In d (gdims h) /\ g_name d = k /\
      nd_unlimited nd = g_unlimited d /\ (nd_len nd <= g_len d)%nat /\ (g_unlimited d = false -> nd_len nd = g_len d).
  Definition present (f : nfile) (g : gvar) : Prop := forall d, In d (gdims g) -> exists nd, dg (f_dims f) (g_name d) = Some nd.
  Definition var_ok (A : gvar -> list (string * attr)) (f : nfile) (g : gvar) (v : var) : Prop :=
    present f g /\ exists n, dg (f_vars f) (gname g) = Some n /\ n_dims n = map g_name (gdims g) /\ n_byte n = gbyte g /\ n_default n = gdefault g /\
      n_fill n = fill_of v /\ n_attrs n = A g.
  Definition marks (n : ncvar) (z : Z) : Prop := missing_value n = Some z \/ n_fill n = Some z \/ (n_fill n = None /\ z = n_default n).
  Definition datum (g : gvar) (n : ncvar) (idx : list nat) : Prop :=
    (gmask g idx = false -> n_data n idx = gvalue g idx) /\ (gmask g idx = true -> marks n (n_data n idx)).
  Definition reach (f : nfile) (g : gvar) (idx : list nat) : Prop :=
    Forall2 (fun i d => exists nd, dg (f_dims f) (g_name d) = Some nd /\ (i < nd_len nd)%nat) idx (gdims g).
  Definition sat (f : nfile) (g : gvar) (idx : list nat) : Prop :=
    (exists n, dg (f_vars f) (gname g) = Some n /\ datum g n idx) /\ reach f g idx.

  (** Dimensions only grow. *)
  Definition grows (f f' : nfile) : Prop :=
    forall k nd, dg (f_dims f) k = Some nd -> exists nd', dg (f_dims f') k = Some nd' /\ (nd_len nd <= nd_len nd')%nat.

  Lemma grows_refl f : grows f f.
  Proof. intros k nd H. exists nd. now split. Qed.
  Lemma grows_present f f' g : grows f f' -> present f g -> present f' g.
  Proof. intros H P d I. destruct (P d I) as [nd E]. destruct (H _ _ E) as [nd' [E' _]]. now exists nd'. Qed.
  Lemma grows_reach f f' g idx : grows f f' -> reach f g idx -> reach f' g idx.
  Proof.
    intros H. unfold reach. apply F2_imp. intros i d _ _ [nd [E L]]. destruct (H _ _ E) as [nd' [E' L']]. exists nd'. split; [exact E'|lia].
  Qed.

  Lemma same_dim g d f nd : In g G -> In d (gdims g) -> dims_ok f -> dg (f_dims f) (g_name d) = Some nd ->
    nd_unlimited nd = g_unlimited d /\ (nd_len nd <= g_len d)%nat /\ (g_unlimited d = false -> nd_len nd = g_len d).
  Proof.
    intros I J D E. destruct (D _ _ E) as (h & e & Ih & Ie & En & R). rewrite (pr_dims G PR g h d e I Ih J Ie) by now symmetry. exact R.
  Qed.

  Definition len_of (m : mode) (d : dim) : nat := match m with TEMPLATE => d_global d | _ => d_size d end.
  Definition dims_made (v : var) : list dim := if fixed then to_fixed (v_dims v) else v_dims v.
  Definition makes (m : mode) (g : gvar) (v : var) : Prop :=
    Forall2 (fun gd d => d_name d = g_name gd /\ d_unlimited d = g_unlimited gd /\ len_of m d = g_len gd) (gdims g) (dims_made v).

  Lemma create_dims m : forall gds vds f, Forall2 (fun gd d => d_name d = g_name gd /\ d_unlimited d = g_unlimited gd /\ len_of m d = g_len gd) gds vds ->
    (forall gd, In gd gds -> exists h, In h G /\ In gd (gdims h)) -> dims_ok f ->
    let f' := fold_left (create_dimension m) vds f in
    f_vars f' = f_vars f /\ f_attrs f' = f_attrs f /\ dims_ok f' /\ grows f f' /\ forall gd, In gd gds -> exists nd, dg (f_dims f') (g_name gd) = Some nd.
  Proof.
    intros gds vds f F. revert f. induction F as [|gd d gds vds [N [U L]] F IH]; intros f HG D; cbn [fold_left].
    - repeat split; auto using grows_refl. easy.
    - assert (S1 : let f1 := create_dimension m f d in f_vars f1 = f_vars f /\ f_attrs f1 = f_attrs f /\ dims_ok f1 /\ grows f f1 /\ exists nd, dg (f_dims f1) (g_name gd) = Some nd).
      { unfold create_dimension. destruct (dmem String.eqb (f_dims f) (d_name d)) eqn:M.
        - repeat split; auto using grows_refl. unfold dmem in M. rewrite <- N. destruct (dg (f_dims f) (d_name d)) as [nd|]; [now exists nd|discriminate].
        - assert (M' : dg (f_dims f) (d_name d) = None) by (unfold dmem in M; destruct (dg (f_dims f) (d_name d)); [discriminate|reflexivity]).
          cbn zeta. cbn [f_vars f_attrs]. split; [reflexivity|]. split; [reflexivity|]. split.
          + intros k nd. cbn [f_dims]. rewrite dg_app. destruct (dg (f_dims f) k) as [x|] eqn:E.
            * intro X. injection X as <-. now apply D.
            * cbn [dget]. destruct (String.eqb k (d_name d)) eqn:Ek; [|discriminate]. apply String.eqb_eq in Ek. subst k. intro X. injection X as <-.
              destruct (HG gd) as (h & Ih & Ig); [now left|]. exists h, gd. repeat split; auto.
              -- destruct (d_unlimited d) eqn:Eu; cbn [nd_unlimited]; congruence.
              -- destruct (d_unlimited d) eqn:Eu; cbn [nd_len]; [lia|]. unfold len_of in L. lia.
              -- intro X. rewrite <- U in X. rewrite X. exact L.
          + split.
            * intros k nd E. exists nd. cbn [f_dims]. rewrite dg_app, E. split; [reflexivity|lia].
            * eexists. cbn [f_dims]. rewrite dg_app, <- N, M'. cbn [dget]. now rewrite String.eqb_refl. }
      cbn zeta in S1. destruct S1 as (V1 & A1 & D1 & G1 & [nd1 P1]).
      destruct (IH (create_dimension m f d)) as (V2 & A2 & D2 & G2 & P2); [intros x X; apply HG; now right|exact D1|].
      cbn zeta in *. rewrite V2, A2. repeat split; auto.
      + intros k nd E. destruct (G1 _ _ E) as [nd' [E' L']]. destruct (G2 _ _ E') as [nd'' [E'' L'']]. exists nd''. split; [exact E''|lia].
      + intros x [X|X]; [|now apply P2]. subst x. destruct (G2 _ _ P1) as [nd'' [E'' _]]. now exists nd''.
  Qed.

  (** What holds between variables. *)
  Record state (A : gvar -> list (string * attr)) (f : nfile) (G0 : list gvar) (C0 : list var) : Prop := {
    st_dims : dims_ok f;
    st_names : map fst (f_vars f) = map gname G0;
    st_vars : Forall2 (var_ok A f) G0 C0 }.

  Lemma step_create A m g v f G0 C0 : m <> FILL -> In g G -> ~ In (gname g) (map gname G0) -> wpart g v ->
    makes m g v -> state A f G0 C0 ->
    exists f1, create_variable m fixed (match m with TEMPLATE => true | _ => false end) v f = Ok f1 /\ dims_ok f1 /\ map fst (f_vars f1) = (map gname G0 ++ [gname g])%list /\
      grows f f1 /\ f_attrs f1 = f_attrs f /\ var_ok (fun _ => []) f1 g v /\ (forall k, k <> gname g -> dg (f_vars f1) k = dg (f_vars f) k).
  Proof.
    intros M I N P L [D Nm V]. unfold create_variable. cbv zeta. fold (dims_made v).
    destruct (create_dims m (gdims g) (dims_made v) f) as (V1 & A1 & D1 & G1 & P1).
    { exact L. }
    { intros gd X. now exists g. }
    { exact D. }
    cbn zeta in *. set (f1 := fold_left (create_dimension m) (dims_made v) f) in *. clearbody f1.
    rewrite V1. rewrite (wp_name g v P). assert (E : dg (f_vars f) (gname g) = None) by (apply dg_none; now rewrite Nm).
    unfold dmem at 1. rewrite E. eexists. split; [reflexivity|]. cbn [f_vars f_dims f_attrs].
    split; [exact D1|]. split; [rewrite map_app, Nm; reflexivity|]. split; [exact G1|]. split; [exact A1|]. split.
    - split; [exact P1|]. eexists. cbn [f_vars]. rewrite dg_app, E. cbn [dget]. rewrite String.eqb_refl. split; [reflexivity|].
      cbn [n_dims n_byte n_default n_fill n_attrs]. destruct (wp_type g v P) as (T1 & T2 & T3). split; [|split; [exact T1|split; [exact T2|split; [|reflexivity]]]].
      + clear - L. unfold makes in L. induction L as [|gd d l1 l2 [Hd _] F IH]; cbn [map]; congruence.
      + unfold fill_of. replace (List.length (dims_made v)) with (List.length (v_dims v)) by (unfold dims_made; destruct fixed; now rewrite ?to_fixed_length). destruct m; [| |congruence]; cbn [orb negb andb]; now rewrite ?andb_true_r.
    - intros k K. rewrite dg_app. destruct (dg (f_vars f) k); [reflexivity|]. cbn [dget]. apply String.eqb_neq in K. now rewrite K.
  Qed.

  Lemma extend_ok : forall gds vds f, Forall2 (fun gd d => d_name d = g_name gd /\ (d_lo d <= d_hi d <= g_len gd)%nat) gds vds ->
    (forall gd, In gd gds -> exists h, In h G /\ In gd (gdims h)) -> dims_ok f -> (forall gd, In gd gds -> exists nd, dg (f_dims f) (g_name gd) = Some nd) ->
    exists fd, nc_extend (map g_name gds) vds (f_dims f) = Ok fd /\ let f' := mkfile (f_attrs f) fd (f_vars f) in
      dims_ok f' /\ grows f f' /\ Forall2 (fun gd d => exists nd, dg fd (g_name gd) = Some nd /\ (d_hi d <= nd_len nd)%nat) gds vds.
  Proof.
    intros gds vds f F. revert f. induction F as [|gd d gds vds [N L] F IH]; intros f HG D HP; cbn [map nc_extend].
    - exists (f_dims f). split; [reflexivity|]. cbn zeta. split; [exact D|]. split; [destruct f; apply grows_refl|constructor].
    - destruct (HP gd) as [nd E]; [now left|]. rewrite E. destruct (HG gd) as (h & Ih & Ig); [now left|].
      destruct (same_dim h gd f nd Ih Ig D E) as (U' & L' & X').
      assert (STEP : exists f1, f_attrs f1 = f_attrs f /\ f_vars f1 = f_vars f /\ dims_ok f1 /\ grows f f1 /\
         (exists nd1, dg (f_dims f1) (g_name gd) = Some nd1 /\ (d_hi d <= nd_len nd1)%nat) /\
         (if Nat.leb (d_hi d) (nd_len nd) then nc_extend (map g_name gds) vds (f_dims f)
          else if nd_unlimited nd then nc_extend (map g_name gds) vds (ds (f_dims f) (g_name gd) (mkncdim true (d_hi d))) else Err IndexError)
         = nc_extend (map g_name gds) vds (f_dims f1)).
      { destruct (Nat.leb (d_hi d) (nd_len nd)) eqn:B.
        - exists f. apply Nat.leb_le in B. repeat split; auto using grows_refl. exists nd. now split.
        - apply Nat.leb_gt in B. destruct (nd_unlimited nd) eqn:Un.
          + exists (mkfile (f_attrs f) (ds (f_dims f) (g_name gd) (mkncdim true (d_hi d))) (f_vars f)). cbn [f_attrs f_vars f_dims].
            split; [reflexivity|]. split; [reflexivity|]. split; [|split; [|split; [|reflexivity]]].
            * intros k nd'. cbn [f_dims]. destruct (String.eqb k (g_name gd)) eqn:Ek.
              -- apply String.eqb_eq in Ek. subst k. rewrite dg_set_same. intro X. injection X as <-. exists h, gd. cbn [nd_unlimited nd_len].
                 repeat split; auto; [lia|]. intro X. rewrite X in U'. discriminate.
              -- apply String.eqb_neq in Ek. rewrite dg_set_other by exact Ek. apply D.
            * intros k nd' E'. cbn [f_dims]. destruct (String.eqb k (g_name gd)) eqn:Ek.
              -- apply String.eqb_eq in Ek. subst k. rewrite dg_set_same. eexists. split; [reflexivity|]. rewrite E in E'. injection E' as <-. cbn [nd_len]. lia.
              -- apply String.eqb_neq in Ek. rewrite dg_set_other by exact Ek. exists nd'. now split.
            * eexists. rewrite dg_set_same. split; [reflexivity|]. cbn [nd_len]. lia.
          + exfalso. symmetry in U'. specialize (X' U'). lia. }
      destruct STEP as (f1 & A1 & V1 & D1 & G1 & [nd1 [E1 L1]] & ->).
      destruct (IH f1) as (fd & X & D2 & G2 & R2).
      { intros x Hx. apply HG. now right. }
      { exact D1. }
      { intros x Hx. destruct (HP x) as [y Y]; [now right|]. destruct (G1 _ _ Y) as [y' [Y' _]]. now exists y'. }
      exists fd. split; [exact X|]. cbn zeta in *. rewrite A1, V1 in *. split; [exact D2|]. split.
      + intros k nd' E'. destruct (G1 _ _ E') as [y [Y Ly]]. destruct (G2 _ _ Y) as [z [Z Lz]]. exists z. split; [exact Z|lia].
      + constructor; [|exact R2]. destruct (G2 _ _ E1) as [z [Z Lz]]. exists z. cbn [f_dims] in Z. split; [exact Z|lia].
  Qed.

  Lemma sat_other f f' h idx : grows f f' -> dg (f_vars f') (gname h) = dg (f_vars f) (gname h) -> sat f h idx -> sat f' h idx.
  Proof. intros H E [[n [N Dn]] R]. split; [exists n; now rewrite E|now apply (grows_reach f)]. Qed.

  Lemma names_inj g h : In g G -> In h G -> gname g = gname h -> g = h.
  Proof.
    intros I J E. pose proof (pr_names G PR) as N. clear PR. revert N I J. induction G as [|a t IH]; cbn [map]; intros N I J; [easy|]. inversion N as [|? ? N1 N2]. subst.
    destruct I as [->|I], J as [->|J]; auto.
    - exfalso. apply N1. rewrite E. now apply in_map.
    - exfalso. apply N1. rewrite <- E. now apply in_map.
  Qed.

  Lemma step_data A g v v1 f : In g G -> wpart g v -> dims_ok f -> var_ok A f g v1 ->
    exists f1, write_data v f = Ok f1 /\ dims_ok f1 /\ map fst (f_vars f1) = map fst (f_vars f) /\ f_attrs f1 = f_attrs f /\ grows f f1 /\ var_ok A f1 g v1 /\
      (forall k, k <> gname g -> dg (f_vars f1) k = dg (f_vars f) k) /\
      (forall idx, sat f g idx -> sat f1 g idx) /\ (forall idx, in_block (v_dims v) idx -> sat f1 g idx).
  Proof.
    intros I P D [Pr (n & E & Nd & Nb & Ndf & Nf & Na)]. unfold write_data. destruct (wp_value g v P) as (value & Ev & Hv). rewrite Ev, (wp_name g v P), E.
    destruct (extend_ok (gdims g) (v_dims v) f (wp_dims g v P)) as (fd & X & D1 & G1 & R1); [intros gd Y; now exists g|exact D|exact Pr|].
    rewrite Nd, X. cbn zeta in *. cbn [bind]. eexists. split; [reflexivity|]. cbn [f_vars f_attrs].
    split; [exact D1|]. split; [now apply (keys_set _ _ _ n)|]. split; [reflexivity|]. split; [exact G1|].
    assert (W : forall idx, in_block (v_dims v) idx -> datum g (mkncvar (map g_name (gdims g)) (n_byte n) (n_default n) (n_fill n)
        (fun idx0 => if inside (v_dims v) idx0 then cell n v value (local_index (v_dims v) idx0) else n_data n idx0) (n_attrs n)) idx).
    { intros idx B. pose proof (wp_mask g v P idx B) as M. unfold datum, marks, missing_value. cbn [n_data n_fill n_default n_attrs].
      rewrite (proj2 (inside_iff _ _) B). change (local_index (v_dims v) idx) with (place (v_dims v) idx). unfold cell. split; intro K.
      - rewrite K in M. unfold mask_at in M. destruct (v_mask v) as [m|]; [rewrite M|]; now apply Hv.
      - rewrite K in M. unfold mask_at in M. destruct (v_mask v) as [m|]; [rewrite M|discriminate].
        unfold nc_write_missing, missing_value. destruct (dg (n_attrs n) "missing_value") as [[|z|s]|]; auto; destruct (n_fill n); auto. }
    split; [|split; [|split]].
    - split; [now apply (grows_present f _ g G1)|]. eexists. cbn [f_vars]. rewrite dg_set_same. split; [reflexivity|]. cbn [n_dims n_byte n_default n_fill n_attrs]. auto.
    - intros k K. now apply dg_set_other.
    - intros idx [[n' [N' Dn]] R]. split; [|now apply (grows_reach f _ _ _ G1)]. eexists. cbn [f_vars]. rewrite dg_set_same. split; [reflexivity|].
      rewrite E in N'. injection N' as <-. destruct (inside (v_dims v) idx) eqn:B; [apply W; now apply inside_iff|].
      unfold datum, marks, missing_value. cbn [n_data n_fill n_default n_attrs]. rewrite B. exact Dn.
    - intros idx B. split.
      + eexists. cbn [f_vars]. rewrite dg_set_same. split; [reflexivity|]. now apply W.
      + unfold reach. cbn [f_dims]. unfold in_block in B. clear - B R1. revert idx B. induction R1 as [|gd d gds vds [nd [E L]] R IH]; intros idx B; inversion B; subst; constructor; auto.
        exists nd. split; [exact E|lia].
  Qed.

  Lemma step_attrs g v f : In g G -> wpart g v -> var_ok (fun _ => []) f g v ->
    exists f1, write_var_attributes v f = Ok f1 /\ f_dims f1 = f_dims f /\ map fst (f_vars f1) = map fst (f_vars f) /\ f_attrs f1 = f_attrs f /\ var_ok attrs_of f1 g v /\
      (forall k, k <> gname g -> dg (f_vars f1) k = dg (f_vars f) k) /\ (forall idx, sat f g idx -> sat f1 g idx).
  Proof.
    intros I P [Pr (n & E & Nd & Nb & Ndf & Nf & Na)]. unfold write_var_attributes. rewrite (wp_name g v P), E. cbv zeta. destruct (wp_meta g v P) as [Ma Mu]. rewrite Ma, Mu.
    eexists. split; [reflexivity|]. cbn [f_dims f_vars f_attrs]. split; [reflexivity|]. split; [now apply (keys_set _ _ _ n)|]. split; [reflexivity|]. split; [|split].
    - split; [exact Pr|]. eexists. cbn [f_vars]. rewrite dg_set_same. split; [reflexivity|]. cbn [n_dims n_byte n_default n_fill n_attrs]. rewrite Na. repeat split; auto.
    - intros k K. now apply dg_set_other.
    - intros idx [[n' [N' [Dn1 Dn2]]] R]. split; [|exact R]. eexists. cbn [f_vars]. rewrite dg_set_same. split; [reflexivity|].
      rewrite E in N'. injection N' as <-. split; cbn [n_data]; [exact Dn1|]. intro K. specialize (Dn2 K). unfold marks in *. cbn [n_fill n_default].
      destruct Dn2 as [X|X]; [|now right]. unfold missing_value in X. rewrite Na in X. discriminate.
  Qed.

  Lemma var_ok_keep A f f' g v : grows f f' -> dg (f_vars f') (gname g) = dg (f_vars f) (gname g) -> var_ok A f g v -> var_ok A f' g v.
  Proof. intros Gr E [Pr H]. split; [now apply (grows_present f)|]. now rewrite E. Qed.

  Lemma grows_trans f g h : grows f g -> grows g h -> grows f h.
  Proof. intros A B k nd E. destruct (A _ _ E) as [x [X L]]. destruct (B _ _ X) as [y [Y M]]. exists y. split; [exact Y|lia]. Qed.
  Lemma grows_eq f g : f_dims g = f_dims f -> grows f g.
  Proof. intros E k nd H. exists nd. now rewrite E. Qed.
  Lemma dims_ok_eq f g : f_dims g = f_dims f -> dims_ok f -> dims_ok g.
  Proof. intros E H k nd. rewrite E. apply H. Qed.

  Lemma step_variable m g v f G0 C0 : m <> FILL -> In g G -> incl G0 G -> ~ In (gname g) (map gname G0) -> wpart g v ->
    makes m g v -> state attrs_of f G0 C0 ->
    exists f1, write_variable m fixed false f v = Ok f1 /\ state attrs_of f1 (G0 ++ [g]) (C0 ++ [v]) /\ f_attrs f1 = f_attrs f /\
      (forall h idx, In h G0 -> sat f h idx -> sat f1 h idx) /\
      (m = NORMAL -> forall idx, in_block (v_dims v) idx -> sat f1 g idx).
  Proof.
    intros M I IN N P L St. destruct (step_create attrs_of m g v f G0 C0 M I N P L St) as (f1 & E1 & D1 & Nm1 & G1 & A1 & V1 & O1).
    assert (NE : forall h, In h G0 -> gname h <> gname g) by (intros h H X; apply N; rewrite <- X; now apply in_map).
    assert (FIN : forall f2, grows f1 f2 -> dims_ok f2 -> map fst (f_vars f2) = map fst (f_vars f1) -> f_attrs f2 = f_attrs f1 -> var_ok (fun _ => []) f2 g v ->
      (forall k, k <> gname g -> dg (f_vars f2) k = dg (f_vars f1) k) ->
      exists f3, write_var_attributes v f2 = Ok f3 /\ state attrs_of f3 (G0 ++ [g]) (C0 ++ [v]) /\ f_attrs f3 = f_attrs f /\ (forall h idx, In h G0 -> sat f h idx -> sat f3 h idx) /\
        (forall idx, sat f2 g idx -> sat f3 g idx)).
    { intros f2 G2 D2 Nm2 A2 V2 O2. destruct (step_attrs g v f2 I P V2) as (f3 & E3 & F3 & Nm3 & A3 & V3 & O3 & S3). exists f3. split; [exact E3|].
      assert (G03 : grows f f3) by (apply (grows_trans f f1); [exact G1|]; apply (grows_trans f1 f2); [exact G2|now apply grows_eq]).
      assert (EQ : forall h, In h G0 -> dg (f_vars f3) (gname h) = dg (f_vars f) (gname h)) by (intros h H; rewrite O3, O2, O1 by (now apply NE); reflexivity).
      split; [|split; [congruence|split; [|exact S3]]].
      - constructor.
        + now apply (dims_ok_eq f2).
        + rewrite Nm3, Nm2, Nm1, map_app. reflexivity.
        + apply Forall2_app; [|constructor; [exact V3|constructor]]. apply (F2_imp (var_ok attrs_of f)); [|apply (st_vars _ _ _ _ St)].
          intros h w Hh _. apply var_ok_keep; [exact G03|now apply EQ].
      - intros h idx H. apply sat_other; [exact G03|now apply EQ]. }
    unfold write_variable. destruct m; [| |congruence]; cbn [len_of] in *; rewrite E1; cbn [bind].
    - destruct (step_data (fun _ => []) g v v f1 I P D1 V1) as (f2 & E2 & D2 & Nm2 & A2 & G2 & V2 & O2 & S2 & B2). rewrite E2. cbn [bind].
      destruct (FIN f2 G2 D2 Nm2 A2 V2 O2) as (f3 & E3 & T3 & A3 & K3 & S3). exists f3. split; [exact E3|]. split; [exact T3|]. split; [exact A3|]. split; [exact K3|]. intros _ idx B. now apply S3, B2.
    - destruct (FIN f1 (grows_refl f1) D1 eq_refl eq_refl V1) as (f3 & E3 & T3 & A3 & K3 & S3); [reflexivity|]. exists f3. split; [exact E3|]. split; [exact T3|]. split; [exact A3|]. split; [exact K3|discriminate].
  Qed.

  Lemma create_vars m : m <> FILL -> forall G1 C1 G0 C0 f, Forall2 wpart G1 C1 -> Forall2 (makes m) G1 C1 ->
    incl (G0 ++ G1) G -> NoDup (map gname (G0 ++ G1)) -> state attrs_of f G0 C0 ->
    exists f1, fold_res (write_variable m fixed false) C1 f = Ok f1 /\ state attrs_of f1 (G0 ++ G1) (C0 ++ C1) /\ f_attrs f1 = f_attrs f /\
      (forall h idx, In h G0 -> sat f h idx -> sat f1 h idx) /\
      (m = NORMAL -> Forall2 (fun g v => forall idx, in_block (v_dims v) idx -> sat f1 g idx) G1 C1).
  Proof.
    intros M G1 C1 G0 C0 f F. revert G0 C0 f. induction F as [|g v G1 C1 P F IH]; intros G0 C0 f L IN ND St; cbn [fold_res].
    - exists f. rewrite !app_nil_r. split; [reflexivity|]. split; [exact St|]. split; [reflexivity|]. split; [auto|]. intros _. constructor.
    - inversion L as [|? ? ? ? Lh Lt]. subst.
      destruct (step_variable m g v f G0 C0 M) as (f1 & E1 & S1 & A1 & K1 & B1); auto.
      { apply IN, in_or_app. right. now left. }
      { intros x X. apply IN, in_or_app. now left. }
      { rewrite map_app in ND. cbn [map] in ND. apply NoDup_remove_2 in ND. intro X. apply ND, in_or_app. now left. }
      rewrite E1. cbn [bind].
      destruct (IH (G0 ++ [g])%list (C0 ++ [v])%list f1 Lt) as (f2 & E2 & S2 & A2 & K2 & B2).
      { now rewrite <- app_assoc. } { now rewrite <- app_assoc. } { exact S1. }
      exists f2. rewrite <- !app_assoc in S2. split; [exact E2|]. split; [exact S2|]. split; [congruence|]. split.
      + intros h idx H K. apply K2; [apply in_or_app; now left|]. now apply K1.
      + intro X. constructor; [|now apply B2]. intros idx B. apply K2; [apply in_or_app; right; now left|]. now apply B1.
  Qed.

  Lemma fill_vars C1 : forall Gp Cp Gr f, (Gp ++ Gr)%list = G -> Forall2 wpart Gr Cp -> state attrs_of f G C1 ->
    exists f1, fold_res (write_variable FILL fixed false) Cp f = Ok f1 /\ state attrs_of f1 G C1 /\ f_attrs f1 = f_attrs f /\
      (forall h idx, In h G -> sat f h idx -> sat f1 h idx) /\ Forall2 (fun g v => forall idx, in_block (v_dims v) idx -> sat f1 g idx) Gr Cp.
  Proof.
    intros Gp Cp Gr f E F. revert Gp f E. induction F as [|g v Gr Cp P F IH]; intros Gp f E St; cbn [fold_res].
    - exists f. split; [reflexivity|]. split; [exact St|]. split; [reflexivity|]. split; [auto|constructor].
    - assert (I : In g G) by (rewrite <- E; apply in_or_app; right; now left).
      destruct (F2_left _ _ _ g (st_vars _ _ _ _ St) I) as (v1 & Iv1 & V1).
      assert (MEM : dmem String.eqb (f_vars f) (v_name v) = true).
      { unfold dmem. rewrite (wp_name g v P). destruct V1 as [_ (n & En & _)]. now rewrite En. }
      destruct (step_data attrs_of g v v1 f I P (st_dims _ _ _ _ St) V1) as (f1 & E1 & D1 & Nm1 & A1 & G1 & V1' & O1 & S1 & B1).
      assert (W : write_variable FILL fixed false f v = Ok f1) by (unfold write_variable; rewrite MEM; cbn [bind]; rewrite E1; reflexivity).
      rewrite W. cbn [bind].
      assert (St1 : state attrs_of f1 G C1).
      { constructor; [exact D1|rewrite Nm1; apply (st_names _ _ _ _ St)|]. apply (F2_imp (var_ok attrs_of f)); [|apply (st_vars _ _ _ _ St)].
        intros h w Ih _ Vh. destruct (string_dec (gname h) (gname g)) as [Q|Q].
        - apply names_inj in Q; auto. subst h. destruct Vh as [Pr (n & En & H1 & H2 & H3 & H4 & H5)]. destruct V1 as [_ (n' & En' & _ & _ & _ & H4' & _)]. destruct V1' as [Pr' (n'' & En'' & K1 & K2 & K3 & K4 & K5)].
          rewrite En in En'. injection En' as <-. split; [exact Pr'|]. exists n''. repeat split; auto. congruence.
        - apply (var_ok_keep _ f); auto. }
      assert (K1 : forall h idx, In h G -> sat f h idx -> sat f1 h idx).
      { intros h idx Ih Sh. destruct (string_dec (gname h) (gname g)) as [Q|Q].
        - apply names_inj in Q; auto. subst h. now apply S1.
        - apply (sat_other f); auto. }
      destruct (IH (Gp ++ [g])%list f1) as (f2 & E2 & S2 & A2 & K2 & B2); [now rewrite <- app_assoc|exact St1|].
      exists f2. split; [exact E2|]. split; [exact S2|]. split; [congruence|]. split; [auto|]. constructor; [|exact B2]. intros idx B. apply K2; auto.
  Qed.

  Definition covers (c : coll) (f : nfile) : Prop := Forall2 (fun g v => forall idx, in_block (v_dims v) idx -> sat f g idx) G (c_vars c).

  Lemma create_coll m c f0 : m <> FILL -> Forall2 wpart G (c_vars c) -> Forall2 (makes m) G (c_vars c) ->
    exists f, write_collection m fixed false c f0 = Ok f /\ state attrs_of f G (c_vars c) /\ f_attrs f = write_attributes (c_attrs c) [] /\ (m = NORMAL -> covers c f).
  Proof.
    intros M F K. unfold write_collection. set (f1 := match m with FILL => f0 | _ => _ end).
    assert (E1 : f1 = mkfile (write_attributes (c_attrs c) []) [] []) by (unfold f1; destruct m; [reflexivity|reflexivity|congruence]).
    destruct (create_vars m M G (c_vars c) [] [] f1 F K) as (f & E & St & A & _ & B).
    { intros x X. exact X. } { apply (pr_names G PR). } { rewrite E1. constructor; [intros k nd X; discriminate|reflexivity|constructor]. }
    exists f. split; [exact E|]. split; [exact St|]. split; [now rewrite A, E1|exact B].
  Qed.

  Lemma fill_colls C1 : forall cs f, (forall c, In c cs -> Forall2 wpart G (c_vars c)) -> state attrs_of f G C1 ->
    exists f1, fold_res (fun f c => write_collection FILL fixed false c f) cs f = Ok f1 /\ state attrs_of f1 G C1 /\ f_attrs f1 = f_attrs f /\
      (forall h idx, In h G -> sat f h idx -> sat f1 h idx) /\ forall c, In c cs -> covers c f1.
  Proof.
    induction cs as [|c cs IH]; intros f H St; cbn [fold_res].
    - exists f. split; [reflexivity|]. split; [exact St|]. split; [reflexivity|]. split; [auto|easy].
    - destruct (fill_vars C1 [] (c_vars c) G f eq_refl) as (f1 & E1 & S1 & A1 & K1 & B1); [apply H; now left|exact St|].
      unfold write_collection at 1. rewrite E1. cbn [bind]. destruct (IH f1) as (f2 & E2 & S2 & A2 & K2 & B2); [intros x X; apply H; now right|exact S1|].
      exists f2. split; [exact E2|]. split; [exact S2|]. split; [congruence|]. split; [auto|]. intros x [<-|X]; [|now apply B2].
      unfold covers. apply (F2_imp (fun g v => forall idx, in_block (v_dims v) idx -> sat f1 g idx)); [|exact B1]. intros g v Ig _ Hg idx B. apply K2; auto.
  Qed.

  Lemma covers_sat cs f : wparts G cs -> (forall c, In c cs -> covers c f) -> forall g idx, In g G -> in_array g idx -> sat f g idx.
  Proof.
    intros [PF PC] CV g idx I A. destruct (PC g idx I A) as (c & v & Ic & Iv & En & B). pose proof (CV c Ic) as F. pose proof (PF c Ic) as F'.
    destruct (F2_right _ _ _ v (F2_and _ _ _ _ F F') Iv) as (h & Ih & Hh & Ph). rewrite (wp_name h v Ph) in En. apply names_inj in En; auto. subst h. now apply Hh.
  Qed.

  (** The file is complete. *)
  Definition complete (c1 : coll) (f : nfile) : Prop :=
    state attrs_of f G (c_vars c1) /\ f_attrs f = write_attributes (c_attrs c1) [] /\ forall g idx, In g G -> in_array g idx -> sat f g idx.

  Lemma append_complete c1 cs : wparts G (c1 :: cs) -> Forall2 (makes NORMAL) G (c_vars c1) -> exists f, write_append fixed false (c1 :: cs) = Ok f /\ complete c1 f.
  Proof.
    intros P K. unfold write_append. destruct (create_coll NORMAL c1 empty_file) as (f & E & St & A & B); [discriminate|apply (proj1 P); now left|exact K|]. rewrite E. cbn [bind].
    destruct (fill_colls (c_vars c1) cs f) as (f1 & E1 & S1 & A1 & K1 & B1); [intros c X; apply (proj1 P); now right|exact St|].
    exists f1. split; [exact E1|]. split; [exact S1|]. split; [congruence|]. apply (covers_sat (c1 :: cs)); [exact P|]. intros c [<-|X]; [|now apply B1].
    unfold covers. apply (F2_imp (fun g v => forall idx, in_block (v_dims v) idx -> sat f g idx)); [|now apply B]. intros g v Ig _ Hg idx X. apply K1; auto.
  Qed.

  Lemma fold_leaf : forall cs f, fold_res (fun f t => match t with Tree c [] => write_collection FILL fixed false c f | Tree _ (_ :: _) => Err ValueError end) (map (fun c => Tree c []) cs) f
    = fold_res (fun f c => write_collection FILL fixed false c f) cs f.
  Proof. induction cs as [|c cs IH]; intro f; cbn [map fold_res]; [reflexivity|]. destruct (write_collection FILL fixed false c f); cbn [bind]; [apply IH|reflexivity]. Qed.

  Lemma parallel_complete c1 c2 cs : wparts G (c1 :: c2 :: cs) -> Forall2 (makes TEMPLATE) G (c_vars c1) ->
    exists f, write_parallel fixed false (map (fun c => Tree c []) (c1 :: c2 :: cs)) = Ok (GFile f []) /\ complete c1 f.
  Proof.
    intros P K. destruct (create_coll TEMPLATE c1 empty_file) as (f & E & St & A & B); [discriminate|apply (proj1 P); now left|exact K|].
    destruct (fill_colls (c_vars c1) (c1 :: c2 :: cs) f) as (f1 & E1 & S1 & A1 & K1 & B1); [apply (proj1 P)|exact St|].
    exists f1. split.
    - unfold write_parallel. cbn [map]. rewrite E. cbn [bind].
      change (Tree c1 [] :: Tree c2 [] :: map (fun c => Tree c []) cs) with (map (fun c => Tree c []) (c1 :: c2 :: cs)).
      rewrite fold_leaf, E1. reflexivity.
    - split; [exact S1|]. split; [congruence|]. now apply (covers_sat (c1 :: c2 :: cs)).
  Qed.

  (** * Reading a complete file *)
  Lemma attrs_fold_get : forall l t k, NoDup (map fst l) ->
    dg (write_attributes l t) k = match dg l k with
                                  | Some ANone => dg t k
                                  | Some a => if is_private k then dg t k else Some a
                                  | None => dg t k end.
  Proof.
    unfold write_attributes. induction l as [|[k' a'] l IH]; intros t k N; cbn [fold_left dget fst snd]; [reflexivity|]. cbn [map fst] in N. inversion N as [|? ? N1 N2]. subst.
    rewrite IH by exact N2. destruct (String.eqb k k') eqn:Ek.
    - apply String.eqb_eq in Ek. subst k'. apply dg_none in N1. rewrite N1. destruct a'; [reflexivity| |]; destruct (is_private k) eqn:Pk; try reflexivity; apply dg_set_same.
    - apply String.eqb_neq in Ek. assert (X : dg match a' with ANone => t | _ => if is_private k' then t else ds t k' a' end k = dg t k).
      { destruct a'; [reflexivity| |]; destruct (is_private k'); try reflexivity; now apply dg_set_other. }
      destruct (dg l k) as [[| |]|]; destruct a'; rewrite ?X; try reflexivity.
  Qed.
  Lemma attrs_get l k a : NoDup (map fst l) -> (dg (write_attributes l []) k = Some a <-> In (k, a) l /\ a <> ANone /\ public k).
  Proof.
    intro N. rewrite attrs_fold_get by exact N. rewrite <- dg_iff by exact N. unfold public. change (prefix "_" k) with (is_private k).
    cbn [dget]. destruct (dg l k) as [[|z|s]|]; destruct (is_private k); split;
      try (intro H; discriminate); try (intros [H [H' H'']]; congruence); try (intro H; injection H as <-; repeat split; auto; discriminate).
  Qed.
  Lemma attrs_of_get g k a : In g G -> (dg (attrs_of g) k = Some a <-> shows g k a).
  Proof.
    intro I. pose proof (pr_attrs G PR g I) as N. unfold attrs_of, shows. destruct (gunits g) as [u|].
    - destruct (string_dec k "units") as [->|Nk].
      + rewrite dg_set_same. split; [intro H; injection H as <-; now left|]. intros [[_ ->]|[X _]]; [reflexivity|congruence].
      + rewrite dg_set_other by exact Nk. rewrite attrs_get by exact N. tauto.
    - now apply attrs_get.
  Qed.

  Lemma missing_of g n z : In g G -> n_attrs n = attrs_of g -> missing_value n = Some z -> In ("missing_value", ANum z) (gattrs g).
  Proof.
    intros I E H. unfold missing_value in H. rewrite E in H. destruct (dg (attrs_of g) "missing_value") as [[|w|s]|] eqn:X; try discriminate. injection H as ->.
    apply attrs_of_get in X; [|exact I]. unfold shows in X. destruct (gunits g); [destruct X as [[X _]|[_ [X _]]]; [discriminate|exact X]|apply X].
  Qed.

  Section Read.
    Variable c1 : coll.
    Variable f : nfile.
    Hypothesis OK : complete c1 f.
    Hypothesis PARTS : Forall2 wpart G (c_vars c1).
    Variable g : gvar.
    Hypothesis I : In g G.

    Definition last_idx (l : list gdim) : list nat := map (fun d => Nat.pred (g_len d)) l.

    Lemma lens : Forall (fun d => exists nd, dg (f_dims f) (g_name d) = Some nd /\ nd = mkncdim (g_unlimited d) (g_len d)) (gdims g).
    Proof.
      destruct OK as (St & _ & SA). assert (A : in_array g (last_idx (gdims g))).
      { unfold in_array, last_idx. assert (forall d, In d (gdims g) -> (0 < g_len d)%nat) by (intros d X; now apply (pr_full G PR g d I)).
        revert H. generalize (gdims g). induction l as [|d t IH]; intro H; cbn [map]; constructor; [specialize (H d (or_introl eq_refl)); lia|]. apply IH. intros e E. apply H. now right. }
      destruct (SA g _ I A) as [_ R]. unfold reach in R.
      assert (K : forall l, (forall d, In d l -> In d (gdims g)) -> Forall2 (fun i d => exists nd, dg (f_dims f) (g_name d) = Some nd /\ (i < nd_len nd)%nat) (last_idx l) l ->
        Forall (fun d => exists nd, dg (f_dims f) (g_name d) = Some nd /\ nd = mkncdim (g_unlimited d) (g_len d)) l); [|exact (K (gdims g) (fun d X => X) R)].
      clear R A. induction l as [|d t IH]; intros SUB R; constructor.
      - unfold last_idx in R. cbn [map] in R. inversion R as [|? ? ? ? [nd [E L]] R']. subst. exists nd. split; [exact E|].
        destruct (same_dim g d f nd I (SUB d (or_introl eq_refl)) (st_dims _ _ _ _ St) E) as (U & L1 & L2). destruct nd as [u n]. cbn [nd_unlimited nd_len] in *. subst u. f_equal. pose proof (pr_full G PR g d I (SUB d (or_introl eq_refl))). lia.
      - apply IH; [intros e E; apply SUB; now right|]. unfold last_idx in R. cbn [map] in R. now inversion R.
    Qed.

    Lemma read_ok v1 n bounds : var_ok attrs_of f g v1 -> dg (f_vars f) (gname g) = Some n -> n_dims n = map g_name (gdims g) ->
      let at_ i := map (fun p => fst p + fst (snd p))%nat (combine i bounds) in
      let masked i := nc_is_missing n (n_data n (at_ i)) in
      read_variable bounds (gname g) f = Ok (mkrvar (map (fun d => (g_name d, mkncdim (g_unlimited d) (g_len d))) (gdims g)) (fun i => n_data n (at_ i))
        (if existsb masked (indices (map (fun b => snd b - fst b)%nat bounds)) then Some masked else None)
        (filter (fun p => negb (String.eqb (fst p) "add_offset" || String.eqb (fst p) "scale_factor"))
               (match n_fill n with Some z => [("_FillValue", ANum z)] | None => [] end ++ n_attrs n))).
    Proof.
      intros V E Nd. cbv zeta. unfold read_variable. rewrite E, Nd.
      assert (M : map_res (fun k => match dg (f_dims f) k with Some d => Ok (k, d) | None => Err KeyError end) (map g_name (gdims g))
                  = Ok (map (fun d => (g_name d, mkncdim (g_unlimited d) (g_len d))) (gdims g))).
      { pose proof lens as L. revert L. generalize (gdims g). induction l as [|d t IH]; intro L; cbn [map map_res]; [reflexivity|]. inversion L as [|? ? [nd [X ->]] L']. subst. rewrite X. cbn [bind].
        rewrite IH by exact L'. reflexivity. }
      rewrite M. cbn [bind]. reflexivity.
    Qed.

    Lemma read_var : exists n v1, In v1 (c_vars c1) /\ wpart g v1 /\ dg (f_vars f) (gname g) = Some n /\ n_dims n = map g_name (gdims g) /\ n_byte n = gbyte g /\ n_default n = gdefault g /\
      n_fill n = fill_of v1 /\ n_attrs n = attrs_of g /\ var_ok attrs_of f g v1 /\ forall idx, in_array g idx -> datum g n idx.
    Proof.
      destruct OK as (St & _ & SA). destruct (F2_left _ _ _ g (F2_and _ _ _ _ (st_vars _ _ _ _ St) PARTS) I) as (v1 & Iv & V & P). exists (match dg (f_vars f) (gname g) with Some n => n | None => mkncvar [] false 0 None (fun _ => 0) [] end), v1.
      pose proof V as V'. destruct V' as [_ (n & E & H1 & H2 & H3 & H4 & H5)]. rewrite E. repeat (split; [assumption || reflexivity|]). intros idx A. destruct (SA g idx I A) as [[n' [E' D']] _]. rewrite E in E'. injection E' as <-. exact D'.
    Qed.

    Lemma in_bounds_array bounds i : block_of g bounds -> in_bounds bounds i -> in_array g (shift bounds i).
    Proof.
      unfold block_of, in_bounds, in_array, shift. intro B. revert i. induction B as [|b d bs dl H B IH]; intros i X; inversion X; subst; cbn [combine map fst snd]; constructor; [lia|auto].
    Qed.
    Lemma in_bounds_indices bounds i : in_bounds bounds i -> In i (indices (map (fun b => snd b - fst b)%nat bounds)).
    Proof. intro X. apply in_indices. unfold in_bounds in X. induction X; cbn [map]; constructor; [lia|assumption]. Qed.

    Lemma reads_dims_ok : reads_dims f g.
    Proof. destruct read_var as (n & v1 & _ & _ & E & Nd & _ & _ & _ & _ & V & _). intros bounds B. eexists. split; [apply (read_ok v1 n bounds V E Nd)|reflexivity]. Qed.

    Lemma reads_values_ok : reads_values f g.
    Proof.
      destruct read_var as (n & v1 & _ & _ & E & Nd & _ & _ & _ & _ & V & D). intros bounds r B R i X M. rewrite (read_ok v1 n bounds V E Nd) in R. injection R as <-. cbn [r_value].
      apply (D (shift bounds i)); [now apply in_bounds_array|exact M].
    Qed.

    Lemma mask_seen v1 n bounds r i : var_ok attrs_of f g v1 -> dg (f_vars f) (gname g) = Some n -> n_dims n = map g_name (gdims g) -> read_variable bounds (gname g) f = Ok r ->
      in_bounds bounds i -> mask_at (r_mask r) i = nc_is_missing n (n_data n (shift bounds i)).
    Proof.
      intros V E Nd R X. rewrite (read_ok v1 n bounds V E Nd) in R. injection R as <-. cbn [r_mask]. destruct (existsb _ _) eqn:EX; cbn [mask_at]; [reflexivity|].
      destruct (nc_is_missing n (n_data n (shift bounds i))) eqn:K; [|reflexivity]. exfalso. apply Bool.not_true_iff_false in EX. apply EX. apply existsb_exists. exists i. split; [now apply in_bounds_indices|exact K].
    Qed.

    Lemma has_fill v1 : wpart g v1 -> gdims g <> [] -> (exists idx, in_block (v_dims v1) idx /\ gmask g idx = true) -> fill_of v1 = Some (gfill g).
    Proof.
      intros P ND (idx & B & M). unfold fill_of. destruct (wp_type g v1 P) as (_ & _ & TF). rewrite TF.
      assert (L : Nat.eqb (List.length (v_dims v1)) 0 = false).
      { rewrite <- (F2_length _ _ _ (wp_dims g v1 P)). destruct (gdims g); [congruence|reflexivity]. }
      rewrite L. assert (HM : has_masked_values v1 = true).
      { unfold has_masked_values. pose proof (wp_mask g v1 P idx B) as K. rewrite M in K. unfold mask_at in K. destruct (v_mask v1) as [m|]; [|discriminate].
        apply existsb_exists. exists (place (v_dims v1) idx). split; [|exact K]. apply in_indices. unfold place, shape. clear - B. unfold in_block in B.
        induction B; cbn [combine map fst snd]; constructor; [lia|assumption]. }
      rewrite HM. reflexivity.
    Qed.

    Lemma reads_mask_ok v1 : In v1 (c_vars c1) -> wpart g v1 -> no_clash g -> can_mask g v1 -> reads_mask f g.
    Proof.
      intros Iv1 P1 NC CM bounds r B R i X. destruct read_var as (n & v1' & Iv & P & E & Nd & Nb & Ndf & Nf & Na & V & D).
      assert (v1' = v1) as ->.
      { destruct OK as (St & _ & _). assert (N : NoDup (map v_name (c_vars c1))).
        { pose proof (pr_names G PR) as N. replace (map v_name (c_vars c1)) with (map gname G); [exact N|]. clear - PARTS. induction PARTS as [|a b l1 l2 Pa F IH]; cbn [map]; [reflexivity|]. now rewrite IH, (wp_name a b Pa). }
        assert (Q : v_name v1' = v_name v1) by (rewrite (wp_name g v1 P1); apply (wp_name g v1' P)).
        clear - N Q Iv Iv1. induction (c_vars c1) as [|a t IH]; [easy|]. cbn [map] in N. inversion N as [|? ? N1 N2]. subst. destruct Iv as [->|Iv], Iv1 as [->|Iv1]; auto.
        - exfalso. apply N1. rewrite Q. now apply in_map.
        - exfalso. apply N1. rewrite <- Q. now apply in_map. }
      rewrite (mask_seen v1 n bounds r i V E Nd R X). pose proof (in_bounds_array bounds i B X) as A. destruct (D _ A) as [D0 D1]. destruct (wp_type g v1 P1) as (_ & _ & TF).
      assert (FF : n_fill n = None \/ n_fill n = Some (gfill g)).
      { rewrite Nf. unfold fill_of. rewrite TF. destruct (_ || _); auto. }
      destruct (gmask g (shift bounds i)) eqn:M.
      - specialize (D1 eq_refl). unfold nc_is_missing. destruct D1 as [K|[K|[K1 K2]]].
        + rewrite K, Z.eqb_refl. reflexivity.
        + rewrite K, Z.eqb_refl. apply orb_true_r.
        + rewrite K1, K2, Z.eqb_refl, Nb. destruct CM as [CM|[[a CM]|[CM|[CM1 CM2]]]].
          * rewrite CM. apply orb_true_r.
          * exfalso. rewrite Nf in K1. unfold fill_of in K1. destruct (wp_meta g v1 P1) as [Ma _]. rewrite Ma in K1. apply (dg_iff _ _ _ (pr_attrs G PR g I)) in CM.
            unfold dmem in K1. rewrite CM in K1. rewrite orb_true_r in K1. discriminate.
          * rewrite CM in M by exact A. discriminate.
          * exfalso. rewrite (has_fill v1 P1 CM1 CM2) in Nf. congruence.
      - specialize (D0 eq_refl). destruct (NC _ A M) as (C1 & C2 & C3). rewrite D0. unfold nc_is_missing. apply orb_false_iff. split.
        + destruct (missing_value n) as [w|] eqn:K; [|reflexivity]. apply Z.eqb_neq. intro Q. apply C3. rewrite Q. now apply (missing_of g n).
        + destruct FF as [-> | ->].
          * apply Z.eqb_neq in C2. rewrite Ndf, C2. apply andb_false_r.
          * now apply Z.eqb_neq.
    Qed.

    Lemma dg_filter {V} (p : string -> bool) (l : list (string * V)) k : p k = true -> dg (filter (fun q => p (fst q)) l) k = dg l k.
    Proof.
      intro H. induction l as [|[k' v'] t IH]; cbn [filter dget fst]; [reflexivity|]. destruct (p k') eqn:Ep; cbn [dget]; [now rewrite IH|].
      destruct (String.eqb k k') eqn:E; [|exact IH]. apply String.eqb_eq in E. congruence.
    Qed.

    Lemma reads_attrs_ok : reads_attrs f g.
    Proof.
      destruct read_var as (n & v1 & _ & _ & E & Nd & _ & _ & Nf & Na & V & D). intros bounds r B R k a K1 K2 K3. rewrite (read_ok v1 n bounds V E Nd) in R. injection R as <-. cbn [r_attrs].
      rewrite (dg_filter (fun k => negb (String.eqb k "add_offset" || String.eqb k "scale_factor"))).
      - rewrite dg_app. assert (X : dg match n_fill n with Some z => [("_FillValue", ANum z)] | None => [] end k = None).
        { destruct (n_fill n); [|reflexivity]. cbn [dget]. apply String.eqb_neq in K1. now rewrite K1. }
        rewrite X, Na. now apply attrs_of_get.
      - apply String.eqb_neq in K2, K3. now rewrite K2, K3.
    Qed.

    (** A byte without a fill value has nothing masked. *)
    Lemma byte_no_mask v1 : In v1 (c_vars c1) -> wpart g v1 -> gbyte g = true -> ~ (exists a, In ("_FillValue", a) (gattrs g)) -> (forall z, ~ In ("missing_value", ANum z) (gattrs g)) ->
      has_masked_values v1 = false -> forall bounds r, block_of g bounds -> read_variable bounds (gname g) f = Ok r -> forall i, in_bounds bounds i -> mask_at (r_mask r) i = false.
    Proof.
      intros Iv1 P1 BT NF NM HM bounds r B R i X. destruct read_var as (n & v1' & Iv & P & E & Nd & Nb & Ndf & Nf & Na & V & D).
      rewrite (mask_seen v1' n bounds r i V E Nd R X). unfold nc_is_missing. apply orb_false_iff. split.
      - destruct (missing_value n) as [w|] eqn:K; [|reflexivity]. exfalso. apply (NM w). now apply (missing_of g n).
      - assert (v1' = v1) as ->.
        { destruct OK as (St & _ & _). assert (N : NoDup (map v_name (c_vars c1))).
          { pose proof (pr_names G PR) as N. replace (map v_name (c_vars c1)) with (map gname G); [exact N|]. clear - PARTS. induction PARTS as [|a b l1 l2 Pa F IH]; cbn [map]; [reflexivity|]. now rewrite IH, (wp_name a b Pa). }
          assert (Q : v_name v1' = v_name v1) by (rewrite (wp_name g v1 P1); apply (wp_name g v1' P)).
          clear - N Q Iv Iv1. induction (c_vars c1) as [|a t IH]; [easy|]. cbn [map] in N. inversion N as [|? ? N1 N2]. subst. destruct Iv as [->|Iv], Iv1 as [->|Iv1]; auto.
          - exfalso. apply N1. rewrite Q. now apply in_map.
          - exfalso. apply N1. rewrite <- Q. now apply in_map. }
        rewrite Nf. unfold fill_of. rewrite HM, andb_false_r. cbn [orb]. destruct (wp_meta g v1 P1) as [Ma _]. rewrite Ma.
        destruct (dmem String.eqb (gattrs g) "_FillValue") eqn:K; [|now rewrite Nb, BT].
        exfalso. apply NF. unfold dmem in K. destruct (dg (gattrs g) "_FillValue") as [a|] eqn:KK; [|discriminate]. exists a. now apply dg_in.
    Qed.

    (** A value that is not masked and looks like a missing one is read as masked. *)
    Lemma clash_masked : gbyte g = false -> ~ (exists a, In ("_FillValue", a) (gattrs g)) -> (forall idx, in_array g idx -> gmask g idx = false) ->
      forall bounds r, block_of g bounds -> read_variable bounds (gname g) f = Ok r -> forall i, in_bounds bounds i -> gvalue g (shift bounds i) = gdefault g -> mask_at (r_mask r) i = true.
    Proof.
      intros BT NF NM bounds r B R i X EQ. destruct read_var as (n & v1 & Iv & P & E & Nd & Nb & Ndf & Nf & Na & V & D).
      rewrite (mask_seen v1 n bounds r i V E Nd R X). pose proof (in_bounds_array bounds i B X) as A. destruct (D _ A) as [D0 _]. rewrite D0 by now apply NM.
      unfold nc_is_missing. apply orb_true_iff. right. assert (n_fill n = None) as ->.
      { rewrite Nf. unfold fill_of. assert (HM : has_masked_values v1 = false).
        { unfold has_masked_values. destruct (v_mask v1) as [m|] eqn:EM; [|reflexivity]. apply Bool.not_true_iff_false. intro K. apply existsb_exists in K. destruct K as (j & Ij & Mj).
          apply in_indices in Ij. unfold shape in Ij.
          assert (Z : exists idx, in_block (v_dims v1) idx /\ place (v_dims v1) idx = j /\ in_array g idx).
          { pose proof (wp_dims g v1 P) as F. unfold in_block, place, in_array. clear - F Ij. revert j Ij. induction F as [|gd d l1 l2 (_ & L) F IH]; intros j Ij; cbn [map] in Ij; inversion Ij; subst.
            - exists []. repeat split; constructor.
            - destruct (IH _ H3) as (idx & Q1 & Q2 & Q3). exists ((d_lo d + x)%nat :: idx). split; [constructor; [lia|exact Q1]|]. split.
              + cbn [combine map fst snd]. rewrite Q2. f_equal. lia.
              + constructor; [lia|exact Q3]. }
          destruct Z as (idx & Z1 & Z2 & Z3). pose proof (wp_mask g v1 P idx Z1) as K. rewrite EM, Z2 in K. cbn [mask_at] in K. rewrite (NM idx Z3) in K. congruence. }
        rewrite HM, andb_false_r. cbn [orb]. destruct (wp_meta g v1 P) as [Ma _]. rewrite Ma.
        destruct (dmem String.eqb (gattrs g) "_FillValue") eqn:K; [|reflexivity]. exfalso. apply NF. unfold dmem in K. destruct (dg (gattrs g) "_FillValue") as [a|] eqn:KK; [|discriminate]. exists a. now apply dg_in. }
      rewrite Nb, BT, Ndf, EQ. apply Z.eqb_refl.
    Qed.
  End Read.
End Main.
