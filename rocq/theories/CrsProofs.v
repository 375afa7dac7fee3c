(** * Proofs about reading and writing coordinate systems *)
From Verif Require Import Py Lib RequestNames CrsModel CrsSpec.
From Coq Require Import DecimalNat DecimalString.
From Coq Require Import String Ascii Bool List ZArith Lia.
Import ListNotations.
Local Open Scope string_scope.
Local Open Scope list_scope.

Lemma attr_is_iff a k s : attr_is a k s = true <-> says a k s.
Proof.
  unfold attr_is, says. destruct (aget a k) as [[x|x|x|]|]; try (split; easy).
  destruct (String.eqb_spec x s) as [->|N]; split; intros H; try easy; try reflexivity. congruence.
Qed.

Lemma attr_is_false a k s : attr_is a k s = false <-> ~ says a k s.
Proof.
  rewrite <- attr_is_iff. destruct (attr_is a k s); split; intros H; try easy.
Qed.

Lemma cf_grid_mapping_iff k s : cf_grid_mapping k s <-> s = mapping_name k.
Proof. destruct k; cbn; reflexivity. Qed.

Lemma mapping_name_inj k k' : mapping_name k = mapping_name k' -> k = k'.
Proof. destruct k, k'; cbn; intros H; try reflexivity; discriminate H. Qed.

Lemma fuzzy_cf k n : In n (fuzzy_names k) -> In n cf_names.
Proof. destruct k; cbn; intuition. Qed.

Lemma existsb_eqb n l : existsb (String.eqb n) l = true <-> In n l.
Proof.
  rewrite existsb_exists. split.
  - intros (x & I & E). apply String.eqb_eq in E. now subst.
  - intros I. exists n. split; [exact I|apply String.eqb_refl].
Qed.

(** ** The pipeline for one grid mapping variable *)
Definition the_crs (k : cfclass) (md : metadata) (g : vmeta) : res csys :=
  do pxy <- (if finds_coordinates k then
               do x <- projection_coordinate md "projection_x_coordinate";
               do y <- projection_coordinate md "projection_y_coordinate";
               Ok (Some x, Some y)
             else Ok (None, None));
  let kwds := apop (vm_attrs g) "grid_mapping_name" in
  do kwds' <- match k, fst pxy with
              | Lambert, Some x =>
                  match aget md x with
                  | Some xv => Ok (aset kwds "units" (match aget (vm_attrs xv) "units" with Some u => u | None => ANone end))
                  | None => Err KeyError
                  end
              | _, _ => Ok kwds
              end;
  cf_init k (fst pxy) (snd pxy) (vm_name g) kwds'.

Lemma bind_assoc {A B C} (x : res A) (f : A -> res B) (h : B -> res C) :
  bind (bind x f) h = bind x (fun a => bind (f a) h).
Proof. destruct x; reflexivity. Qed.

Lemma bind_ext {A B} (x : res A) (f h : A -> res B) : (forall a, f a = h a) -> bind x f = bind x h.
Proof. intros H. destruct x; [apply H|reflexivity]. Qed.

Lemma load_cf_eq k md strict var v g :
  aget md var = Some v -> grid_mapping_of k md strict v = Some g ->
  load_cf k md strict var =
    if attr_is (vm_attrs g) "grid_mapping_name" (mapping_name k) then do c <- the_crs k md g; Ok (Some c) else Ok None.
Proof.
  intros E G. unfold load_cf, the_crs. rewrite E, G.
  destruct (attr_is (vm_attrs g) "grid_mapping_name" (mapping_name k)); [|reflexivity].
  rewrite bind_assoc. apply bind_ext. intros a. cbv zeta. rewrite bind_assoc. reflexivity.
Qed.

(** *** Projection coordinates *)
Lemma projection_coordinate_the md key n :
  the_coordinate md key n -> projection_coordinate md key = Ok n.
Proof.
  intros ((v & I & S') & U). unfold projection_coordinate.
  destruct (find _ md) as [[m w]|] eqn:F.
  - apply find_some in F. destruct F as [I' S'']. apply attr_is_iff in S''. f_equal. exact (U m w I' S'').
  - exfalso. pose proof (find_none _ _ F (n, v) I) as N. cbn in N. apply attr_is_false in N. easy.
Qed.

Lemma projection_coordinate_none md key :
  (forall n v, In (n, v) md -> ~ says (vm_attrs v) "standard_name" key) ->
  projection_coordinate md key = Err ProjectionCoordinateNotFound.
Proof.
  intros N. unfold projection_coordinate. destruct (find _ md) as [[m w]|] eqn:F; [|reflexivity].
  apply find_some in F. destruct F as [I S']. apply attr_is_iff in S'. destruct (N m w I S').
Qed.

(** *** Dictionaries *)
Lemma dget_dremove {V} (d : list (string * V)) k n :
  n <> k -> dget String.eqb (dremove String.eqb d k) n = dget String.eqb d n.
Proof.
  intros N. induction d as [|[k' v] t IH]; [reflexivity|]. cbn [dremove dget].
  destruct (String.eqb_spec k k') as [->|N'].
  - destruct (String.eqb_spec n k'); [easy|reflexivity].
  - cbn [dget]. now rewrite IH.
Qed.

Lemma dremove_absent {V} (d : list (string * V)) k : ~ In k (map fst d) -> dremove String.eqb d k = d.
Proof.
  induction d as [|[k' v] t IH]; [reflexivity|]. cbn [map fst dremove In]. intros N.
  destruct (String.eqb_spec k k') as [->|N']; [exfalso; apply N; now left|].
  f_equal. apply IH. intros I. apply N. now right.
Qed.

Lemma dset_same {V} (d : list (string * V)) k v : dget String.eqb d k = Some v -> dset String.eqb d k v = d.
Proof.
  induction d as [|[k' v'] t IH]; [easy|]. cbn [dget dset].
  destruct (String.eqb_spec k k') as [->|N]; [now intros [= ->]|]. intros H. f_equal. exact (IH H).
Qed.

(** ** The PROJ.4 dictionary *)
Lemma fold_res_ok {A S'} (f : S' -> A -> res S') l s s' :
  fold_res f l s = Ok s' -> Forall (fun x => exists t u, f t x = Ok u) l.
Proof.
  revert s. induction l as [|x t IH]; intros s H; [constructor|]. cbn [fold_res] in H.
  destruct (f s x) as [u|] eqn:E; [|easy]. cbn [bind] in H. constructor; [now exists s, u|]. exact (IH u H).
Qed.

Lemma fold_res_all {A S'} (f : S' -> A -> res S') l s :
  (forall t x, In x l -> exists u, f t x = Ok u) -> exists s', fold_res f l s = Ok s'.
Proof.
  revert s. induction l as [|x t IH]; intros s H; [now exists s|]. cbn [fold_res].
  destruct (H s x (or_introl eq_refl)) as (u & ->). cbn [bind]. apply IH. intros t' y I. apply H. now right.
Qed.

Definition has_value (k : cfclass) (kwds : attrs) (p : string) : Prop :=
  present kwds p \/ (iterable k p = false /\ exists v, map_default k p = Some v).

Lemma add_parameter_ok k kwds t p : has_value k kwds (fst p) -> exists u, add_parameter k kwds t p = Ok u.
Proof.
  destruct p as [name key]. cbn [fst]. intros H. unfold add_parameter. destruct (iterable k name) eqn:I.
  - destruct H as [[v ->]|[E _]]; [eauto|congruence].
  - destruct (aget kwds name) as [v|] eqn:G; [eauto|].
    destruct H as [[v E]|[_ [v ->]]]; [congruence|eauto].
Qed.

Lemma proj_value_ok k kwds :
  (forall p, In p (map_parameters k) -> has_value k kwds (fst p)) -> exists v, proj_value k kwds = Ok v.
Proof.
  intros H. unfold proj_value. apply fold_res_all. intros t x I. apply add_parameter_ok. exact (H x I).
Qed.

Lemma add_absent_get k kwds p : present kwds p -> aget (add_absent k kwds) p = aget kwds p.
Proof.
  intros [v E]. unfold add_absent. destruct k; try reflexivity.
  - destruct (dmem String.eqb kwds "scale_factor") eqn:M; [reflexivity|].
    rewrite dget_dset. destruct (String.eqb_spec p "scale_factor") as [->|N]; [|reflexivity].
    unfold dmem in M. now rewrite E in M.
  - destruct (dmem String.eqb kwds "alpha") eqn:M; [reflexivity|].
    rewrite dget_dset. destruct (String.eqb_spec p "alpha") as [->|N]; [|reflexivity].
    unfold dmem in M. now rewrite E in M.
Qed.

Lemma add_absent_get' k kwds p : p <> "scale_factor" -> p <> "alpha" -> aget (add_absent k kwds) p = aget kwds p.
Proof.
  intros N1 N2. unfold add_absent. destruct k; try reflexivity.
  - destruct (dmem String.eqb kwds "scale_factor"); [reflexivity|].
    rewrite dget_dset. now destruct (String.eqb_spec p "scale_factor").
  - destruct (dmem String.eqb kwds "alpha"); [reflexivity|].
    rewrite dget_dset. now destruct (String.eqb_spec p "alpha").
Qed.

Lemma add_absent_has k kwds :
  (forall p, In p (required k) -> present kwds p) -> (k = Lambert -> present kwds "units") ->
  forall p, In p (map_parameters k) -> has_value k (add_absent k kwds) (fst p).
Proof.
  intros R U p I.
  assert (P : present kwds (fst p) -> has_value k (add_absent k kwds) (fst p)).
  { intros Q. left. destruct Q as [v E]. exists v. rewrite add_absent_get; [exact E|now exists v]. }
  destruct k; cbn [map_parameters In] in I; cbn [required In] in R.
  - easy.
  - decompose [or] I; subst; cbn [fst] in *; try easy; apply P; apply R; auto 6.
  - decompose [or] I; subst; cbn [fst] in *; try easy.
    + apply P, R. auto.
    + apply P, R. auto.
    + apply P, R. auto.
    + right. split; [reflexivity|]. eexists; reflexivity.
    + right. split; [reflexivity|]. eexists; reflexivity.
    + apply P. now apply U.
  - decompose [or] I; subst; cbn [fst] in *; try easy; try (apply P; apply R; auto 6; fail).
    left. unfold add_absent, present. destruct (dmem String.eqb kwds "scale_factor") eqn:M.
    + unfold dmem in M. destruct (aget kwds "scale_factor") as [v|]; [now exists v|easy].
    + exists (ANum 1). rewrite dget_dset. reflexivity.
  - decompose [or] I; subst; cbn [fst] in *; try easy; try (apply P; apply R; auto 6; fail).
    left. unfold add_absent, present. destruct (dmem String.eqb kwds "alpha") eqn:M.
    + unfold dmem in M. destruct (aget kwds "alpha") as [v|]; [now exists v|easy].
    + exists (ANum 360). rewrite dget_dset. reflexivity.
  - decompose [or] I; subst; cbn [fst] in *; try easy; apply P; apply R; auto.
Qed.

Lemma cf_init_ok k px py name kwds :
  (forall p, In p (required k) -> present kwds p) -> (k = Lambert -> present kwds "units") ->
  ~ present kwds "epsg" ->
  exists v, proj_value k (add_absent k kwds) = Ok v /\
    cf_init k px py name kwds = Ok (mkcsys (SCF k) name (add_absent k kwds) v px py).
Proof.
  intros R U E. destruct (proj_value_ok k (add_absent k kwds) (add_absent_has k kwds R U)) as [v V].
  exists v. split; [exact V|]. unfold cf_init. cbv zeta.
  assert (M : dmem String.eqb (add_absent k kwds) "epsg" = false).
  { unfold dmem. rewrite add_absent_get' by easy. destruct (aget kwds "epsg") as [x|] eqn:G; [|reflexivity].
    exfalso. apply E. now exists x. }
  rewrite M, V. reflexivity.
Qed.

(** *** What the dictionary holds *)
Lemma aset_other (d : attrs) k v n : n <> k -> aget (aset d k v) n = aget d n.
Proof. intros N. rewrite dget_dset. now destruct (String.eqb_spec n k). Qed.

Lemma aset_this (d : attrs) k v : aget (aset d k v) k = Some v.
Proof. rewrite dget_dset. now rewrite String.eqb_refl. Qed.

(** The keys a parameter may write. *)
Definition writes (k : cfclass) (p : string * string) (key : string) : Prop :=
  if iterable k (fst p) then exists i, (0 < i)%nat /\ key = (snd p ++ digits i)%string else key = snd p.

Lemma fold_aset_other l (d : attrs) n :
  (forall kv, In kv l -> fst kv <> n) ->
  aget (fold_left (fun d kv => aset d (fst kv) (snd kv)) l d) n = aget d n.
Proof.
  revert d. induction l as [|x t IH]; intros d H; [reflexivity|]. cbn [fold_left].
  rewrite IH; [|intros kv I; apply H; now right]. apply aset_other. intros E. exact (H x (or_introl eq_refl) (eq_sym E)).
Qed.

Lemma format_parallel_keys pre v kv : In kv (format_parallel pre v) -> exists i, (0 < i)%nat /\ fst kv = (pre ++ digits i)%string.
Proof.
  assert (O : forall w, In kv [((pre ++ "1")%string, w)] -> exists i, (0 < i)%nat /\ fst kv = (pre ++ digits i)%string).
  { intros w [<-|[]]. exists 1%nat. split; [lia|reflexivity]. }
  unfold format_parallel. destruct v; try exact (O _). intros I. apply in_map_iff in I. destruct I as ([i z] & <- & J).
  apply in_combine_l, in_seq in J. exists i. split; [lia|reflexivity].
Qed.

Lemma add_parameter_other k kwds d p d' n :
  add_parameter k kwds d p = Ok d' -> ~ writes k p n -> aget d' n = aget d n.
Proof.
  destruct p as [name key]. unfold add_parameter, writes. cbn [fst snd].
  destruct (iterable k name).
  - destruct (aget kwds name) as [v|]; [|easy]. intros [= <-] N. apply fold_aset_other.
    intros kv I E. apply N. destruct (format_parallel_keys key v kv I) as (i & Li & Ei). exists i. split; [exact Li|congruence].
  - intros H N. assert (n <> key) by congruence.
    destruct (aget kwds name) as [v|].
    + injection H as <-. now apply aset_other.
    + destruct (map_default k name) as [v|]; [|easy]. injection H as <-. now apply aset_other.
Qed.

Lemma fold_parameter_other k kwds l d d' n :
  fold_res (add_parameter k kwds) l d = Ok d' -> (forall p, In p l -> ~ writes k p n) -> aget d' n = aget d n.
Proof.
  revert d. induction l as [|x t IH]; intros d H N; [now injection H as ->|]. cbn [fold_res] in H.
  destruct (add_parameter k kwds d x) as [u|] eqn:E; [|easy]. cbn [bind] in H.
  rewrite (IH u H); [|intros p I; apply N; now right]. apply (add_parameter_other k kwds d x u n E). apply N. now left.
Qed.

Lemma fold_parameter_this k kwds pre name key post d d' v :
  fold_res (add_parameter k kwds) (pre ++ (name, key) :: post) d = Ok d' -> iterable k name = false ->
  aget kwds name = Some v -> (forall p, In p post -> ~ writes k p key) -> aget d' key = Some v.
Proof.
  revert d. induction pre as [|x t IH]; intros d H I G N.
  - cbn [app fold_res] in H. destruct (add_parameter k kwds d (name, key)) as [u|] eqn:E; [|easy]. cbn [bind] in H.
    rewrite (fold_parameter_other k kwds post u d' key H N).
    unfold add_parameter in E. rewrite I, G in E. injection E as <-. apply aset_this.
  - cbn [app fold_res] in H. destruct (add_parameter k kwds d x) as [u|] eqn:E; [|easy]. cbn [bind] in H.
    exact (IH u H I G N).
Qed.

Lemma fold_parameter_default k kwds pre name key post d d' v :
  fold_res (add_parameter k kwds) (pre ++ (name, key) :: post) d = Ok d' -> iterable k name = false ->
  aget kwds name = None -> map_default k name = Some v -> (forall p, In p post -> ~ writes k p key) -> aget d' key = Some v.
Proof.
  revert d. induction pre as [|x t IH]; intros d H I G M N.
  - cbn [app fold_res] in H. destruct (add_parameter k kwds d (name, key)) as [u|] eqn:E; [|easy]. cbn [bind] in H.
    rewrite (fold_parameter_other k kwds post u d' key H N).
    unfold add_parameter in E. rewrite I, G, M in E. injection E as <-. apply aset_this.
  - cbn [app fold_res] in H. destruct (add_parameter k kwds d x) as [u|] eqn:E; [|easy]. cbn [bind] in H.
    exact (IH u H I G M N).
Qed.

Lemma proj_value_zero kwds d a key : proj_value Lambert kwds = Ok d -> In (a, key) [("false_easting", "x_0"); ("false_northing", "y_0")] ->
  aget kwds a = None -> aget d key = Some (ANum 0).
Proof.
  intros H I G. unfold proj_value in H.
  assert (S' : exists pre post, map_parameters Lambert = pre ++ (a, key) :: post /\ iterable Lambert a = false /\ map_default Lambert a = Some (ANum 0) /\
                 (forall p, In p post -> ~ writes Lambert p key)).
  { destruct I as [[= <- <-]|[[= <- <-]|[]]].
    - eexists [_; _; _], _. split; [reflexivity|]. split; [reflexivity|]. split; [reflexivity|]. intros p J. cbn [In] in J. decompose [or] J; subst; easy.
    - eexists [_; _; _; _], _. split; [reflexivity|]. split; [reflexivity|]. split; [reflexivity|]. intros p J. cbn [In] in J. decompose [or] J; subst; easy. }
  destruct S' as (pre & post & E & It & M & N). rewrite E in H.
  exact (fold_parameter_default Lambert kwds pre a key post _ d _ H It G M N).
Qed.

Lemma digits_zero i : (0 < i)%nat -> digits i <> "0".
Proof.
  intros L E. unfold digits in E.
  assert (H : Nat.to_uint i = Decimal.D0 Decimal.Nil).
  { destruct (Nat.to_uint i) as [|u|u|u|u|u|u|u|u|u|u]; try easy.
    cbn in E. injection E as E. destruct u; easy. }
  assert (H' : i = 0%nat); [|lia].
  rewrite <- (DecimalNat.Unsigned.of_to i), H. reflexivity.
Qed.

Lemma not_parallel s i : (0 < i)%nat -> In s ["lon_0"; "lat_0"; "x_0"; "y_0"; "units"; "proj"] -> s <> ("lat_" ++ digits i)%string.
Proof.
  intros L I. cbn [In] in I. destruct I as [<-|[<-|[<-|[<-|[<-|[<-|[]]]]]]]; intros E; try easy; cbn in E.
  injection E as E. now apply (digits_zero i L).
Qed.

Lemma proj_value_key k kwds d a key v :
  proj_value k kwds = Ok d -> In (a, key) (proj_key k) -> aget kwds a = Some v -> aget d key = Some v.
Proof.
  intros H I G. unfold proj_value in H.
  assert (S' : exists pre post, map_parameters k = pre ++ (a, key) :: post /\ iterable k a = false /\
                 (forall p, In p post -> ~ writes k p key)).
  { destruct k; cbn [proj_key In] in I; try easy;
      repeat (destruct I as [[= <- <-]|I]); try easy; cbn [map_parameters].
    - eexists [_], _. split; [reflexivity|]. split; [reflexivity|]. intros p J. cbn [In] in J. decompose [or] J; subst; easy.
    - eexists [_; _], _. split; [reflexivity|]. split; [reflexivity|]. intros p J. cbn [In] in J. decompose [or] J; subst; easy.
    - eexists [_; _; _], _. split; [reflexivity|]. split; [reflexivity|]. intros p J. cbn [In] in J. decompose [or] J; subst; easy.
    - eexists [_; _; _; _], _. split; [reflexivity|]. split; [reflexivity|]. intros p J. cbn [In] in J. decompose [or] J; subst; easy.
    - eexists [_], _. split; [reflexivity|]. split; [reflexivity|]. intros p J. cbn [In] in J. decompose [or] J; subst; easy.
    - eexists [_; _], _. split; [reflexivity|]. split; [reflexivity|]. intros p J. cbn [In] in J. decompose [or] J; subst; easy.
    - eexists [_; _; _], _. split; [reflexivity|]. split; [reflexivity|]. intros p J. cbn [In] in J. decompose [or] J; subst; easy.
    - eexists [_; _; _; _], _. split; [reflexivity|]. split; [reflexivity|]. intros p J. cbn [In] in J. decompose [or] J; subst; easy.
    - eexists [], _. split; [reflexivity|]. split; [reflexivity|]. intros p J. cbn [In] in J. decompose [or] J; subst; easy.
    - eexists [_], _. split; [reflexivity|]. split; [reflexivity|]. intros p J. cbn [In] in J. decompose [or] J; subst; easy.
    - eexists [_; _], _. split; [reflexivity|]. split; [reflexivity|]. intros p J. cbn [In] in J. decompose [or] J; subst; easy.
    - eexists [_; _; _], _. split; [reflexivity|]. split; [reflexivity|]. intros p J. cbn [In] in J. decompose [or] J; subst; easy.
    - eexists [_; _; _; _], _. split; [reflexivity|]. split; [reflexivity|]. intros p J. cbn [In] in J. decompose [or] J; subst; easy.
    - eexists [], _. split; [reflexivity|]. split; [reflexivity|]. intros p J. cbn [In] in J. decompose [or] J; subst; easy.
    - eexists [_], _. split; [reflexivity|]. split; [reflexivity|]. intros p J. cbn [In] in J. decompose [or] J; subst; easy.
    - eexists [_; _], _. split; [reflexivity|]. split; [reflexivity|]. intros p J. cbn [In] in J. decompose [or] J; subst; easy.
    - eexists [_; _; _], _. split; [reflexivity|]. split; [reflexivity|]. intros p J. cbn [In] in J. decompose [or] J; subst; easy.
    - eexists [_; _; _; _], _. split; [reflexivity|]. split; [reflexivity|]. intros p J. cbn [In] in J. decompose [or] J; subst; easy. }
  destruct S' as (pre & post & E & It & N). rewrite E in H.
  exact (fold_parameter_this k kwds pre a key post _ d v H It G N).
Qed.

Lemma proj_value_proj k kwds d : proj_value k kwds = Ok d -> aget d "proj" = Some (AStr (proj_name k)).
Proof.
  intros H. unfold proj_value in H. rewrite (fold_parameter_other k kwds _ _ _ "proj" H); [reflexivity|].
  intros p I W. unfold writes in W. destruct k; cbn [map_parameters In] in I; try easy;
    decompose [or] I; subst; cbn [fst snd] in W; try easy; cbn [iterable] in W;
    rewrite ?String.eqb_refl in W; cbn in W; try easy; destruct W as (i & L & W); easy.
Qed.

(** *** Standard parallels *)
Lemma to_uint_inj m n : Nat.to_uint m = Nat.to_uint n -> m = n.
Proof. intros H. rewrite <- (DecimalNat.Unsigned.of_to m), <- (DecimalNat.Unsigned.of_to n), H. reflexivity. Qed.

Lemma digits_inj m n : digits m = digits n -> m = n.
Proof.
  unfold digits. intros H. apply to_uint_inj.
  assert (E : NilEmpty.uint_of_string (NilEmpty.string_of_uint (Nat.to_uint m)) =
              NilEmpty.uint_of_string (NilEmpty.string_of_uint (Nat.to_uint n))) by now rewrite H.
  rewrite !NilEmpty.usu in E. congruence.
Qed.

Lemma append_inj p a b : (p ++ a)%string = (p ++ b)%string -> a = b.
Proof. induction p as [|c p IH]; cbn; [auto|]. intros [= H]. auto. Qed.

Lemma fold_parallel_get l pre s (d : attrs) i z :
  nth_error l i = Some z ->
  aget (fold_left (fun d kv => aset d (fst kv) (snd kv))
          (map (fun '(i, z) => ((pre ++ digits i)%string, ANum z)) (combine (seq s (length l)) l)) d)
       (pre ++ digits (s + i))%string = Some (ANum z).
Proof.
  revert s d i. induction l as [|x t IH]; intros s d i E; [now destruct i|].
  cbn [length seq combine map fold_left fst snd]. destruct i as [|i].
  - injection E as ->. rewrite Nat.add_0_r. rewrite fold_aset_other; [apply aset_this|].
    intros kv I Q. apply in_map_iff in I. destruct I as ([j w] & <- & J). cbn [fst] in Q.
    apply append_inj, digits_inj in Q. apply in_combine_l, in_seq in J. lia.
  - replace (s + S i)%nat with (S s + i)%nat by lia. apply IH. exact E.
Qed.

Lemma parallels_first k : k = Albers \/ k = Lambert ->
  exists post, map_parameters k = ("standard_parallel", "lat_") :: post /\ iterable k "standard_parallel" = true /\
    forall p i, In p post -> (0 < i)%nat -> ~ writes k p ("lat_" ++ digits i)%string.
Proof.
  intros K.
  assert (M : exists post, map_parameters k = ("standard_parallel", "lat_") :: post /\
                iterable k "standard_parallel" = true /\ (forall p, In p post -> iterable k (fst p) = false /\ In (snd p) ["lon_0"; "lat_0"; "x_0"; "y_0"; "units"; "proj"])).
  { destruct K as [-> | ->]; eexists; (split; [reflexivity|]); (split; [reflexivity|]);
      intros p J; cbn [In] in J; decompose [or] J; subst; try easy; split; try reflexivity; cbn; auto 8. }
  destruct M as (post & M & It & O). exists post. split; [exact M|]. split; [exact It|].
  intros p i J L W. unfold writes in W. destruct (O p J) as [Ip Ip']. rewrite Ip in W.
  rewrite <- W in Ip'. now apply (not_parallel _ i) in Ip'.
Qed.

Lemma proj_value_parallel k kwds d l i z :
  k = Albers \/ k = Lambert -> proj_value k kwds = Ok d -> aget kwds "standard_parallel" = Some (ASeq l) ->
  nth_error l i = Some z -> aget d ("lat_" ++ digits (1 + i))%string = Some (ANum z).
Proof.
  intros K H G E. unfold proj_value in H. destruct (parallels_first k K) as (post & M & It & O).
  rewrite M in H. cbn [fold_res] in H. unfold add_parameter at 1 in H. rewrite It, G in H. cbn [bind] in H.
  rewrite (fold_parameter_other k kwds post _ d _ H).
  - apply (fold_parallel_get l "lat_" 1). exact E.
  - intros p J. apply O; [exact J|lia].
Qed.

Lemma proj_value_parallel1 k kwds d z :
  k = Albers \/ k = Lambert -> proj_value k kwds = Ok d -> aget kwds "standard_parallel" = Some (ANum z) ->
  aget d "lat_1" = Some (ANum z).
Proof.
  intros K H G. unfold proj_value in H. destruct (parallels_first k K) as (post & M & It & O).
  rewrite M in H. cbn [fold_res] in H. unfold add_parameter at 1 in H. rewrite It, G in H.
  cbn [bind format_parallel fold_left fst snd] in H.
  rewrite (fold_parameter_other k kwds post _ d _ H).
  - apply aset_this.
  - intros p J. apply (O p 1%nat); [exact J|lia].
Qed.

(** ** Searching a file with one grid mapping *)
Lemma aget_in (md : metadata) n v : names_ok md -> In (n, v) md -> aget md n = Some v.
Proof. intros [N _] I. now apply dget_nodup. Qed.

Lemma in_aget (md : metadata) n v : aget md n = Some v -> In (n, v) md.
Proof. apply dget_in. Qed.

Lemma grid_mapping_of_only md k g a k' n v :
  only_mapping md k g a -> In (n, v) md -> grid_mapping_of k' md false v = Some (mkvmeta g a) \/ grid_mapping_of k' md false v = None.
Proof.
  intros O I. destruct O as [N Hr _ _ _ On _ Al].
  pose proof (aget_in md g _ N Hr) as Eg. unfold grid_mapping_of.
  assert (F : match find (fun '(_, w) => existsb (String.eqb (vm_name w)) (fuzzy_names k')) md with Some (_, w) => Some w | None => None end
              = Some (mkvmeta g a) \/ match find (fun '(_, w) => existsb (String.eqb (vm_name w)) (fuzzy_names k')) md with Some (_, w) => Some w | None => None end = None).
  { destruct (find _ md) as [[m w]|] eqn:F; [|now right]. left. apply find_some in F. destruct F as [Im Fm].
    apply existsb_eqb, fuzzy_cf in Fm. rewrite (proj2 N m w Im) in Fm. rewrite (Al m w Im Fm) in Im.
    pose proof (aget_in md g w N Im). congruence. }
  destruct (aget (vm_attrs v) "grid_mapping") as [[h|x|x|]|] eqn:E; try exact F.
  assert (h = g) as -> by (apply On; now exists n, v). rewrite Eg. now left.
Qed.

Lemma load_class_only md k g a c k' n v :
  only_mapping md k g a -> k <> Spherical -> the_crs k md (mkvmeta g a) = Ok c -> In (n, v) md ->
  load_class k' md n = Ok None \/ (k' = k /\ load_class k' md n = Ok (Some c)).
Proof.
  intros O K T I. pose proof O as [N Hr (s & Cs & Ss) _ NL On NoL Al].
  apply cf_grid_mapping_iff in Cs. subst s.
  pose proof (aget_in md n v N I) as En.
  assert (Q : load_cf k' md false n = Ok None \/ (k' = k /\ load_cf k' md false n = Ok (Some c))).
  { destruct (grid_mapping_of_only md k g a k' n v O I) as [E|E].
    - rewrite (load_cf_eq k' md false n v _ En E). cbn [vm_attrs].
      destruct (attr_is a "grid_mapping_name" (mapping_name k')) eqn:A; [|now left].
      right. apply attr_is_iff in A. assert (k' = k) as -> by (apply mapping_name_inj; unfold says in *; congruence).
      now rewrite T.
    - left. unfold load_cf. now rewrite En, E. }
  destruct k'; try exact Q. left. unfold load_class, load_spherical1. rewrite En.
  destruct (attr_is (vm_attrs v) "grid_mapping" "latitude_longitude") eqn:A1.
  - exfalso. apply attr_is_iff in A1. apply NL. symmetry. apply On. now exists n, v.
  - destruct (attr_is (vm_attrs v) "grid_mapping_name" "latitude_longitude") eqn:A2; [|reflexivity].
    exfalso. apply attr_is_iff in A2. exact (NoL n v I A2).
Qed.

Lemma first_class_only md k g a c ks n v :
  only_mapping md k g a -> k <> Spherical -> the_crs k md (mkvmeta g a) = Ok c -> In (n, v) md ->
  first_class ks md n = Ok None \/ first_class ks md n = Ok (Some c).
Proof.
  intros O K T I. induction ks as [|k' t IH]; [now left|]. cbn [first_class].
  destruct (load_class_only md k g a c k' n v O K T I) as [-> | [_ ->]]; cbn [bind]; [exact IH|now right].
Qed.

Lemma first_class_used md k g a c ks n v :
  only_mapping md k g a -> k <> Spherical -> the_crs k md (mkvmeta g a) = Ok c -> In (n, v) md ->
  says (vm_attrs v) "grid_mapping" g -> In k ks -> first_class ks md n = Ok (Some c).
Proof.
  intros O K T I Sg Ik. induction ks as [|k' t IH]; [easy|]. cbn [first_class].
  destruct (load_class_only md k g a c k' n v O K T I) as [E | [_ ->]]; cbn [bind]; [|reflexivity].
  rewrite E. cbn [bind]. destruct Ik as [->|Ik]; [|exact (IH Ik)]. exfalso.
  pose proof O as [N Hr (s & Cs & Ss) _ _ _ _ _]. apply cf_grid_mapping_iff in Cs. subst s.
  assert (L : load_cf k md false n = Ok (Some c)).
  { rewrite (load_cf_eq k md false n v (mkvmeta g a) (aget_in md n v N I)).
    - cbn [vm_attrs]. rewrite (proj2 (attr_is_iff _ _ _) Ss), T. reflexivity.
    - unfold grid_mapping_of. unfold says in Sg. rewrite Sg, (aget_in md g _ N Hr). reflexivity. }
  destruct k; try easy; cbn [load_class] in E; congruence.
Qed.

Lemma map_res_each {A B} (f : A -> res B) (h : A -> B) l :
  (forall x, In x l -> f x = Ok (h x)) -> map_res f l = Ok (map h l).
Proof.
  induction l as [|x t IH]; intros H; [reflexivity|]. cbn [map_res map].
  rewrite (H x (or_introl eq_refl)). cbn [bind]. rewrite IH; [reflexivity|]. intros y I. apply H. now right.
Qed.

Lemma in_subclasses k : In k subclasses.
Proof. destruct k; cbn; auto 10. Qed.

Lemma found_all_only md k g a c :
  only_mapping md k g a -> k <> Spherical -> the_crs k md (mkvmeta g a) = Ok c ->
  exists t, found_all md = Ok (c :: t) /\ Forall (eq c) t.
Proof.
  intros O K T. unfold found_all.
  set (h := fun x : string * vmeta => match first_class subclasses md (fst x) with Ok o => o | Err _ => None end).
  assert (E : map_res (fun '(n, _) => first_class subclasses md n) md = Ok (map h md)).
  { apply map_res_each. intros [n v] I. unfold h. cbn [fst].
    destruct (first_class_only md k g a c subclasses n v O K T I) as [-> | ->]; reflexivity. }
  rewrite E. cbn [bind].
  assert (F : Forall (eq c) (flat_map (fun o => match o with Some c => [c] | None => [] end) (map h md))).
  { apply Forall_forall. intros x I. apply in_flat_map in I. destruct I as (o & Io & Ix).
    apply in_map_iff in Io. destruct Io as ([n v] & Eo & I). unfold h in Eo. cbn [fst] in Eo.
    destruct (first_class_only md k g a c subclasses n v O K T I) as [Q|Q]; rewrite Q in Eo; subst o; [easy|].
    destruct Ix as [<-|[]]. reflexivity. }
  destruct (om_used _ _ _ _ O) as (n & v & I & Sg).
  assert (J : In c (flat_map (fun o => match o with Some c => [c] | None => [] end) (map h md))).
  { apply in_flat_map. exists (Some c). split; [|now left]. apply in_map_iff. exists (n, v). split; [|exact I].
    unfold h. cbn [fst]. now rewrite (first_class_used md k g a c subclasses n v O K T I Sg (in_subclasses k)). }
  destruct (flat_map _ (map h md)) as [|x t]; [easy|]. inversion F as [|x' t' Hx Ht]. subst. now exists t.
Qed.

Lemma existsb_none c t : Forall (eq c) t -> existsb (fun d => negb (String.eqb (cs_name d) (cs_name c))) t = false.
Proof.
  induction 1 as [|x t <- F IH]; [reflexivity|]. cbn [existsb]. now rewrite String.eqb_refl, IH.
Qed.

Lemma get_crs_variable_only md k g a c rp :
  only_mapping md k g a -> k <> Spherical -> the_crs k md (mkvmeta g a) = Ok c ->
  get_crs_variable md rp =
    Ok (Some (if (negb rp && is_rotated (Some c))%bool then match load_spherical2 md with Some s => s | None => c end else c)).
Proof.
  intros O K T. unfold get_crs_variable. destruct (found_all_only md k g a c O K T) as (t & -> & F). cbn [bind].
  rewrite (existsb_none c t F). cbn [bind].
  destruct (negb rp && is_rotated (Some c))%bool; [|reflexivity]. now destruct (load_spherical2 md).
Qed.

(** *** The object made *)
Definition read_params (md : metadata) (k : cfclass) (px : option string) (a : attrs) (u : aval) : attrs :=
  match k with Lambert => aset (apop a "grid_mapping_name") "units" u | _ => apop a "grid_mapping_name" end.

Lemma the_crs_ok k md g a px py u :
  names_ok md -> k <> Spherical -> coordinates md k px py -> (k = Lambert -> units_of md px u) ->
  (forall p, In p (required k) -> present a p) -> ~ present a "epsg" ->
  exists v, proj_value k (add_absent k (read_params md k px a u)) = Ok v /\
    the_crs k md (mkvmeta g a) = Ok (mkcsys (SCF k) g (add_absent k (read_params md k px a u)) v px py).
Proof.
  intros N K Co Un R E.
  assert (P : forall p, p <> "grid_mapping_name" -> p <> "units" -> aget (read_params md k px a u) p = aget a p).
  { intros p N1 N2. unfold read_params. destruct k; rewrite ?aset_other by exact N2; apply dget_dremove; exact N1. }
  destruct (cf_init_ok k px py g (read_params md k px a u)) as (v & V & I).
  - intros p Ip. destruct (R p Ip) as [w Ew]. exists w. rewrite P; [exact Ew| |];
      intros ->; destruct k; cbn [required In] in Ip; decompose [or] Ip; easy.
  - intros ->. exists u. unfold read_params. apply aset_this.
  - intros [w Ew]. apply E. exists w. rewrite <- P; easy.
  - exists v. split; [exact V|]. unfold the_crs. cbn [vm_attrs vm_name].
    destruct k; try easy; cbn [finds_coordinates coordinates] in *;
      try (destruct Co as (x & y & -> & -> & Cx & Cy);
           rewrite (projection_coordinate_the _ _ _ Cx); cbn [bind];
           rewrite (projection_coordinate_the _ _ _ Cy); cbn [bind fst snd]; exact I).
    + destruct Co as (x & y & -> & -> & Cx & Cy).
      rewrite (projection_coordinate_the _ _ _ Cx); cbn [bind];
        rewrite (projection_coordinate_the _ _ _ Cy); cbn [bind fst snd].
      destruct (Un eq_refl) as (n & xv & [= <-] & Ix & Hu). rewrite (aget_in md x xv N Ix). cbn [bind].
      destruct Hu as [Hu|[Hu ->]]; rewrite Hu; exact I.
    + destruct Co as [-> ->]. cbn [bind fst snd]. exact I.
Qed.
