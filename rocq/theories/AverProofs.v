From Coq Require Import QArith Lqa Permutation.
From Verif Require Import Py Lib NdModel NdProofs NdSpec AverModel AverSpec.
Local Close Scope Q_scope.
Local Open Scope Z_scope.

(** * Sums *)

Lemma qsum_cons x t : qsum (x :: t) = (x + qsum t)%Q.
Proof. reflexivity. Qed.

Lemma qsum_app a b : (qsum (a ++ b) == qsum a + qsum b)%Q.
Proof.
  induction a as [|x t IH]; cbn [app].
  - unfold qsum at 2. cbn [fold_right]. lra.
  - rewrite !qsum_cons, IH. lra.
Qed.

Lemma qsum_perm a b : Permutation a b -> (qsum a == qsum b)%Q.
Proof. induction 1; rewrite ?qsum_cons in *; lra. Qed.

Lemma qsum_ext {A} (f h : A -> Q) l : (forall a, In a l -> f a == h a)%Q -> (qsum (map f l) == qsum (map h l))%Q.
Proof.
  induction l as [|a t IH]; intro H; [reflexivity|]. cbn [map]. rewrite !qsum_cons.
  rewrite H by (now left). rewrite IH; [reflexivity|]. intros; apply H; now right.
Qed.

Lemma qsum_scale {A} (f : A -> Q) c l : (qsum (map (fun a => f a * c) l) == qsum (map f l) * c)%Q.
Proof.
  induction l as [|a t IH]; cbn [map].
  - unfold qsum. cbn [fold_right]. lra.
  - rewrite !qsum_cons, IH. lra.
Qed.

Lemma qsum_nonneg {A} (f : A -> Q) l : (forall a, In a l -> 0 < f a)%Q -> (0 <= qsum (map f l))%Q.
Proof.
  induction l as [|a t IH]; intro H; cbn [map]; [unfold qsum; cbn [fold_right]; lra|]. rewrite qsum_cons.
  pose proof (H a (or_introl eq_refl)). assert (0 <= qsum (map f t))%Q by (apply IH; intros; apply H; now right). lra.
Qed.

Lemma qsum_pos {A} (f : A -> Q) l : (forall a, In a l -> 0 < f a)%Q -> l <> [] -> (0 < qsum (map f l))%Q.
Proof.
  intros H N. destruct l as [|a t]; [congruence|]. cbn [map]. rewrite qsum_cons.
  pose proof (H a (or_introl eq_refl)). assert (0 <= qsum (map f t))%Q by (apply qsum_nonneg; intros; apply H; now right). lra.
Qed.

Lemma qmax_in a l : In (qmax (a :: l)) (a :: l).
Proof.
  cbn [qmax]. revert a. induction l as [|b t IH]; intro a; cbn [fold_left]; [now left|].
  specialize (IH (if Qle_bool a b then b else a)). destruct IH as [E|I].
  - destruct (Qle_bool a b); [right; left; exact E | left; exact E].
  - right. now right.
Qed.

Lemma mean_perm {A} (w x : A -> Q) l l' m : Permutation l l' -> IsMean w x l m -> IsMean w x l' m.
Proof.
  intros P [H1 H2]. pose proof (qsum_perm _ _ (Permutation_map w P)) as E1.
  pose proof (qsum_perm _ _ (Permutation_map (fun a => w a * x a)%Q P)) as E2. split.
  - rewrite <- E1. exact H1.
  - rewrite <- E1, <- E2. exact H2.
Qed.

Lemma lists_perm {A} (P : A -> Prop) l l' : Lists P l -> Lists P l' -> Permutation l l'.
Proof. intros [N E] [N' E']. apply NoDup_Permutation; auto. intro x. now rewrite E, E'. Qed.

(** * Indices *)

Lemma in_indices ns idx : In idx (indices ns) <-> Forall2 lt idx ns.
Proof.
  revert idx. induction ns as [|n t IH]; intro idx; cbn [indices].
  - split; [intros [<-|[]]; constructor | inversion 1; now left].
  - rewrite in_flat_map. split.
    + intros (i & I & J). apply in_map_iff in J as (r & <- & R). apply in_seq in I. constructor; [lia | now apply IH].
    + inversion 1; subst. exists x. split; [apply in_seq; lia|]. apply in_map. now apply IH.
Qed.

Lemma nodup_flat {A B} (f : A -> list B) l : NoDup l -> (forall a, In a l -> NoDup (f a)) ->
  (forall a b x, In a l -> In b l -> In x (f a) -> In x (f b) -> a = b) -> NoDup (flat_map f l).
Proof.
  induction 1 as [|a t Na Nt IH]; intros F D; cbn [flat_map]; [constructor|].
  apply NoDup_app_intro.
  - apply F. now left.
  - apply IH; [intros; apply F; now right|]. intros b c x Ib Ic. apply D; now right.
  - intros x Ix Iy. apply in_flat_map in Iy as (b & Ib & Jb). apply Na.
    rewrite (D a b x (or_introl eq_refl) (or_intror Ib) Ix Jb). exact Ib.
Qed.

Lemma nodup_indices ns : NoDup (indices ns).
Proof.
  induction ns as [|n t IH]; cbn [indices]; [repeat constructor; intros []|].
  apply nodup_flat; [apply seq_NoDup | |].
  - intros a _. apply FinFun.Injective_map_NoDup; [|exact IH]. intros x y E. congruence.
  - intros a b x _ _ I J. apply in_map_iff in I as (u & <- & _). apply in_map_iff in J as (w & E & _). congruence.
Qed.

Lemma in_grid ds idx : InGrid ds idx <-> In idx (indices (lens ds)).
Proof.
  rewrite in_indices. unfold InGrid, lens. revert idx. induction ds as [|d t IH]; intro idx; cbn [map].
  - split; inversion 1; constructor.
  - split; inversion 1; subst; constructor; auto; now apply IH.
Qed.

Lemma len_indices ns : List.length (indices ns) = fold_right Nat.mul 1%nat ns.
Proof.
  induction ns as [|n t IH]; [reflexivity|]. cbn [indices fold_right]. rewrite <- IH.
  assert (G : forall a, List.length (flat_map (fun i => map (cons i) (indices t)) (seq a n)) = (n * List.length (indices t))%nat).
  { induction n as [|n IHn]; intro a; [reflexivity|]. cbn [seq flat_map Nat.mul]. rewrite app_length, map_length, IHn. reflexivity. }
  apply G.
Qed.

Lemma nth_indices ds idx : InGrid ds idx -> nth_error (indices (lens ds)) (position ds idx) = Some idx.
Proof.
  revert idx. induction ds as [|[n k] t IH]; intros idx H; inversion H; subst; [reflexivity|].
  cbn [lens map snd indices position]. fold (lens t). specialize (IH _ H4). cbn [snd] in H3.
  rewrite <- len_indices.
  assert (G : forall m a i, (i < m)%nat -> nth_error (flat_map (fun i => map (cons i) (indices (lens t))) (seq a m))
              (i * List.length (indices (lens t)) + position t l)%nat = Some ((a + i)%nat :: l)).
  { assert (L : (position t l < List.length (indices (lens t)))%nat) by (apply nth_error_Some; congruence).
    induction m as [|m IHm]; intros a i Li; [lia|]. cbn [seq flat_map]. destruct i as [|i].
    - rewrite nth_error_app1 by (rewrite map_length; lia). cbn [Nat.mul Nat.add]. rewrite nth_error_map, IH. cbn. now rewrite Nat.add_0_r.
    - rewrite nth_error_app2 by (rewrite map_length; lia). rewrite map_length.
      replace (S i * _ + _ - _)%nat with (i * List.length (indices (lens t)) + position t l)%nat by lia.
      rewrite IHm by lia. do 2 f_equal. lia. }
  now apply G.
Qed.

(** * Placing indices *)

Lemma mem_in x l : str_mem x l = true <-> In x l.
Proof.
  unfold str_mem. rewrite existsb_exists. split.
  - intros (y & I & E). apply String.eqb_eq in E. now subst.
  - intro I. exists x. split; [exact I | apply String.eqb_refl].
Qed.

Lemma place_splits gn ds it sp : List.length it = List.length (filter (fun d => negb (str_mem (fst d) gn)) ds) ->
  List.length sp = List.length (filter (fun d => str_mem (fst d) gn) ds) ->
  Splits gn ds (place gn ds it sp) it sp.
Proof.
  revert it sp. induction ds as [|[n k] t IH]; intros it sp Hi Hs; cbn [filter fst place] in *.
  - destruct it, sp; try discriminate. constructor.
  - destruct (str_mem n gn) eqn:M; cbn [negb] in Hi.
    + destruct sp as [|s sp]; [discriminate|]. cbn [hd tl]. apply splits_geom; [now apply mem_in|]. apply IH; cbn in *; lia.
    + destruct it as [|i it]; [discriminate|]. cbn [hd tl]. apply splits_other.
      * intro I. apply mem_in in I. congruence.
      * apply IH; cbn in *; lia.
Qed.

Lemma splits_place gn ds p it sp : Splits gn ds p it sp -> p = place gn ds it sp.
Proof.
  induction 1; cbn [place]; [reflexivity | |].
  - apply mem_in in H. rewrite H. cbn [hd tl]. congruence.
  - destruct (str_mem n gn) eqn:M; [apply mem_in in M; contradiction|]. cbn [hd tl]. congruence.
Qed.

(** * Averages *)

Lemma average_map {A} (fm wm : A -> bool) (f w : A -> Q) l :
  np_ma_average (map (fun a => (if fm a then None else Some (f a), if wm a then None else Some (w a))) l) =
  let live := filter (fun a => negb (fm a) && negb (wm a)) l in
  if Qeq_bool (qsum (map w live)) 0 then None
  else Some (qsum (map (fun a => f a * w a)%Q live) / qsum (map w live))%Q.
Proof.
  unfold np_ma_average. cbv zeta.
  assert (E : flat_map (fun p : option Q * option Q => match p with (Some v, Some w) => [(v, w)] | _ => [] end)
                (map (fun a => (if fm a then None else Some (f a), if wm a then None else Some (w a))) l) =
              map (fun a => (f a, w a)) (filter (fun a => negb (fm a) && negb (wm a)) l)).
  { induction l as [|a t IH]; [reflexivity|]. cbn [map flat_map filter]. rewrite IH.
    destruct (fm a), (wm a); reflexivity. }
  rewrite E, !map_map. reflexivity.
Qed.

Lemma mean_scaled {A} (w x : A -> Q) (M : Q) l : (0 < M)%Q -> (forall a, In a l -> 0 < w a)%Q -> l <> [] ->
  Qeq_bool (qsum (map (fun a => w a / M)%Q l)) 0 = false /\
  IsMean w x l (qsum (map (fun a => x a * (w a / M))%Q l) / qsum (map (fun a => w a / M)%Q l))%Q.
Proof.
  intros HM Hw N. pose proof (qsum_pos w l Hw N) as P.
  assert (E1 : (qsum (map (fun a => w a / M) l) == qsum (map w l) * / M)%Q) by (apply (qsum_scale w)).
  assert (E2 : (qsum (map (fun a => x a * (w a / M)) l) == qsum (map (fun a => w a * x a) l) * / M)%Q).
  { rewrite <- (qsum_scale (fun a => w a * x a)%Q). apply qsum_ext. intros a _. unfold Qdiv. ring. }
  assert (PM : (0 < / M)%Q) by (now apply Qinv_lt_0_compat).
  assert (PS : (0 < qsum (map (fun a => w a / M) l))%Q) by (rewrite E1; now apply Qmult_lt_0_compat).
  split.
  - destruct (Qeq_bool _ 0) eqn:E; [|reflexivity]. apply Qeq_bool_eq in E. lra.
  - split; [exact P|]. rewrite E1, E2. field. split; lra.
Qed.

Lemma weight_pos g idx : (forall i, 0 <= g_area g i)%Q -> (0 < weight_area g idx)%Q.
Proof.
  intro H. unfold weight_area. cbv zeta. specialize (H idx). destruct (g_masked g idx).
  - cbn. lra.
  - destruct (Qeq_bool (g_area g idx) 0) eqn:E; [lra|]. apply Qeq_bool_neq in E. lra.
Qed.

Lemma weight_live g idx : g_masked g idx = false -> weight_area g idx = Weight g idx.
Proof. intro H. unfold weight_area, Weight. now rewrite H. Qed.

Lemma max_pos g idx : (forall i, 0 <= g_area g i)%Q -> In idx (unmasked g) -> (0 < qmax (map (weight_area g) (unmasked g)))%Q.
Proof.
  intros H I. destruct (unmasked g) as [|a t]; [destruct I|]. cbn [map].
  pose proof (qmax_in (weight_area g a) (map (weight_area g) t)) as J.
  change (weight_area g a :: map (weight_area g) t) with (map (weight_area g) (a :: t)) in J.
  apply in_map_iff in J as (b & J & _). cbn [map] in J. rewrite <- J. now apply weight_pos.
Qed.

(** The list the program averages over. *)
Definition live_list (g : geometry) (v : variable) (it : list nat) : list (list nat) :=
  filter (fun sp => negb (v_masked v (place (names (g_dims g)) (v_dims v) it sp)) && negb (g_masked g sp)) (indices (lens (g_dims g))).

Definition shared_dims (g : geometry) (v : variable) : list (string * nat) :=
  filter (fun d => str_mem (fst d) (names (g_dims g))) (v_dims v).

Lemma live_lists g v it : shared_dims g v = g_dims g -> List.length it = List.length (Other g v) -> Lists (Live g v it) (live_list g v it).
Proof.
  intros S L. split; [apply NoDup_filter, nodup_indices|]. intro idx. unfold live_list. rewrite filter_In, <- in_grid, andb_true_iff, !negb_true_iff.
  unfold Live. split.
  - intros (G & V & M). split; [exact G|]. split; [exact M|].
    eexists. split; [|exact V]. apply place_splits; [exact L|].
    fold (shared_dims g v). rewrite S. unfold InGrid in G. clear - G. induction G; cbn; lia.
  - intros (G & M & p & Sp & V). split; [exact G|]. split; [|exact M]. apply splits_place in Sp. congruence.
Qed.

Definition cell_average (g : geometry) (v : variable) (it : list nat) : option Q :=
  np_ma_average (map (fun sp => (value v (place (names (g_dims g)) (v_dims v) it sp), weights g sp)) (indices (lens (g_dims g)))).

Lemma cell_spec g v it : WellFormed g -> shared_dims g v = g_dims g -> List.length it = List.length (Other g v) ->
  forall l, Lists (Live g v it) l ->
  (l = [] -> cell_average g v it = None) /\
  (l <> [] -> exists q, cell_average g v it = Some q /\ forall x, ValueAt g v it x -> IsMean (Weight g) x l q).
Proof.
  intros [W _] S L l Hl. pose proof (live_lists g v it S L) as Hll. pose proof (lists_perm _ _ _ Hll Hl) as P.
  unfold cell_average, value, weights.
  rewrite (average_map (fun sp => v_masked v (place (names (g_dims g)) (v_dims v) it sp)) (g_masked g)
             (fun sp => v_val v (place (names (g_dims g)) (v_dims v) it sp)) (fun sp => weight_area g sp / qmax (map (weight_area g) (unmasked g)))%Q).
  cbv zeta. fold (live_list g v it). split.
  - intros ->. apply Permutation_sym, Permutation_nil in P. rewrite P. reflexivity.
  - intro N. assert (N' : live_list g v it <> []) by (intro E; rewrite E in P; apply Permutation_nil in P; congruence).
    set (M := qmax (map (weight_area g) (unmasked g))).
    assert (PM : (0 < M)%Q).
    { destruct (live_list g v it) as [|a t] eqn:E; [congruence|]. apply (max_pos g a W).
      assert (I : In a (live_list g v it)) by (rewrite E; now left). unfold live_list in I. apply filter_In in I as [I J].
      apply andb_true_iff in J as [_ J]. unfold unmasked. apply filter_In. auto. }
    set (y := fun sp => v_val v (place (names (g_dims g)) (v_dims v) it sp)).
    destruct (mean_scaled (weight_area g) y M (live_list g v it) PM (fun a _ => weight_pos g a W) N') as [E Mn].
    rewrite E. eexists. split; [reflexivity|]. intros x Hx.
    apply (mean_perm _ _ _ _ _ P).
    destruct Mn as [M1 M2].
    assert (Ew : forall a, In a (live_list g v it) -> weight_area g a = Weight g a).
    { intros a I. apply weight_live. apply filter_In in I as [_ I]. apply andb_true_iff in I as [_ I]. now apply negb_true_iff. }
    assert (Ex : forall a, In a (live_list g v it) -> x a = y a).
    { intros a I. apply Hx. apply place_splits; [exact L|]. fold (shared_dims g v). rewrite S.
      apply filter_In in I as [I _]. apply in_grid in I. unfold InGrid in I. clear - I. induction I; cbn; lia. }
    unfold IsMean.
    rewrite (map_ext_in (Weight g) (weight_area g)) by (intros; symmetry; auto).
    rewrite (map_ext_in (fun a => Weight g a * x a)%Q (fun a => weight_area g a * y a)%Q)
      by (intros a I; rewrite (Ew a I), (Ex a I); reflexivity).
    split; [exact M1 | exact M2].
Qed.

(** * One variable *)

Lemma swap_none ns : NoDup ns -> get_swap_chain ns ns = Ok [].
Proof.
  intro N. unfold get_swap_chain.
  assert (F : forallb (fun x => str_mem x ns) ns = true) by (apply forallb_forall; intros x I; now apply mem_in).
  rewrite F. cbn [andb].
  assert (G : forall ks, (forall k, In k ks -> (k < List.length ns)%nat) -> fold_res (swap_step ns) ks (ns, []) = Ok (ns, [])).
  { induction ks as [|k t IH]; intro H; [reflexivity|]. cbn [fold_res]. unfold swap_step at 1.
    destruct (nth_error ns k) as [a|] eqn:E.
    - rewrite String.eqb_refl. cbn [bind]. apply IH. intros; apply H; now right.
    - apply nth_error_None in E. specialize (H k (or_introl eq_refl)). lia. }
  rewrite G; [reflexivity|]. intros k I. apply in_seq in I. lia.
Qed.

Lemma regular_average g nd v : WellFormed g -> Regular g v ->
  average_variable g nd v =
  Ok (mkA (Other g v ++ [union_dim])
          (map (fun it => match cell_average g v it with Some q => (q, false) | None => (0%Q, false) end) (indices (lens (Other g v)))),
      Other g v ++ [union_dim]).
Proof.
  intros [W N] [S O]. unfold average_variable. cbv zeta.
  change (filter (fun d => str_mem (fst d) (names (g_dims g))) (v_dims v)) with
         (filter (fun d => existsb (String.eqb (fst d)) (names (g_dims g))) (v_dims v)). rewrite S.
  change (filter (fun d => negb (str_mem (fst d) (names (g_dims g)))) (v_dims v)) with (Other g v).
  destruct (Other g v) as [|d t] eqn:E; [congruence|]. rewrite swap_none by exact N. reflexivity.
Qed.

Lemma static_other g v : Static g v -> Other g v = [] /\ shared_dims g v = g_dims g.
Proof.
  intro S. unfold Other, shared_dims, Static in *. rewrite S.
  assert (G : forall l : list (string * nat), (forall d, In d l -> In (fst d) (names (g_dims g))) ->
     filter (fun d => negb (existsb (String.eqb (fst d)) (names (g_dims g)))) l = [] /\
     filter (fun d => str_mem (fst d) (names (g_dims g))) l = l).
  { induction l as [|d t IH]; intro H; [auto|]. cbn [filter].
    assert (M : str_mem (fst d) (names (g_dims g)) = true) by (apply mem_in, H; now left).
    unfold str_mem in *. rewrite M. cbn [negb]. destruct IH as [-> ->]; auto. intros; apply H; now right. }
  apply G. intros d I. apply in_map. exact I.
Qed.

Lemma place_static gn ds sp : (forall d, In d ds -> In (fst d) gn) -> List.length sp = List.length ds -> place gn ds [] sp = sp.
Proof.
  revert sp. induction ds as [|[n k] t IH]; intros sp H L; destruct sp as [|s sp]; try discriminate; [reflexivity|].
  cbn [place]. assert (M : str_mem n gn = true) by (apply mem_in, (H (n, k)); now left). rewrite M. cbn [hd tl].
  f_equal. apply IH; [intros; apply H; now right|]. cbn in L. lia.
Qed.

Lemma combine_map {A B C} (f : A -> B) (h : A -> C) l : combine (map f l) (map h l) = map (fun a => (f a, h a)) l.
Proof. induction l as [|a t IH]; cbn; congruence. Qed.

Lemma static_average g nd v : Static g v -> lens nd = [1%nat] ->
  average_variable g nd v = Ok (mkA nd [match cell_average g v [] with Some q => (q, false) | None => (0%Q, true) end], nd).
Proof.
  intros S L. unfold average_variable. cbv zeta. destruct (static_other g v S) as [O _].
  change (filter (fun d => negb (str_mem (fst d) (names (g_dims g)))) (v_dims v)) with (Other g v). rewrite O, L.
  assert (E : combine (map (value v) (indices (lens (v_dims v)))) (map (weights g) (indices (lens (g_dims g)))) =
              map (fun sp => (value v (place (names (g_dims g)) (v_dims v) [] sp), weights g sp)) (indices (lens (g_dims g)))).
  { unfold Static in S. rewrite S. rewrite combine_map. apply map_ext_in. intros sp I. rewrite place_static; [reflexivity| |].
    - intros d Id. now apply in_map.
    - apply in_grid in I. unfold InGrid in I. clear - I. induction I; cbn; lia. }
  rewrite E. reflexivity.
Qed.

(** * All variables *)

Lemma regular_loop g rs : WellFormed g -> Forall (Regular g) rs -> forall nd,
  average_loop g nd rs = Ok (map (fun v => mkA (Other g v ++ [union_dim])
     (map (fun it => match cell_average g v it with Some q => (q, false) | None => (0%Q, false) end) (indices (lens (Other g v))))) rs).
Proof.
  intros W. induction 1 as [|v t R _ IH]; intro nd; [reflexivity|]. cbn [average_loop map].
  rewrite regular_average by assumption. cbn [bind fst snd]. rewrite IH. reflexivity.
Qed.

Lemma static_loop g ss rs nd : Forall (Static g) ss -> lens nd = [1%nat] ->
  average_loop g nd (ss ++ rs) =
  (do r <- average_loop g nd rs;
   Ok (map (fun v => mkA nd [match cell_average g v [] with Some q => (q, false) | None => (0%Q, true) end]) ss ++ r)).
Proof.
  intros F L. induction F as [|v t S _ IH]; cbn [app map average_loop].
  - destruct (average_loop g nd rs); reflexivity.
  - rewrite static_average by assumption. cbn [bind fst snd]. rewrite IH.
    destruct (average_loop g nd rs); reflexivity.
Qed.

Lemma all_averages g ss rs : WellFormed g -> Forall (Static g) ss -> Forall (Regular g) rs ->
  spatial_average g (ss ++ rs) =
  Ok (map (fun v => mkA [union_dim] [match cell_average g v [] with Some q => (q, false) | None => (0%Q, true) end]) ss ++
      map (fun v => mkA (Other g v ++ [union_dim])
         (map (fun it => match cell_average g v it with Some q => (q, false) | None => (0%Q, false) end) (indices (lens (Other g v))))) rs).
Proof.
  intros W S R. unfold spatial_average. rewrite static_loop by (auto; reflexivity). rewrite regular_loop by assumption. reflexivity.
Qed.

Lemma grid_length ds idx : InGrid ds idx -> List.length idx = List.length ds.
Proof. unfold InGrid. induction 1; cbn; lia. Qed.

Lemma all_places g ss rs out k v : WellFormed g -> Forall (Static g) ss -> Forall (Regular g) rs ->
  spatial_average g (ss ++ rs) = Ok out -> nth_error (ss ++ rs) k = Some v ->
  shared_dims g v = g_dims g /\
  exists a, nth_error out k = Some a /\ a_dims a = Other g v ++ [union_dim] /\
    List.length (a_vals a) = fold_right Nat.mul 1%nat (lens (Other g v)) /\
    forall it, InGrid (Other g v) it -> nth_error (a_vals a) (position (Other g v) it) =
      Some (match cell_average g v it with Some q => (q, false) | None => (0%Q, match Other g v with [] => true | _ => false end) end).
Proof.
  intros W S R E N. rewrite all_averages in E by assumption. injection E as <-.
  destruct (Nat.lt_ge_cases k (List.length ss)) as [L|L].
  - rewrite nth_error_app1 in N by exact L. assert (St : Static g v) by (eapply Forall_forall; [exact S|]; eapply nth_error_In; eauto).
    destruct (static_other g v St) as [O Sh]. split; [exact Sh|]. eexists. split.
    + rewrite nth_error_app1 by (now rewrite map_length). rewrite nth_error_map, N. reflexivity.
    + rewrite O. split; [reflexivity|]. split; [reflexivity|]. intros it I. inversion I; subst. reflexivity.
  - rewrite nth_error_app2 in N by exact L. assert (Rg : Regular g v) by (eapply Forall_forall; [exact R|]; eapply nth_error_In; eauto).
    split; [apply Rg|]. eexists. split.
    + rewrite nth_error_app2 by (now rewrite map_length). rewrite map_length, nth_error_map, N. reflexivity.
    + cbn [a_dims a_vals]. split; [reflexivity|]. split; [rewrite map_length; apply len_indices|]. intros it I.
      rewrite nth_error_map, nth_indices by exact I. destruct Rg as [_ Rg]. destruct (Other g v); [congruence|]. reflexivity.
Qed.

Lemma average_partial g ss rs : WellFormed g -> Forall (Static g) ss -> Forall (Regular g) rs ->
  exists out, spatial_average g (ss ++ rs) = Ok out /\
  forall k v, nth_error (ss ++ rs) k = Some v ->
    exists a, nth_error out k = Some a /\ a_dims a = Other g v ++ [union_dim] /\
      List.length (a_vals a) = fold_right Nat.mul 1%nat (lens (Other g v)) /\
      forall it x l, InGrid (Other g v) it -> ValueAt g v it x -> Lists (Live g v it) l -> l <> [] ->
        exists q, nth_error (a_vals a) (position (Other g v) it) = Some (q, false) /\ IsMean (Weight g) x l q.
Proof.
  intros W S R. eexists. split; [now apply all_averages|]. intros k v N.
  destruct (all_places g ss rs _ k v W S R (all_averages g ss rs W S R) N) as (Sh & a & A1 & A2 & A3 & A4).
  exists a. split; [exact A1|]. split; [exact A2|]. split; [exact A3|]. intros it x l I X Hl Nl.
  destruct (cell_spec g v it W Sh (grid_length _ _ I) l Hl) as [_ C]. destruct (C Nl) as (q & Eq & M).
  exists q. split; [rewrite A4 by exact I; now rewrite Eq | now apply M].
Qed.

Lemma static_masked g ss rs out k v : WellFormed g -> Forall (Static g) ss -> Forall (Regular g) rs ->
  spatial_average g (ss ++ rs) = Ok out -> nth_error (ss ++ rs) k = Some v -> Static g v -> (forall idx, ~ Live g v [] idx) ->
  exists a q, nth_error out k = Some a /\ a_vals a = [(q, true)].
Proof.
  intros W S R E N St No. destruct (all_places g ss rs out k v W S R E N) as (Sh & a & A1 & A2 & A3 & A4).
  destruct (static_other g v St) as [O _]. rewrite O in *. exists a. specialize (A4 [] (Forall2_nil _)).
  destruct (cell_spec g v [] W Sh) with (l := @nil (list nat)) as [C _].
  - now rewrite O.
  - split; [constructor|]. intro x. split; [intros [] | intro H; destruct (No x H)].
  - rewrite C in A4 by reflexivity. cbn in A3, A4. destruct (a_vals a) as [|y [|]]; try discriminate. injection A4 as ->.
    exists 0%Q. auto.
Qed.

Lemma regular_unmasked g ss rs out k v it : WellFormed g -> Forall (Static g) ss -> Forall (Regular g) rs ->
  spatial_average g (ss ++ rs) = Ok out -> nth_error (ss ++ rs) k = Some v -> Regular g v -> InGrid (Other g v) it ->
  (forall idx, ~ Live g v it idx) ->
  exists a, nth_error out k = Some a /\ nth_error (a_vals a) (position (Other g v) it) = Some (0%Q, false).
Proof.
  intros W S R E N Rg I No. destruct (all_places g ss rs out k v W S R E N) as (Sh & a & A1 & A2 & A3 & A4).
  exists a. split; [exact A1|]. rewrite A4 by exact I.
  destruct (cell_spec g v it W Sh) with (l := @nil (list nat)) as [C _].
  - now apply grid_length.
  - split; [constructor|]. intro x. split; [intros [] | intro H; destruct (No x H)].
  - rewrite C by reflexivity. destruct Rg as [_ Rg]. destruct (Other g v); [congruence|]. reflexivity.
Qed.

(** * What is refused *)

Lemma static_after g r s : WellFormed g -> Regular g r -> Static g s -> spatial_average g [r; s] = Err ValueError.
Proof.
  intros W R S. unfold spatial_average. cbn [average_loop]. rewrite regular_average by assumption. cbn [bind fst snd].
  unfold average_variable. cbv zeta. destruct (static_other g s S) as [O _].
  change (filter (fun d => negb (str_mem (fst d) (names (g_dims g)))) (v_dims s)) with (Other g s). rewrite O.
  destruct R as [_ R]. destruct (Other g r) as [|d t]; [congruence|]. cbn [app lens map]. destruct t; cbn; destruct (snd d) as [|[|]]; reflexivity.
Qed.

Lemma exchanged_nil (a b : list string) : ExchangedAlong [] a b -> a = b.
Proof. inversion 1. reflexivity. Qed.

Lemma swapped g v : WellFormed g -> Other g v <> [] -> NoDup (names (shared_dims g v)) ->
  (forall n, In n (names (shared_dims g v)) <-> In n (names (g_dims g))) -> names (shared_dims g v) <> names (g_dims g) ->
  spatial_average g [v] = Err TypeError.
Proof.
  intros [W N] O Nv Same D. unfold spatial_average. cbn [average_loop]. unfold average_variable. cbv zeta.
  change (filter (fun d => negb (str_mem (fst d) (names (g_dims g)))) (v_dims v)) with (Other g v).
  fold (shared_dims g v). destruct (Other g v) as [|d t]; [congruence|].
  destruct (get_swap_chain_spec (names (g_dims g)) (names (shared_dims g v)) N Nv) as (chain & E & X).
  { intro n. now rewrite Same. }
  rewrite E. cbn [bind]. destruct chain as [|c cs]; [|reflexivity]. apply exchanged_nil in X. congruence.
Qed.
