From Coq Require Import QArith Lqa Permutation.
From Verif Require Import Py Lib NdModel AverModel AverSpec AverProofs.
Local Close Scope Q_scope.
Local Open Scope Z_scope.

(** * Unions *)

Lemma index_at ds (n : string) k : NoDup ds -> nth_error ds k = Some n -> str_index ds n = Ok k.
Proof.
  revert k. induction ds as [|m t IH]; intros k N E; [now destruct k|]. inversion N; subst. cbn [str_index].
  destruct k as [|k]; cbn in E.
  - injection E as ->. now rewrite String.eqb_refl.
  - destruct (String.eqb m n) eqn:D.
    + apply String.eqb_eq in D. subst. apply nth_error_In in E. contradiction.
    + rewrite (IH k) by assumption. reflexivity.
Qed.

Lemma at_names g ii : NoDup (names (g_dims g)) -> List.length ii = List.length (g_dims g) -> at_dims g (names (g_dims g)) ii = ii.
Proof.
  intros N L. unfold at_dims. set (ns := names (g_dims g)) in *.
  assert (Ln : List.length ns = List.length ii) by (unfold ns, names; now rewrite map_length).
  apply (nth_ext _ _ 0%nat 0%nat); [now rewrite map_length|]. intros k Lk. rewrite map_length in Lk.
  destruct (nth_error ns k) as [n|] eqn:E; [|apply nth_error_None in E; lia].
  set (f := fun n => match str_index ns n with Ok k => nth k ii 0%nat | Err _ => 0%nat end).
  rewrite (nth_indep _ 0%nat (f n)) by (now rewrite map_length).
  rewrite map_nth. rewrite (nth_error_nth _ _ _ E). unfold f. now rewrite (index_at ns n k).
Qed.

Lemma len_names g : NoDup (names (g_dims g)) -> map (len_of g) (names (g_dims g)) = lens (g_dims g).
Proof.
  intro N. unfold len_of, names, lens in *. rewrite map_map. apply map_ext_in. intros d I.
  induction (g_dims g) as [|e t IH]; [destruct I|]. cbn [map find] in *. inversion N; subst.
  destruct (String.eqb (fst e) (fst d)) eqn:E.
  - apply String.eqb_eq in E. destruct I as [->|I]; [reflexivity|]. exfalso. apply H1. rewrite E. now apply in_map.
  - destruct I as [->|I]; [now rewrite String.eqb_refl in E|]. apply IH; auto.
Qed.

Lemma union_all g : NoDup (names (g_dims g)) ->
  to_union g (names (g_dims g)) = filter (fun idx => negb (g_masked g idx)) (indices (lens (g_dims g))).
Proof.
  intro N. unfold to_union. f_equal. rewrite len_names by exact N. rewrite <- (map_id (indices _)) at 2.
  apply map_ext_in. intros ii I. apply at_names; [exact N|]. apply in_grid in I. now apply grid_length.
Qed.

Lemma union_lists g : NoDup (names (g_dims g)) ->
  exists l, unions g (names (g_dims g)) = [([0%nat], l)] /\ Lists (fun idx => InGrid (g_dims g) idx /\ g_masked g idx = false) l.
Proof.
  intro N. exists (to_union g (names (g_dims g))). split.
  - unfold unions. destruct (static_other g (mkV (g_dims g) (fun _ => 0%Q) (fun _ => false)) eq_refl) as [O _].
    unfold Other in O. cbn [v_dims] in O. unfold str_mem. rewrite O. reflexivity.
  - rewrite union_all by exact N. split; [apply NoDup_filter, nodup_indices|]. intro idx.
    rewrite filter_In, <- in_grid, negb_true_iff. reflexivity.
Qed.

(** * The averages of the ranks *)

Definition cell_or_zero (g : geometry) (v : variable) (it : list nat) : Q :=
  match cell_average g v it with Some q => q | None => 0%Q end.

Lemma one_rank g v od : WellFormed g -> Regular g v \/ Static g v -> Other g v = od ->
  exists r, spatial_average g [v] = Ok r /\ flat_map (fun a => map fst (a_vals a)) r = map (cell_or_zero g v) (indices (lens od)).
Proof.
  intros W [R|S] <-.
  - pose proof (all_averages g [] [v] W (Forall_nil _) (Forall_cons _ R (Forall_nil _))) as E. cbn [app] in E. rewrite E. clear E.
    eexists. split; [reflexivity|]. cbn [map app flat_map a_vals]. rewrite app_nil_r, map_map.
    apply map_ext. intro it. unfold cell_or_zero. now destruct (cell_average g v it).
  - pose proof (all_averages g [v] [] W (Forall_cons _ S (Forall_nil _)) (Forall_nil _)) as E. cbn [app] in E. rewrite E. clear E.
    eexists. split; [reflexivity|]. destruct (static_other g v S) as [-> _].
    cbn [map app flat_map a_vals lens indices]. unfold cell_or_zero. now destruct (cell_average g v []).
Qed.

Lemma transpose_map {A B} (F : A -> B -> Q) (ps : list A) (its : list B) :
  transpose (List.length its) (map (fun p => map (F p) its) ps) = map (fun it => map (fun p => F p it) ps) its.
Proof.
  induction its as [|it t IH]; [reflexivity|]. cbn [List.length transpose map]. f_equal.
  - rewrite map_map. reflexivity.
  - rewrite map_map. cbn [tl]. exact IH.
Qed.

Definition one (p : geometry * variable) : geometry * list variable := (fst p, [snd p]).

Lemma parallel_form od parts : parts <> [] -> Parts od parts ->
  parallel_average (map one parts) =
  Ok (combine_ranks (rank_weights (map fst parts))
        (map (fun it => map (fun p => cell_or_zero (fst p) (snd p) it) parts) (indices (lens od)))).
Proof.
  intros N P. unfold parallel_average.
  assert (G : exists local, map_res (fun p : geometry * list variable => spatial_average (fst p) (snd p)) (map one parts) = Ok local /\
     map (fun r => flat_map (fun a => map fst (a_vals a)) r) local = map (fun p => map (cell_or_zero (fst p) (snd p)) (indices (lens od))) parts).
  { clear N. induction parts as [|[g v] t IH]; [exists []; auto|].
    destruct IH as (l & E1 & E2); [intros g' v' I; apply P; now right|].
    destruct (P g v (or_introl eq_refl)) as (W & K & O). destruct (one_rank g v od W K O) as (r & R1 & R2).
    exists (r :: l). cbn [map map_res one fst snd]. rewrite R1. cbn [bind]. rewrite E1. cbn [bind map]. now rewrite R2, E2. }
  destruct G as (local & -> & E). cbn [bind]. rewrite E.
  assert (F : map fst (map one parts) = map fst parts) by (rewrite map_map; reflexivity). rewrite F.
  do 2 f_equal.
  rewrite <- (transpose_map (fun p it => cell_or_zero (fst p) (snd p) it)).
  destruct parts as [|p t]; [congruence|]. cbn [map]. rewrite map_length. reflexivity.
Qed.

(** * Combining *)

Lemma sort_in_perm v k l : Permutation (sort_in v k l) (k :: l).
Proof.
  induction l as [|h t IH]; cbn [sort_in]; [reflexivity|]. destruct (Qle_bool (v k) (v h)); [reflexivity|].
  rewrite IH. apply perm_swap.
Qed.

Lemma argsort_perm l : Permutation (argsort l) (seq 0 (List.length l)).
Proof.
  unfold argsort. generalize (fun k => nth k l 0%Q). intro f. induction (seq 0 (List.length l)) as [|k t IH]; [reflexivity|].
  cbn [fold_right]. rewrite sort_in_perm. now rewrite IH.
Qed.

Lemma map_nth_seq {A} (l : list A) d : map (fun k => nth k l d) (seq 0 (List.length l)) = l.
Proof.
  induction l as [|a t IH]; [reflexivity|]. cbn [List.length seq map nth]. f_equal. rewrite <- seq_shift, map_map. exact IH.
Qed.

Lemma take_perm w o : Permutation o (seq 0 (List.length w)) -> Permutation (take w o) w.
Proof. intro P. unfold take. rewrite P. now rewrite map_nth_seq. Qed.

Lemma combine_nth_seq (a b : list Q) : List.length a = List.length b ->
  map (fun k => (nth k a 0%Q, nth k b 0%Q)) (seq 0 (List.length a)) = combine a b.
Proof.
  intro L. rewrite <- (map_nth_seq (combine a b) (0%Q, 0%Q)). rewrite combine_length, <- L, Nat.min_id.
  apply map_ext. intro k. now rewrite combine_nth.
Qed.

Lemma take_combine (vals w : list Q) o : List.length vals = List.length w -> Permutation o (seq 0 (List.length vals)) ->
  Permutation (combine (take vals o) (take w o)) (combine vals w).
Proof.
  intros L P. unfold take. rewrite combine_map. rewrite P. now rewrite combine_nth_seq.
Qed.

Lemma snd_combine (a b : list Q) : List.length a = List.length b -> map snd (combine a b) = b.
Proof. revert b. induction a as [|x t IH]; intros [|y b] L; try discriminate; [reflexivity|]. cbn. f_equal. apply IH. cbn in L. lia. Qed.

Lemma mean_eq {A} (w x : A -> Q) l : (0 < qsum (map w l))%Q ->
  IsMean w x l (qsum (map (fun a => x a * w a)%Q l) / qsum (map w l))%Q.
Proof.
  intro P. split; [exact P|]. rewrite (qsum_ext (fun a => x a * w a)%Q (fun a => w a * x a)%Q) by (intros; ring).
  field. lra.
Qed.

Lemma combine_one els : forall w k vals, (forall x, In x w -> 0 < x)%Q -> w <> [] -> (forall e, In e els -> List.length e = List.length w) ->
  nth_error els k = Some vals ->
  exists w' q, Permutation w w' /\ (k = 0%nat -> w' = w) /\ nth_error (combine_ranks w els) k = Some q /\ IsMean snd fst (combine vals w') q.
Proof.
  induction els as [|e t IH]; intros w k vals Hp Hw Hl E; [now destruct k|]. cbn [combine_ranks].
  pose proof (argsort_perm e) as Po. assert (Le : List.length e = List.length w) by (apply Hl; now left).
  assert (Pw : Permutation (take w (argsort e)) w) by (apply take_perm; now rewrite <- Le).
  destruct k as [|k]; cbn [nth_error] in *.
  - injection E as <-. exists w. eexists. split; [reflexivity|]. split; [reflexivity|]. split; [reflexivity|].
    apply (mean_perm _ _ _ _ _ (take_combine e w (argsort e) Le Po)).
    assert (Ll : List.length (take e (argsort e)) = List.length (take w (argsort e))) by (unfold take; now rewrite !map_length).
    pose proof (mean_eq snd fst (combine (take e (argsort e)) (take w (argsort e)))) as M. rewrite snd_combine in M by exact Ll.
    apply M. rewrite (qsum_perm _ _ Pw). rewrite <- (map_id w). apply qsum_pos; auto.
  - destruct (IH (take w (argsort e)) k vals) as (w' & q & P1 & _ & P3 & P4).
    + intros x I. apply Hp. eapply Permutation_in; eauto.
    + intro Z. rewrite Z in Pw. apply Permutation_nil in Pw. congruence.
    + intros f I. rewrite (Permutation_length Pw). apply Hl. now right.
    + exact E.
    + exists w', q. split; [now rewrite <- Pw|]. split; [discriminate|]. auto.
Qed.

Lemma combine_length w els : List.length (combine_ranks w els) = List.length els.
Proof. revert w. induction els as [|e t IH]; intro w; cbn [combine_ranks List.length]; [reflexivity|]. now rewrite IH. Qed.

Lemma mean_bounds {A} (w x : A -> Q) l q lo hi : IsMean w x l q -> (forall a, In a l -> 0 < w a)%Q -> (forall a, In a l -> lo <= x a <= hi)%Q ->
  (lo <= q <= hi)%Q.
Proof.
  intros [P M] Hw Hx.
  assert (G : (qsum (map w l) * lo <= qsum (map (fun a => w a * x a) l) <= qsum (map w l) * hi)%Q).
  { clear P M. induction l as [|a t IH]; cbn [map].
    - unfold qsum. cbn [fold_right]. lra.
    - rewrite !qsum_cons. destruct IH as [I1 I2]; [intros; apply Hw; now right | intros; apply Hx; now right|].
      pose proof (Hw a (or_introl eq_refl)). destruct (Hx a (or_introl eq_refl)). nra. }
  set (s := qsum (map w l)) in *. rewrite <- M in G. destruct G as [G1 G2]. split; nra.
Qed.

(** * Weights of ranks *)

Lemma union_nonneg g : WellFormed g -> (0 <= union_area g)%Q.
Proof.
  intros [W _]. unfold union_area. induction (to_union g (names (g_dims g))) as [|a t IH]; cbn [map]; [unfold qsum; cbn; lra|].
  rewrite qsum_cons. specialize (W a). lra.
Qed.

Lemma number_in {A} k (l : list A) i x : In (i, x) (number k l) <-> (k <= i)%nat /\ nth_error l (i - k) = Some x.
Proof.
  revert k. induction l as [|a t IH]; intro k; cbn [number In].
  - split; [intros []|]. intros [_ H]. destruct (i - k)%nat; discriminate.
  - rewrite IH. split.
    + intros [E|[L E]].
      * injection E as -> ->. split; [lia|]. now rewrite Nat.sub_diag.
      * split; [lia|]. replace (i - k)%nat with (S (i - S k)) by lia. exact E.
    + intros [L E]. destruct (Nat.eq_dec i k) as [->|D].
      * left. rewrite Nat.sub_diag in E. cbn in E. congruence.
      * right. split; [lia|]. replace (i - k)%nat with (S (i - S k)) in E by lia. exact E.
Qed.

Lemma number_length {A} k (l : list A) : List.length (number k l) = List.length l.
Proof. revert k. induction l as [|a t IH]; intro k; cbn; [reflexivity|]. now rewrite IH. Qed.

Lemma size_pos g idx : InGrid (g_dims g) idx -> (0 < size_of g)%nat.
Proof. intro I. apply in_grid in I. unfold size_of. destruct (indices _); [destruct I | cbn; lia]. Qed.

Lemma inject_pos n : (0 < n)%nat -> (0 < inject_Z (Z.of_nat n))%Q.
Proof. intro H. change 0%Q with (inject_Z 0). rewrite <- Zlt_Qlt. lia. Qed.

Lemma rank_pos total k g : (0 <= total)%Q -> WellFormed g -> (exists idx, InGrid (g_dims g) idx) -> (0 < rank_area total k g)%Q.
Proof.
  intros T W [idx I]. unfold rank_area. cbv zeta. pose proof (union_nonneg g W) as U.
  set (a := match k with O => total | S _ => union_area g end). assert (0 <= a)%Q by (unfold a; destruct k; assumption).
  destruct (Qeq_bool a 0) eqn:E.
  - apply inject_pos. eapply size_pos; eauto.
  - apply Qeq_bool_neq in E. lra.
Qed.

Lemma weights_pos gs : gs <> [] -> (forall g, In g gs -> WellFormed g /\ exists idx, InGrid (g_dims g) idx) ->
  (forall x, In x (rank_weights gs) -> 0 < x)%Q /\ List.length (rank_weights gs) = List.length gs.
Proof.
  intros N H. unfold rank_weights. cbv zeta. split; [|now rewrite !map_length, number_length].
  set (total := qsum (map union_area gs)).
  assert (T : (0 <= total)%Q).
  { unfold total. clear N total. induction gs as [|g t IH]; cbn [map]; [unfold qsum; cbn; lra|]. rewrite qsum_cons.
    destruct (H g (or_introl eq_refl)) as [W _]. pose proof (union_nonneg g W). assert (0 <= qsum (map union_area t))%Q by (apply IH; intros; apply H; now right). lra. }
  set (areas := map (fun p => rank_area total (fst p) (snd p)) (number 0 gs)).
  assert (A : forall a, In a areas -> (0 < a)%Q).
  { intros a I. apply in_map_iff in I as ([k g] & <- & I). apply number_in in I as [_ I]. apply nth_error_In in I.
    destruct (H g I). now apply rank_pos. }
  assert (M : (0 < qmax areas)%Q).
  { apply A. destruct areas as [|a t] eqn:E; [|apply qmax_in]. unfold areas in E. destruct gs; [congruence|discriminate]. }
  intros x I. apply in_map_iff in I as (a & <- & I). unfold Qdiv. apply Qmult_lt_0_compat; [now apply A | now apply Qinv_lt_0_compat].
Qed.

Lemma in_parts_fst (parts : list (geometry * variable)) g : In g (map fst parts) -> exists v, In (g, v) parts.
Proof. intro I. apply in_map_iff in I as ([g' v] & <- & I). eauto. Qed.

Lemma combine_in {A} (ps : list A) (f : A -> Q) (w : list Q) (a : Q * Q) : In a (combine (map f ps) w) -> exists p, In p ps /\ fst a = f p.
Proof.
  revert w. induction ps as [|p t IH]; intros [|x w] I; try destruct I.
  - exists p. subst. split; [now left | reflexivity].
  - destruct (IH w H) as (q & I & E). exists q. split; [now right | exact E].
Qed.

Lemma parallel_bounds od parts : parts <> [] -> Parts od parts ->
  (forall g v it, In (g, v) parts -> InGrid od it -> exists idx, Live g v it idx) ->
  exists out, parallel_average (map one parts) = Ok out /\ List.length out = fold_right Nat.mul 1%nat (lens od) /\
  forall it lo hi, InGrid od it ->
    (forall g v idx p, In (g, v) parts -> Live g v it idx -> Splits (names (g_dims g)) (v_dims v) p it idx -> lo <= v_val v p <= hi)%Q ->
    exists q, nth_error out (position od it) = Some q /\ (lo <= q <= hi)%Q.
Proof.
  intros N P L. rewrite (parallel_form od) by assumption. eexists. split; [reflexivity|].
  split; [now rewrite combine_length, map_length, len_indices|]. intros it lo hi I B.
  assert (H : forall g, In g (map fst parts) -> WellFormed g /\ exists idx, InGrid (g_dims g) idx).
  { intros g Ig. apply in_parts_fst in Ig as [v Ig]. split; [apply (P g v Ig)|]. destruct (L g v it Ig I) as (idx & Hl & _). eauto. }
  destruct (weights_pos (map fst parts)) as [Wp Wl]; [destruct parts; [congruence|discriminate] | exact H|].
  destruct (combine_one (map (fun it => map (fun p => cell_or_zero (fst p) (snd p) it) parts) (indices (lens od)))
              (rank_weights (map fst parts)) (position od it) (map (fun p => cell_or_zero (fst p) (snd p) it) parts) Wp)
    as (w' & q & Pw & _ & Eq & M).
  - intro Z. rewrite Z in Wl. rewrite map_length in Wl. destruct parts; [congruence|discriminate].
  - intros e Ie. apply in_map_iff in Ie as (j & <- & _). now rewrite Wl, !map_length.
  - now rewrite nth_error_map, nth_indices.
  - exists q. split; [exact Eq|]. apply (mean_bounds _ _ _ _ _ _ M).
    + intros [a b] Ia. apply in_combine_r in Ia. cbn [snd]. apply Wp. eapply Permutation_in; [symmetry; exact Pw | exact Ia].
    + intros a Ia. apply combine_in in Ia as ([g v] & Ip & ->). cbn [fst snd].
      destruct (P g v Ip) as (W & K & O).
      assert (Sh : shared_dims g v = g_dims g) by (destruct K as [[K _]|K]; [exact K | now apply static_other]).
      assert (Li : List.length it = List.length (Other g v)) by (rewrite O; now apply grid_length).
      pose proof (live_lists g v it Sh Li) as Hl.
      destruct (cell_spec g v it W Sh Li _ Hl) as [_ C]. destruct C as (m & Em & Hm).
      { destruct (L g v it Ip I) as [idx Hx]. apply Hl in Hx. intro Z. rewrite Z in Hx. destruct Hx. }
      unfold cell_or_zero. rewrite Em.
      specialize (Hm (fun sp => v_val v (place (names (g_dims g)) (v_dims v) it sp))).
      refine (mean_bounds _ _ _ _ _ _ (Hm _) _ _).
      * intros idx p Sp. apply splits_place in Sp. now subst.
      * intros c Ic. unfold Weight. destruct W as [W _]. specialize (W c). destruct (Qeq_bool (g_area g c) 0) eqn:E; [lra|]. apply Qeq_bool_neq in E. lra.
      * intros c Ic. apply Hl in Ic. apply (B g v c); auto. apply place_splits; [exact Li|].
        fold (shared_dims g v). rewrite Sh. destruct Ic as [Ic _]. now apply grid_length.
Qed.

(** * Points *)

Lemma number_map {A B} (f : A -> B) l : forall k, number k (map f l) = map (fun p => (fst p, f (snd p))) (number k l).
Proof. induction l as [|a t IH]; intro k; cbn; [reflexivity|]. now rewrite IH. Qed.

Definition all_cells (parts : list (geometry * variable)) : list (nat * list nat) :=
  flat_map (fun p => map (pair (fst p)) (indices (lens (g_dims (fst (snd p)))))) (number 0 parts).

Lemma number_nodup {A} (l : list A) : forall k, NoDup (number k l).
Proof.
  induction l as [|a t IH]; intro k; cbn [number]; constructor; [|apply IH]. intro I. apply number_in in I as [I _]. lia.
Qed.

Lemma cells_lists parts : Lists (PartCell parts) (all_cells parts).
Proof.
  split.
  - apply nodup_flat; [apply number_nodup | |].
    + intros a _. apply FinFun.Injective_map_NoDup; [|apply nodup_indices]. intros x y E. congruence.
    + intros [i a] [j b] x Ia Ib Ja Jb. apply in_map_iff in Ja as (u & <- & _). apply in_map_iff in Jb as (w & E & _). cbn in E.
      injection E as <- _. apply number_in in Ia as [_ Ia]. apply number_in in Ib as [_ Ib]. congruence.
  - intros [r idx]. unfold all_cells, PartCell. cbn [fst snd]. rewrite in_flat_map. split.
    + intros ([i [g v]] & I & J). apply in_map_iff in J as (u & E & J). injection E as -> ->. apply number_in in I as [_ I].
      rewrite Nat.sub_0_r in I. exists g, v. split; [exact I|]. now apply in_grid.
    + intros (g & v & E & G). exists (r, (g, v)). split.
      * apply number_in. split; [lia|]. now rewrite Nat.sub_0_r.
      * apply in_map. cbn. now apply in_grid.
Qed.

Lemma qsum_flat {A} (f : A -> list Q) l : (qsum (flat_map f l) == qsum (map (fun a => qsum (f a)) l))%Q.
Proof. induction l as [|a t IH]; cbn [flat_map map]; [reflexivity|]. rewrite qsum_app, qsum_cons, IH. reflexivity. Qed.

Lemma qsum_ones {A} (l : list A) : (qsum (map (fun _ => 1) l) == inject_Z (Z.of_nat (List.length l)))%Q.
Proof.
  induction l as [|a t IH]; [reflexivity|]. cbn [map List.length]. rewrite qsum_cons, IH, Nat2Z.inj_succ.
  unfold Z.succ. rewrite inject_Z_plus. change (inject_Z 1) with 1%Q. ring.
Qed.

Lemma union_zero g : (forall idx, g_area g idx = 0%Q) -> (union_area g == 0)%Q.
Proof.
  intro H. unfold union_area. induction (to_union _ _) as [|a t IH]; [reflexivity|]. cbn [map]. rewrite qsum_cons, H, IH. ring.
Qed.

Lemma points_area total k g : (total == 0)%Q -> (forall idx, g_area g idx = 0%Q) -> rank_area total k g = inject_Z (Z.of_nat (size_of g)).
Proof.
  intros T H. unfold rank_area. cbv zeta. pose proof (union_zero g H) as U.
  assert (E : Qeq_bool (match k with O => total | S _ => union_area g end) 0 = true) by (apply Qeq_eq_bool; now destruct k).
  now rewrite E.
Qed.

Lemma points_weights (parts : list (geometry * variable)) : (forall g v, In (g, v) parts -> forall idx, g_area g idx = 0%Q) ->
  rank_weights (map fst parts) =
  map (fun p => inject_Z (Z.of_nat (size_of (fst p))) / qmax (map (fun p => inject_Z (Z.of_nat (size_of (fst p)))) parts))%Q parts.
Proof.
  intro H. unfold rank_weights. cbv zeta.
  assert (T : (qsum (map union_area (map fst parts)) == 0)%Q).
  { clear - H. induction parts as [|[g v] t IH]; [reflexivity|]. cbn [map fst]. rewrite qsum_cons, union_zero, IH; [ring | |].
    - intros g' v' I. apply (H g' v'). now right.
    - apply (H g v). now left. }
  set (total := qsum _) in *. clearbody total.
  assert (E : map (fun p => rank_area total (fst p) (snd p)) (number 0 (map fst parts)) =
              map (fun p => inject_Z (Z.of_nat (size_of (fst p)))) parts).
  { generalize 0%nat. clear - H T. induction parts as [|[g v] t IH]; intro k; [reflexivity|]. cbn [map number fst snd]. f_equal.
    - apply points_area; [exact T|]. apply (H g v). now left.
    - apply IH. intros g' v' I. apply (H g' v'). now right. }
  rewrite E, map_map. reflexivity.
Qed.

Lemma mean_points (parts : list (geometry * variable)) (M : Q) (f : geometry * variable -> Q) (x : nat * list nat -> Q) q :
  (0 < M)%Q ->
  (forall r p, nth_error parts r = Some p ->
     IsMean (fun _ => 1%Q) (fun idx => x (r, idx)) (indices (lens (g_dims (fst p)))) (f p)) ->
  IsMean snd fst (combine (map f parts) (map (fun p => inject_Z (Z.of_nat (size_of (fst p))) / M)%Q parts)) q ->
  IsMean (fun _ => 1%Q) x (all_cells parts) q.
Proof.
  intros HM HP. rewrite combine_map. intros [H1 H2]. rewrite !map_map in H1, H2. cbn [fst snd] in H1, H2.
  assert (E1 : (qsum (map (fun _ => 1) (all_cells parts)) == qsum (map (fun p => inject_Z (Z.of_nat (size_of (fst p)))) parts))%Q).
  { unfold all_cells. generalize 0%nat. clear. induction parts as [|p t IH]; intro k; [reflexivity|]. cbn [number flat_map map fst snd].
    rewrite map_app, qsum_app, qsum_cons, IH, map_map, qsum_ones. reflexivity. }
  assert (E2 : (qsum (map (fun c => 1 * x c) (all_cells parts)) == qsum (map (fun p => inject_Z (Z.of_nat (size_of (fst p))) * f p) parts))%Q).
  { unfold all_cells. clear H1 H2 E1.
    assert (G : forall k ps, (forall r p, nth_error ps r = Some p ->
       IsMean (fun _ => 1%Q) (fun idx => x ((k + r)%nat, idx)) (indices (lens (g_dims (fst p)))) (f p)) ->
       (qsum (map (fun c => 1 * x c) (flat_map (fun p => map (pair (fst p)) (indices (lens (g_dims (fst (snd p)))))) (number k ps))) ==
        qsum (map (fun p => inject_Z (Z.of_nat (size_of (fst p))) * f p) ps))%Q).
    { intros k ps. revert k. induction ps as [|p t IH]; intros k G; [reflexivity|]. cbn [number flat_map map fst snd].
      rewrite map_app, qsum_app, qsum_cons, IH.
      - destruct (G 0%nat p eq_refl) as [_ G2]. rewrite Nat.add_0_r in G2. rewrite map_map, <- G2, qsum_ones. unfold size_of. ring.
      - intros r p' E. specialize (G (S r) p' E). now replace (k + S r)%nat with (S k + r)%nat in G by lia. }
    apply G. exact HP. }
  assert (F1 : (qsum (map (fun p => inject_Z (Z.of_nat (size_of (fst p))) / M) parts) == qsum (map (fun p => inject_Z (Z.of_nat (size_of (fst p)))) parts) * / M)%Q)
    by (apply (qsum_scale (fun p : geometry * variable => inject_Z (Z.of_nat (size_of (fst p)))))).
  assert (F2 : (qsum (map (fun p => inject_Z (Z.of_nat (size_of (fst p))) / M * f p) parts) == qsum (map (fun p => inject_Z (Z.of_nat (size_of (fst p))) * f p) parts) * / M)%Q).
  { rewrite <- (qsum_scale (fun p : geometry * variable => inject_Z (Z.of_nat (size_of (fst p))) * f p)%Q). apply qsum_ext. intros. unfold Qdiv. ring. }
  set (a := qsum (map (fun p => inject_Z (Z.of_nat (size_of (fst p)))) parts)) in *.
  set (b := qsum (map (fun p => inject_Z (Z.of_nat (size_of (fst p))) * f p)%Q parts)) in *.
  assert (PM : (0 < / M)%Q) by (now apply Qinv_lt_0_compat).
  split.
  - rewrite E1. rewrite F1 in H1. destruct (Qlt_le_dec 0 a) as [|D]; [assumption|]. exfalso. nra.
  - rewrite E1, E2. rewrite map_map in H2. cbn [fst snd] in H2. rewrite F1, F2 in H2.
    assert (Z : (q * a * / M == b * / M)%Q) by lra.
    assert ((q * a * / M) * M == (b * / M) * M)%Q by (now rewrite Z).
    assert (X : (/ M * M == 1)%Q) by (field; lra).
    rewrite <- !Qmult_assoc, X in H. lra.
Qed.

Lemma perm_same {A B} (f : A -> B) l l' c : (forall a, In a l -> f a = c) -> Permutation (map f l) l' -> l' = map f l.
Proof.
  intros H P. assert (E : map f l = repeat c (List.length l)).
  { clear P. induction l as [|a t IH]; [reflexivity|]. cbn. rewrite H by (now left). f_equal. apply IH. intros; apply H; now right. }
  rewrite E in *. now apply Permutation_repeat.
Qed.

Lemma parallel_points od parts : parts <> [] -> Parts od parts -> Points parts ->
  exists out, parallel_average (map one parts) = Ok out /\ List.length out = fold_right Nat.mul 1%nat (lens od) /\
  forall it x l, InGrid od it ->
    position od it = 0%nat \/ (exists n, forall g v, In (g, v) parts -> fold_right Nat.mul 1%nat (lens (g_dims g)) = n) ->
    PartValue parts it x -> Lists (PartCell parts) l ->
    exists q, nth_error out (position od it) = Some q /\ IsMean (fun _ => 1%Q) x l q.
Proof.
  intros N P Pt. rewrite (parallel_form od) by assumption. eexists. split; [reflexivity|].
  split; [now rewrite combine_length, map_length, len_indices|]. intros it x l I K X Hl.
  assert (H : forall g, In g (map fst parts) -> WellFormed g /\ exists idx, InGrid (g_dims g) idx).
  { intros g Ig. apply in_parts_fst in Ig as [v Ig]. split; [apply (P g v Ig)|]. apply (Pt g v Ig). }
  destruct (weights_pos (map fst parts)) as [Wp Wl]; [destruct parts; [congruence|discriminate] | exact H|].
  destruct (combine_one (map (fun it => map (fun p => cell_or_zero (fst p) (snd p) it) parts) (indices (lens od)))
              (rank_weights (map fst parts)) (position od it) (map (fun p => cell_or_zero (fst p) (snd p) it) parts) Wp)
    as (w' & q & Pw & Zw & Eq & M).
  - intro Z. rewrite Z in Wl. rewrite map_length in Wl. destruct parts; [congruence|discriminate].
  - intros e Ie. apply in_map_iff in Ie as (j & <- & _). now rewrite Wl, !map_length.
  - now rewrite nth_error_map, nth_indices.
  - exists q. split; [exact Eq|]. apply (mean_perm _ _ _ _ _ (lists_perm _ _ _ (cells_lists parts) Hl)).
    rewrite points_weights in Pw, Zw by (intros g v Ig; apply (Pt g v Ig)).
    set (mx := qmax _) in *.
    assert (Ew : w' = map (fun p => inject_Z (Z.of_nat (size_of (fst p))) / mx)%Q parts).
    { destruct K as [K|[n K]]; [now apply Zw|]. apply (perm_same _ _ _ (inject_Z (Z.of_nat n) / mx)%Q); [|exact Pw].
      intros [g v] Ip. cbn [fst]. unfold size_of. rewrite len_indices. now rewrite (K g v Ip). }
    rewrite Ew in M. apply (mean_points parts mx (fun p => cell_or_zero (fst p) (snd p) it)); [| |exact M].
    + unfold mx. destruct parts as [|[g v] t]; [congruence|]. cbn [map].
      match goal with |- (0 < qmax (?a :: ?l))%Q => pose proof (qmax_in a l) as J; set (m := qmax (a :: l)) in * end.
      clearbody m. change (In m (map (fun p => inject_Z (Z.of_nat (size_of (fst p)))) ((g, v) :: t))) in J.
      apply in_map_iff in J as ([g' v'] & <- & J). cbn [fst]. apply inject_pos. destruct (Pt g' v' J) as [[idx Hi] _]. eapply size_pos; eauto.
    + intros r [g v] Er. cbn [fst snd]. pose proof (nth_error_In _ _ Er) as Ip.
      destruct (P g v Ip) as (W & Kd & O). destruct (Pt g v Ip) as (Ne & Ar & Mg & Mv).
      assert (Sh : shared_dims g v = g_dims g) by (destruct Kd as [[Kd _]|Kd]; [exact Kd | now apply static_other]).
      assert (Li : List.length it = List.length (Other g v)) by (rewrite O; now apply grid_length).
      assert (Hi : Lists (Live g v it) (indices (lens (g_dims g)))).
      { split; [apply nodup_indices|]. intro idx. rewrite <- in_grid. split; [|intros [G _]; exact G]. intro G. split; [exact G|]. split; [apply Mg|].
        exists (place (names (g_dims g)) (v_dims v) it idx). split; [|apply Mv]. apply place_splits; [exact Li|].
        fold (shared_dims g v). rewrite Sh. now apply grid_length. }
      destruct (cell_spec g v it W Sh Li _ Hi) as [_ C]. destruct C as (m & Em & Hm).
      { destruct Ne as [idx Hx]. apply in_grid in Hx. intro Z. rewrite Z in Hx. destruct Hx. }
      unfold cell_or_zero. rewrite Em.
      assert (V : ValueAt g v it (fun idx => x (r, idx))) by (intros idx p Sp; eapply X; eauto).
      destruct (Hm _ V) as [M1 M2]. unfold IsMean.
      assert (Wt : forall idx, Weight g idx = 1%Q) by (intro idx; unfold Weight; now rewrite Ar).
      rewrite (map_ext _ _ Wt) in M1, M2. rewrite (map_ext (fun a => Weight g a * x (r, a))%Q (fun a => 1 * x (r, a))%Q) in M2 by (intro; now rewrite Wt).
      auto.
Qed.
