(** C58: conformed arrays and temporal aggregation. *)
From Verif Require SeasonProofs.
From Verif Require Import Py Lib Spec PicksLib PartitionModel NdModel NdSpec NdProofs MaskProofs TimeProofs CalcModel CalcSpec AggModel AggSpec.
From Coq Require Import Sorted.
Local Open Scope string_scope.
Local Open Scope Z_scope.

Definition is_std (n : string) : bool := str_mem n STANDARD.
Definition extras (cw : list string) : list string := filter (fun n => negb (is_std n)) cw.
Definition stds (cw : list string) : list string := filter is_std cw.

Lemma std_in n : is_std n = true <-> In n STANDARD.
Proof. apply str_mem_In. Qed.
Lemma in_extras cw n : In n (extras cw) <-> In n cw /\ ~ In n STANDARD.
Proof. unfold extras. rewrite filter_In, negb_true_iff. unfold is_std. rewrite str_mem_nIn. reflexivity. Qed.
Lemma in_stds cw n : In n (stds cw) <-> In n cw /\ In n STANDARD.
Proof. unfold stds. rewrite filter_In, std_in. reflexivity. Qed.
Lemma src_names_stds cw : filter (fun dn => negb (str_mem dn (extras cw))) cw = stds cw.
Proof.
  apply filter_ext_in. intros n Hn. destruct (is_std n) eqn:E.
  - apply negb_true_iff, str_mem_nIn. rewrite in_extras. apply std_in in E. tauto.
  - apply negb_false_iff, str_mem_In. apply in_extras. split; [exact Hn|]. intros H. apply std_in in H. congruence.
Qed.
Lemma size_after_stds cw sz n : In n STANDARD -> size_after (stds cw) sz n = size_after cw sz n.
Proof.
  intros Hn. unfold size_after. destruct (str_mem n cw) eqn:E.
  - apply str_mem_In in E. replace (str_mem n (stds cw)) with true; [reflexivity|]. symmetry. apply str_mem_In, in_stds. auto.
  - apply str_mem_nIn in E. replace (str_mem n (stds cw)) with false; [reflexivity|]. symmetry. apply str_mem_nIn. rewrite in_stds. tauto.
Qed.

(** ** Slices of the extra dimensions *)
Definition slc_of (cw : list string) (e : string -> Z) : list (option Z) := map (fun n => if is_std n then None else Some (e n)) cw.

Lemma take_shape_map cw e (sz : string -> Z) : take_shape (slc_of cw e) (map sz cw) = map sz (stds cw).
Proof. unfold slc_of, stds. induction cw as [|n t IH]; [reflexivity|]. cbn [map filter take_shape]. destruct (is_std n); cbn [map take_shape]; rewrite IH; reflexivity. Qed.
Lemma take_index_map cw e (c : string -> Z) : (forall n, In n cw -> ~ In n STANDARD -> c n = e n) ->
  take_index (slc_of cw e) (map c (stds cw)) = map c cw.
Proof.
  unfold slc_of, stds. induction cw as [|n t IH]; intros H; [reflexivity|]. cbn [map filter take_index].
  destruct (is_std n) eqn:E; cbn [map take_index]; rewrite IH by (intros; apply H; [right; assumption|assumption]); [reflexivity|].
  f_equal. symmetry. apply H; [left; reflexivity|]. intros Hs. apply std_in in Hs. congruence.
Qed.
Lemma np_take_ok {A} (arr : nd A) cw e sz : nd_shape arr = map sz cw -> (forall n, In n (extras cw) -> 0 <= e n < sz n) ->
  np_take arr (slc_of cw e) = Ok (mknd (map sz (stds cw)) (fun idx => nd_at arr (take_index (slc_of cw e) idx))).
Proof.
  intros Hs He. unfold np_take. rewrite Hs, take_shape_map.
  replace (forallb _ _) with true; [reflexivity|]. symmetry. apply forallb_forall. intros [o s] Hin.
  assert (H : exists n, In n cw /\ o = (if is_std n then None else Some (e n)) /\ s = sz n).
  { clear -Hin. unfold slc_of in Hin. induction cw as [|n t IH]; [contradiction|]. cbn in Hin. destruct Hin as [E|Hin].
    - injection E as <- <-. exists n. cbn. auto.
    - destruct (IH Hin) as (m & Hm & H). exists m. split; [right; exact Hm|exact H]. }
  destruct H as (n & Hn & -> & ->). cbn [fst snd]. destruct (is_std n) eqn:E; [reflexivity|].
  assert (0 <= e n < sz n) by (apply He, in_extras; split; [exact Hn|intros H; apply std_in in H; congruence]). lia.
Qed.

Lemma fold_slc cw (e : string -> Z) pos : NoDup cw -> forall l s, (forall n, In n l -> nth_error cw (pos n) = Some n) -> List.length s = List.length cw ->
  List.length (fold_left (fun s (ii : nat * Z) => set_nth s (fst ii) (Some (snd ii))) (map (fun n => (pos n, e n)) l) s) = List.length cw /\
  forall k n, nth_error cw k = Some n ->
    nth_error (fold_left (fun s (ii : nat * Z) => set_nth s (fst ii) (Some (snd ii))) (map (fun n => (pos n, e n)) l) s) k =
    if str_mem n l then Some (Some (e n)) else nth_error s k.
Proof.
  intros Hnd. induction l as [|m l IH]; intros s Hp Hl; [cbn; auto|]. cbn [map fold_left fst snd].
  assert (Hm : nth_error cw (pos m) = Some m) by (apply Hp; left; reflexivity).
  assert (Hlm : (pos m < List.length cw)%nat) by (apply nth_error_Some; congruence).
  destruct (IH (set_nth s (pos m) (Some (e m)))) as [H1 H2]; [intros; apply Hp; right; assumption|rewrite set_nth_length; exact Hl|].
  split; [exact H1|]. intros k n Hk. rewrite (H2 k n Hk). cbn [str_mem existsb]. fold (str_mem n l).
  destruct (String.eqb_spec n m) as [->|Hne].
  - assert (k = pos m) by (eapply nodup_nth_inj; eassumption). subst k. rewrite nth_error_set_nth_same by lia. destruct (str_mem m l); reflexivity.
  - cbn [orb]. destruct (str_mem n l); [reflexivity|]. apply nth_error_set_nth_other. intros ->. congruence.
Qed.

Lemma slc_built cw e pos : NoDup cw -> (forall n, In n (extras cw) -> nth_error cw (pos n) = Some n) ->
  fold_left (fun s (ii : nat * Z) => set_nth s (fst ii) (Some (snd ii))) (map (fun n => (pos n, e n)) (extras cw)) (repeat None (List.length cw)) = slc_of cw e.
Proof.
  intros Hnd Hp. destruct (fold_slc cw e pos Hnd (extras cw) (repeat None (List.length cw)) Hp) as [H1 H2]; [apply repeat_length|].
  apply NdProofs.nth_error_ext'. intros k. destruct (nth_error cw k) as [n|] eqn:Ek.
  - rewrite (H2 k n Ek). unfold slc_of. rewrite nth_error_map, Ek. cbn [option_map].
    assert (Hin : In n cw) by (eapply nth_error_In; exact Ek).
    destruct (is_std n) eqn:E.
    + replace (str_mem n (extras cw)) with false; [apply nth_error_repeat; apply nth_error_Some; congruence|].
      symmetry. apply str_mem_nIn. rewrite in_extras. apply std_in in E. tauto.
    + replace (str_mem n (extras cw)) with true; [reflexivity|]. symmetry. apply str_mem_In, in_extras.
      split; [exact Hin|]. intros H. apply std_in in H. congruence.
  - apply nth_error_None in Ek. unfold slc_of. rewrite nth_error_map. rewrite (proj2 (nth_error_None cw k)) by exact Ek.
    apply nth_error_None. rewrite H1. exact Ek.
Qed.

(** ** Conformed arrays *)
Definition pos_of (cw : list string) (n : string) : nat := match str_index cw n with Ok k => k | Err _ => O end.
Lemma pos_of_ok cw n : In n cw -> str_index cw n = Ok (pos_of cw n) /\ nth_error cw (pos_of cw n) = Some n.
Proof. intros H. destruct (str_index_ok cw n H) as (k & E & Hk). unfold pos_of. rewrite E. auto. Qed.

Lemma zip_extra_pos i n : 1 <= n -> zip_extra i n = map (pair i) (zrange 0 n).
Proof. intros H. unfold zip_extra. rewrite zrange_cons by lia. reflexivity. Qed.

Lemma extra_indices_ok cw (sz : string -> Z) : (forall n, In n (extras cw) -> 1 <= sz n) ->
  extra_indices cw (map sz cw) = Ok (list_product (map (fun n => map (pair (pos_of cw n)) (zrange 0 (sz n))) (extras cw)), stds cw).
Proof.
  intros Hs. unfold extra_indices. fold (extras cw).
  rewrite (map_res_all _ (fun n => map (pair (pos_of cw n)) (zrange 0 (sz n)))).
  - cbn [bind]. rewrite src_names_stds. reflexivity.
  - intros n Hn. apply in_extras in Hn as Hn'. destruct Hn' as [Hn' _]. destruct (pos_of_ok cw n Hn') as [E Hk].
    rewrite E. cbn [bind]. rewrite nth_error_map, Hk. cbn [option_map bind]. rewrite zip_extra_pos by (apply Hs; exact Hn). reflexivity.
Qed.

Definition Pair {A} cw (sz fsz : string -> Z) (arr : nd A) (e : string -> Z) (p : nd A * nd (list Z)) : Prop :=
  nd_shape (fst p) = map (size_after cw sz) STANDARD /\
  nd_shape (snd p) = map (size_after cw fsz) STANDARD /\
  (forall n, In n (extras cw) -> 0 <= e n < sz n) /\
  (forall c, InSizes STANDARD (size_after cw sz) c -> (forall n, In n (extras cw) -> c n = e n) -> nd_at (fst p) (map c STANDARD) = nd_at arr (map c cw)) /\
  (forall c, InSizes STANDARD (size_after cw fsz) c -> (forall n, In n (extras cw) -> c n = e n) -> nd_at (snd p) (map c STANDARD) = map c cw).

Lemma nodup_standard : NoDup STANDARD.
Proof. repeat constructor; cbn; intuition discriminate. Qed.

Lemma broadcast_part {A} (arr : nd A) cw (sz e : string -> Z) : NoDup cw -> nd_shape arr = map sz cw ->
  exists r, broadcast_array (mknd (map sz (stds cw)) (fun idx => nd_at arr (take_index (slc_of cw e) idx))) (stds cw) STANDARD = Ok r /\
    nd_shape r = map (size_after cw sz) STANDARD /\
    forall c, InSizes STANDARD (size_after cw sz) c -> (forall n, In n (extras cw) -> c n = e n) -> nd_at r (map c STANDARD) = nd_at arr (map c cw).
Proof.
  intros Hnd Hs. destruct (broadcast_array_spec (mknd (map sz (stds cw)) (fun idx => nd_at arr (take_index (slc_of cw e) idx))) (stds cw) STANDARD sz) as (r & E & Hsh & Hat).
  - apply NdProofs.nodup_filter. exact Hnd.
  - apply nodup_standard.
  - reflexivity.
  - intros n H1 H2. apply in_stds in H1. tauto.
  - exists r. split; [exact E|]. split.
    + rewrite Hsh. apply map_ext_in. intros n Hn. apply size_after_stds. exact Hn.
    + intros c Hc He. rewrite Hat.
      * cbn [nd_at]. rewrite take_index_map; [reflexivity|]. intros n H1 H2. apply He, in_extras. auto.
      * intros n Hn. apply in_stds in Hn. destruct Hn as [Hn1 Hn2]. specialize (Hc n Hn2). unfold size_after in Hc.
        apply str_mem_In in Hn1. rewrite Hn1 in Hc. exact Hc.
      * intros n Hn Hnot. specialize (Hc n Hn). unfold size_after in Hc.
        destruct (str_mem n cw) eqn:Em; [|lia]. apply str_mem_In in Em. exfalso. apply Hnot, in_stds. auto.
Qed.

Theorem conformed_spec {A} (arr : nd A) cw (sz fsz : string -> Z) : NoDup cw -> nd_shape arr = map sz cw ->
  (forall n, In n (extras cw) -> 1 <= sz n) -> (forall n, In n (extras cw) -> fsz n = sz n) ->
  exists pairs, conformed cw arr (map fsz cw) = Ok pairs /\
    (forall p, In p pairs -> exists e, Pair cw sz fsz arr e p) /\
    (forall e, (forall n, In n (extras cw) -> 0 <= e n < sz n) -> exists p, In p pairs /\ Pair cw sz fsz arr e p).
Proof.
  intros Hnd Hs Hpos Hf. unfold conformed. rewrite Hs, extra_indices_ok by exact Hpos. cbn [bind].
  match goal with |- context[map_res ?F ?L] => set (G := F); set (l := L) end.
  assert (HG : forall e, (forall n, In n (extras cw) -> 0 <= e n < sz n) ->
    exists p, G (map (fun n => (pos_of cw n, e n)) (extras cw)) = Ok p /\ Pair cw sz fsz arr e p).
  { intros e He. unfold G. cbv zeta. rewrite map_length. rewrite slc_built; [|exact Hnd|intros n Hn; apply in_extras in Hn; apply pos_of_ok; tauto].
    rewrite (np_take_ok arr cw e sz Hs He). cbn [bind].
    rewrite (np_take_ok (base_view (map fsz cw)) cw e fsz eq_refl) by (intros n Hn; rewrite Hf by exact Hn; apply He; exact Hn). cbn [bind].
    destruct (broadcast_part arr cw sz e Hnd Hs) as (r & E & H1 & H2). rewrite E. cbn [bind].
    destruct (broadcast_part (base_view (map fsz cw)) cw fsz e Hnd eq_refl) as (v & E' & H3 & H4). rewrite E'. cbn [bind].
    exists (r, v). split; [reflexivity|]. unfold Pair. cbn [fst snd]. split; [exact H1|]. split; [exact H3|]. split; [exact He|]. split; [exact H2|exact H4]. }
  assert (Hl : forall ix, In ix l <-> exists e, (forall n, In n (extras cw) -> 0 <= e n < sz n) /\ ix = map (fun n => (pos_of cw n, e n)) (extras cw)).
  { intros ix. unfold l. rewrite list_product_in. split.
    - intros H. assert (Hix : IndexOf (map sz (extras cw)) (map snd ix) /\ map fst ix = map (pos_of cw) (extras cw)).
      { clear -H. revert ix H. induction (extras cw) as [|n t IH]; intros ix H; cbn [map] in *; inversion H as [|? [i v] ? u Hin Ht]; subst.
        - split; constructor.
        - apply in_map_iff in Hin. destruct Hin as (x & E & Hx). injection E as <- <-. apply in_zrange in Hx. destruct (IH u Ht) as [I1 I2].
          cbn [map fst snd]. split; [constructor; [lia|exact I1]|rewrite I2; reflexivity]. }
      destruct Hix as [H1 H2]. apply index_as_map in H1; [|apply NdProofs.nodup_filter; exact Hnd]. destruct H1 as (e & E & He).
      exists e. split; [exact He|]. clear -H2 E. revert ix H2 E. generalize (extras cw). induction l as [|n t IH]; intros [|[i v] u] H2 E; try discriminate; [reflexivity|].
      cbn [map fst snd] in *. injection H2 as -> H2. injection E as -> E. f_equal. apply IH; assumption.
    - intros (e & He & ->). revert He. generalize (extras cw). intros l0. induction l0 as [|n t IH]; intros He; cbn [map]; constructor.
      + apply in_map, in_zrange. apply He. left; reflexivity.
      + apply IH. intros; apply He; right; assumption. }
  destruct (map_res_exists G l) as (pairs & Ep).
  { intros ix Hix. apply Hl in Hix. destruct Hix as (e & He & ->). destruct (HG e He) as (p & E & _). eauto. }
  exists pairs. split; [exact Ep|]. apply map_res_ok in Ep. split.
  - intros p Hp. apply In_nth_error in Hp. destruct Hp as (k & Hk). destruct (nth_error_forall2 _ _ _ Ep k) as [Hb _]. destruct (Hb p Hk) as (ix & Hix & Eix).
    apply nth_error_In in Hix. apply Hl in Hix. destruct Hix as (e & He & ->). destruct (HG e He) as (p' & E & HP). cbn beta in Eix. rewrite E in Eix. injection Eix as ->. eauto.
  - intros e He. assert (Hin : In (map (fun n => (pos_of cw n, e n)) (extras cw)) l) by (apply Hl; eauto).
    apply In_nth_error in Hin. destruct Hin as (k & Hk). destruct (nth_error_forall2 _ _ _ Ep k) as [_ Hb]. destruct (Hb _ Hk) as (p & Hp & Eix).
    destruct (HG e He) as (p' & E & HP). cbn beta in Eix. rewrite E in Eix. injection Eix as ->. exists p. split; [eapply nth_error_In; exact Hp|exact HP].
Qed.

(** ** Writing *)
Lemma fold_good {T S B} (step : S -> T -> res S) (val : S -> B) (G : B -> Prop) : forall l s s',
  fold_res step l s = Ok s' ->
  (forall t s s', In t l -> step s t = Ok s' -> val s' = val s \/ G (val s')) ->
  ((exists t, In t l /\ forall s s', step s t = Ok s' -> G (val s')) \/ G (val s)) -> G (val s').
Proof.
  induction l as [|t l IH]; intros s s' E Hstep Hgood; cbn [fold_res] in E.
  - injection E as ->. destruct Hgood as [(t & [] & _)|H]; exact H.
  - destruct (step s t) as [s1|] eqn:E1; [|discriminate]. cbn [bind] in E.
    apply (IH s1 s' E).
    + intros t' a b Hin. apply Hstep. right; exact Hin.
    + destruct Hgood as [(t' & [->|Hin] & Ht)|Hg].
      * right. eapply Ht. exact E1.
      * left. eauto.
      * right. destruct (Hstep t s s1 (or_introl eq_refl) E1) as [->|H]; [exact Hg|exact H].
Qed.
Lemma fold_res_exists {T S} (step : S -> T -> res S) : forall l s, (forall t s, In t l -> exists s', step s t = Ok s') -> exists s', fold_res step l s = Ok s'.
Proof.
  induction l as [|t l IH]; intros s H; [exists s; reflexivity|]. cbn [fold_res]. destruct (H t s (or_introl eq_refl)) as (s1 & E). rewrite E. cbn [bind].
  apply IH. intros; apply H; right; assumption.
Qed.

Lemma write_fold {B} (view : list Z -> list Z) (r : list Z -> B) b : forall l fill,
  let fill' := fold_left (fun fill yx => upd fill (view yx) (r yx)) l fill in
  ((forall yx, In yx l -> view yx <> b) /\ fill' b = fill b) \/ exists yx, In yx l /\ view yx = b /\ fill' b = r yx.
Proof.
  induction l as [|yx l IH]; intros fill; cbn [fold_left]; cbv zeta.
  - left. split; [intros ? []|reflexivity].
  - destruct (IH (upd fill (view yx) (r yx))) as [[H1 H2]|(z & Hz & Hv & He)]; cbv zeta in *.
    + destruct (listZ_eqb b (view yx)) eqn:E.
      * apply listZ_eqb_eq in E. right. exists yx. split; [left; reflexivity|]. split; [congruence|]. rewrite H2. unfold upd. rewrite E, listZ_eqb_refl. reflexivity.
      * left. split.
        -- intros z [<-|Hz]; [|apply H1; exact Hz]. intros E'. rewrite E', listZ_eqb_refl in E. discriminate.
        -- rewrite H2. unfold upd. rewrite E. reflexivity.
    + right. exists z. split; [right; exact Hz|]. auto.
Qed.

Lemma write_plane_spec {B} view prefix plane (r : nd B) fill fill' b : write_plane view prefix plane r fill = Ok fill' ->
  ((forall yx, IndexOf plane yx -> nd_at view (prefix ++ yx)%list <> b) /\ fill' b = fill b) \/
  exists yx, IndexOf plane yx /\ nd_at view (prefix ++ yx)%list = b /\ fill' b = nd_at r yx.
Proof.
  unfold write_plane. destruct (check_shape r plane ValueError); [|discriminate]. cbn [bind]. intros E. injection E as <-.
  destruct (write_fold (fun yx => nd_at view (prefix ++ yx)%list) (nd_at r) b (indices plane) fill) as [[H1 H2]|(yx & H1 & H2 & H3)]; cbv zeta in *.
  - left. split; [intros yx Hyx; apply H1, in_indices; exact Hyx|exact H2].
  - right. exists yx. apply in_indices in H1. auto.
Qed.
Lemma write_plane_ok {B} view prefix plane (r : nd B) fill : nd_shape r = plane -> exists fill', write_plane view prefix plane r fill = Ok fill'.
Proof. intros <-. unfold write_plane, check_shape. rewrite listZ_eqb_refl. cbn [bind]. eauto. Qed.

(** ** Groups *)
Lemma members_spec group : StronglySorted Z.lt (members group) /\ forall t, In t (members group) <-> HoldsAt group t.
Proof.
  unfold members.
  assert (H : forall g lo, StronglySorted Z.lt (bool_select g (zrange lo (lo + zlen g))) /\
    forall t, In t (bool_select g (zrange lo (lo + zlen g))) <-> lo <= t /\ nth_error g (Z.to_nat (t - lo)) = Some true).
  { induction g as [|b g IH]; intros lo.
    - cbn. split; [constructor|]. intros t. split; [intros []|]. intros [_ H]. destruct (Z.to_nat (t - lo)); discriminate.
    - rewrite zlen_cons. pose proof (zlen_nonneg g). rewrite zrange_cons by lia. cbn [bool_select].
      replace (lo + (1 + zlen g)) with ((lo + 1) + zlen g) by lia. destruct (IH (lo + 1)) as [IHs IH'].
      assert (Hrec : forall t, lo + 1 <= t -> (nth_error (b :: g) (Z.to_nat (t - lo)) = nth_error g (Z.to_nat (t - (lo + 1))))).
      { intros t Ht. replace (Z.to_nat (t - lo)) with (S (Z.to_nat (t - (lo + 1)))) by lia. reflexivity. }
      destruct b; split.
      + constructor; [exact IHs|]. apply Forall_forall. intros t Ht. apply IH' in Ht. lia.
      + intros t. cbn [In]. rewrite IH'. split.
        * intros [<-|[H1 H2]]; [rewrite Z.sub_diag; split; [lia|reflexivity]|]. rewrite Hrec by lia. split; [lia|exact H2].
        * intros [H1 H2]. destruct (Z.eq_dec t lo) as [->|Hne]; [left; reflexivity|]. right. rewrite Hrec in H2 by lia. split; [lia|exact H2].
      + exact IHs.
      + intros t. rewrite IH'. split.
        * intros [H1 H2]. rewrite Hrec by lia. split; [lia|exact H2].
        * intros [H1 H2]. destruct (Z.eq_dec t lo) as [->|Hne]; [rewrite Z.sub_diag in H2; discriminate|]. rewrite Hrec in H2 by lia. split; [lia|exact H2]. }
  destruct (H group 0) as [H1 H2]. cbn [Z.add] in *. split; [exact H1|]. intros t. rewrite H2, Z.sub_0_r. reflexivity.
Qed.

Definition coord5 (r t l y x : Z) (e : string -> Z) (n : string) : Z :=
  if String.eqb n "realization" then r else if String.eqb n "time" then t else if String.eqb n "level" then l
  else if String.eqb n "y" then y else if String.eqb n "x" then x else e n.
Lemma coord5_std r t l y x e : map (coord5 r t l y x e) STANDARD = [r; t; l; y; x].
Proof. reflexivity. Qed.
Lemma coord5_extra r t l y x e n : ~ In n STANDARD -> coord5 r t l y x e n = e n.
Proof.
  intros H. unfold coord5. repeat match goal with |- context[String.eqb n ?s] => destruct (String.eqb_spec n s); [subst n; exfalso; apply H; cbn; auto 10|] end. reflexivity.
Qed.
Lemma coord5_sizes r t l y x e sz : 0 <= r < sz "realization" -> 0 <= t < sz "time" -> 0 <= l < sz "level" -> 0 <= y < sz "y" -> 0 <= x < sz "x" ->
  InSizes STANDARD sz (coord5 r t l y x e).
Proof. intros H1 H2 H3 H4 H5 n Hn. cbn in Hn. destruct Hn as [<-|[<-|[<-|[<-|[<-|[]]]]]]; assumption. Qed.

Section Agg.
  Context {A B : Type} (f : nd (mcell A) -> res (nd (mcell B))) (cw : list string) (arr : nd (mcell A)) (sz : string -> Z) (groups : list (list bool)).
  Hypothesis Hnd : NoDup cw.
  Hypothesis Htime : In "time" cw.
  Hypothesis Hshape : nd_shape arr = map sz cw.
  Hypothesis Hextra : forall n, In n (extras cw) -> 1 <= sz n.
  Hypothesis Hgroups : forall g, In g groups -> zlen g = sz "time".
  Hypothesis Hf : forall block nt ny nx, nd_shape block = [nt; ny; nx] -> exists r, f block = Ok r /\ nd_shape r = [ny; nx].
  Let fsz := with_coord sz "time" (zlen groups).

  Definition GoodVal (c : string -> Z) (v : mcell B) : Prop :=
    exists group block r, nth_error groups (Z.to_nat (c "time")) = Some group /\ GroupBlock cw sz arr c group block /\
      f block = Ok r /\ v = nd_at r [coord_or_zero cw c "y"; coord_or_zero cw c "x"].

  Lemma with_coord_ext c c' n v : (forall m, In m cw -> c m = c' m) -> forall m, In m cw -> with_coord c n v m = with_coord c' n v m.
  Proof. intros H m Hm. unfold with_coord. destruct (String.eqb m n); [reflexivity|apply H; exact Hm]. Qed.
  Lemma good_ext c c' v : (forall n, In n cw -> c n = c' n) -> GoodVal c v -> GoodVal c' v.
  Proof.
    intros H (group & block & r & Hg & (steps & S1 & S2 & S3 & S4) & E & ->). exists group, block, r.
    rewrite <- (H "time" Htime). split; [exact Hg|]. split.
    - exists steps. split; [exact S1|]. split; [exact S2|]. split; [exact S3|]. intros k t j i Hk Hj Hi. rewrite (S4 k t j i Hk Hj Hi). f_equal.
      apply map_ext_in. do 3 apply with_coord_ext. exact H.
    - split; [exact E|]. do 2 f_equal; [|f_equal]; unfold coord_or_zero; destruct (str_mem _ cw) eqn:Em; try reflexivity; apply H, str_mem_In, Em.
  Qed.

  Lemma size_fsz n : n <> "time" -> size_after cw fsz n = size_after cw sz n.
  Proof. intros H. unfold size_after, fsz, with_coord. destruct (String.eqb_spec n "time"); [congruence|reflexivity]. Qed.
  Lemma size_time : size_after cw sz "time" = sz "time" /\ size_after cw fsz "time" = zlen groups.
  Proof. unfold size_after. rewrite (proj2 (str_mem_In "time" cw) Htime). split; reflexivity. Qed.

  Definition step5 (carr : nd (mcell A)) (view : nd (list Z)) (fill : list Z -> mcell B) (rlt : list Z) : res (list Z -> mcell B) :=
    match rlt with
    | [ir; il; it] =>
      do group <- py_index groups it;
      do block <- group_block carr ir il group;
      do r <- f block;
      write_plane view [ir; it; il] [size_after cw sz "y"; size_after cw sz "x"] r fill
    | _ => Err IndexError
    end.

  Lemma agg_loop_unfold p e fill : Pair cw sz fsz arr e p ->
    agg_loop f groups p fill = fold_res (step5 (fst p) (snd p))
      (list_product [zrange 0 (size_after cw sz "realization"); zrange 0 (size_after cw sz "level"); zrange 0 (zlen groups)]) fill.
  Proof. intros (H1 & _). destruct p as [carr view]. cbn [fst snd] in *. unfold agg_loop. rewrite H1. reflexivity. Qed.

  Lemma py_index_at {X} (l : list X) i x : py_index l i = Ok x -> 0 <= i -> nth_error l (Z.to_nat i) = Some x.
  Proof.
    unfold py_index. intros E Hi. replace (i <? 0) with false in E by lia. destruct (_ || _); [discriminate|].
    destruct (nth_error l (Z.to_nat i)); congruence.
  Qed.
  Lemma py_index_exists {X} (l : list X) i : 0 <= i < zlen l -> exists x, py_index l i = Ok x /\ In x l.
  Proof.
    intros H. unfold py_index. replace (i <? 0) with false by lia. replace ((i <? 0) || (zlen l <=? i)) with false by lia.
    destruct (nth_error l (Z.to_nat i)) as [x|] eqn:E; [|apply nth_error_None in E; unfold zlen in H; lia]. exists x. split; [reflexivity|]. eapply nth_error_In; exact E.
  Qed.

  Lemma block_good p e ir il it group : Pair cw sz fsz arr e p -> 0 <= ir < size_after cw sz "realization" -> 0 <= il < size_after cw sz "level" ->
    In group groups ->
    exists block, group_block (fst p) ir il group = Ok block /\
      forall j i, GroupBlock cw sz arr (coord5 ir it il j i e) group block.
  Proof.
    intros (H1 & _ & He & Hc & _) Hr Hl Hg. unfold group_block. rewrite H1. cbn [map STANDARD].
    destruct size_time as [St _]. pose proof (Hgroups _ Hg) as Hlen. cbn [map]. rewrite St, Hlen, Z.eqb_refl.
    eexists. split; [reflexivity|]. intros j0 i0. destruct (members_spec group) as [M1 M2]. exists (members group).
    split; [exact M1|]. split; [exact M2|]. split; [reflexivity|]. intros k t j i Hk Hj Hi. cbn [nd_at].
    rewrite Nat2Z.id. rewrite (nth_error_nth _ _ 0 Hk).
    assert (Ht : 0 <= t < sz "time").
    { assert (Hin : HoldsAt group t) by (apply M2; eapply nth_error_In; exact Hk). destruct Hin as [Ht0 Ht]. split; [exact Ht0|].
      assert (Z.to_nat t < List.length group)%nat by (apply nth_error_Some; congruence). unfold zlen in Hlen. lia. }
    rewrite <- (coord5_std ir t il j i e). rewrite Hc.
    - f_equal. apply map_ext. intros n. unfold with_coord, coord5.
      repeat match goal with |- context[String.eqb n ?s] => destruct (String.eqb_spec n s); [subst n; reflexivity|] end. reflexivity.
    - apply coord5_sizes; try assumption. rewrite St. exact Ht.
    - intros n Hn. apply coord5_extra. apply in_extras in Hn. tauto.
  Qed.

  Lemma plane_index a b yx : IndexOf [a; b] yx -> exists j i, yx = [j; i] /\ 0 <= j < a /\ 0 <= i < b.
  Proof. intros H. inversion H as [|? j ? u Hj Hu]; subst. inversion Hu as [|? i ? u' Hi Hu']; subst. inversion Hu'; subst. exists j, i. auto. Qed.

  Lemma coord_zero n v c : In n STANDARD -> 0 <= v < size_after cw sz n -> (str_mem n cw = true -> c n = v) -> coord_or_zero cw c n = v.
  Proof. intros Hn Hv Hc. unfold coord_or_zero. unfold size_after in Hv. destruct (str_mem n cw); [apply Hc; reflexivity|lia]. Qed.

  Lemma step_good p e b : Pair cw sz fsz arr e p -> forall rlt s s',
    In rlt (list_product [zrange 0 (size_after cw sz "realization"); zrange 0 (size_after cw sz "level"); zrange 0 (zlen groups)]) ->
    step5 (fst p) (snd p) s rlt = Ok s' -> s' b = s b \/ exists c, b = map c cw /\ GoodVal c (s' b).
  Proof.
    intros HP rlt s s' Hin E. apply list_product_in in Hin.
    inversion Hin as [|? ir ? u Hr Hu]; subst. inversion Hu as [|? il ? u' Hl Hu']; subst. inversion Hu' as [|? it ? u'' Hi Hu'']; subst. inversion Hu''; subst.
    apply in_zrange in Hr, Hl, Hi. cbn [step5] in E.
    destruct (py_index_exists groups it Hi) as (group & Eg & Hg). rewrite Eg in E. cbn [bind] in E.
    destruct (block_good p e ir il it group HP Hr Hl Hg) as (block & Eb & HB). rewrite Eb in E. cbn [bind] in E.
    destruct (f block) as [r|] eqn:Ef; [|discriminate]. cbn [bind] in E.
    destruct (write_plane_spec _ _ _ _ _ _ b E) as [[_ H]|(yx & Hyx & Hv & Hb)]; [left; exact H|]. right.
    apply plane_index in Hyx. destruct Hyx as (j & i & -> & Hj & Hi'). cbn [app] in Hv.
    exists (coord5 ir it il j i e). split.
    - rewrite <- Hv. destruct HP as (_ & _ & He & _ & Hview). rewrite <- (coord5_std ir it il j i e). apply Hview.
      + apply coord5_sizes; try (rewrite size_fsz by discriminate; assumption). rewrite (proj2 size_time). exact Hi.
      + intros n Hn. apply coord5_extra. apply in_extras in Hn. tauto.
    - exists group, block, r. split; [apply (py_index_at groups it group Eg); lia|]. split; [apply HB|]. split; [exact Ef|].
      rewrite Hb. f_equal. f_equal; [|f_equal]; symmetry; apply coord_zero; try assumption; try (cbn; tauto); intros _; reflexivity.
  Qed.

  Lemma step_ok p e : Pair cw sz fsz arr e p -> forall rlt s,
    In rlt (list_product [zrange 0 (size_after cw sz "realization"); zrange 0 (size_after cw sz "level"); zrange 0 (zlen groups)]) ->
    exists s', step5 (fst p) (snd p) s rlt = Ok s'.
  Proof.
    intros HP rlt s Hin. apply list_product_in in Hin.
    inversion Hin as [|? ir ? u Hr Hu]; subst. inversion Hu as [|? il ? u' Hl Hu']; subst. inversion Hu' as [|? it ? u'' Hi Hu'']; subst. inversion Hu''; subst.
    apply in_zrange in Hr, Hl, Hi. cbn [step5].
    destruct (py_index_exists groups it Hi) as (group & Eg & Hg). rewrite Eg. cbn [bind].
    destruct (block_good p e ir il it group HP Hr Hl Hg) as (block & Eb & HB). rewrite Eb. cbn [bind].
    destruct (HB 0 0) as (steps & _ & _ & Hsh & _). destruct (Hf block _ _ _ Hsh) as (r & Er & Hrs). rewrite Er. cbn [bind].
    apply write_plane_ok. exact Hrs.
  Qed.

  (** The task which writes position [c]. *)
  Lemma step_hits p c : InSizes cw fsz c -> Pair cw sz fsz arr c p ->
    exists rlt, In rlt (list_product [zrange 0 (size_after cw sz "realization"); zrange 0 (size_after cw sz "level"); zrange 0 (zlen groups)]) /\
      forall s s', step5 (fst p) (snd p) s rlt = Ok s' -> exists c', map c cw = map c' cw /\ GoodVal c' (s' (map c cw)).
  Proof.
    intros Hc HP. set (z := coord_or_zero cw c).
    assert (Hz : forall n, In n STANDARD -> n <> "time" -> 0 <= z n < size_after cw sz n).
    { intros n Hn Hne. unfold z, coord_or_zero, size_after. destruct (str_mem n cw) eqn:E; [|lia]. apply str_mem_In in E. specialize (Hc n E). unfold fsz, with_coord in Hc.
      destruct (String.eqb_spec n "time"); [congruence|exact Hc]. }
    assert (Hzt : z "time" = c "time" /\ 0 <= c "time" < zlen groups).
    { unfold z, coord_or_zero. rewrite (proj2 (str_mem_In "time" cw) Htime). split; [reflexivity|]. specialize (Hc "time" Htime). exact Hc. }
    exists [z "realization"; z "level"; z "time"]. split.
    { apply list_product_in. repeat constructor; apply in_zrange; [apply Hz; [cbn; tauto|discriminate]|apply Hz; [cbn; tauto|discriminate]|lia]. }
    intros s s' E.
    assert (Hkey : nd_at (snd p) [z "realization"; z "time"; z "level"; z "y"; z "x"] = map c cw).
    { destruct HP as (_ & _ & _ & _ & Hview). change [z "realization"; z "time"; z "level"; z "y"; z "x"] with (map z STANDARD).
      replace (map z STANDARD) with (map (fun n => if is_std n then z n else c n) STANDARD) by reflexivity. rewrite Hview.
      - apply map_ext_in. intros n Hn. destruct (is_std n); [|reflexivity]. unfold z, coord_or_zero. rewrite (proj2 (str_mem_In n cw) Hn). reflexivity.
      - intros n Hn. apply std_in in Hn as Hs. rewrite Hs. destruct (String.eqb_spec n "time") as [->|Hne].
        + rewrite (proj2 size_time). lia.
        + rewrite size_fsz by exact Hne. apply Hz; assumption.
      - intros n Hn. apply in_extras in Hn. destruct (is_std n) eqn:Es; [apply std_in in Es; tauto|reflexivity]. }
    cbn [step5] in E. destruct (py_index groups (z "time")) as [group|] eqn:Eg; [|discriminate]. cbn [bind] in E.
    assert (Hg : In group groups) by (apply py_index_at in Eg; [eapply nth_error_In; exact Eg|lia]).
    destruct (block_good p c (z "realization") (z "level") (z "time") group HP) as (block & Eb & HB); [apply Hz; [cbn; tauto|discriminate]|apply Hz; [cbn; tauto|discriminate]|exact Hg|].
    rewrite Eb in E. cbn [bind] in E. destruct (f block) as [r|] eqn:Ef; [|discriminate]. cbn [bind] in E.
    destruct (write_plane_spec _ _ _ _ _ _ (map c cw) E) as [[H _]|(yx & Hyx & Hv & Hb)].
    - exfalso. apply (H [z "y"; z "x"]); [|exact Hkey]. repeat constructor; apply Hz; try discriminate; cbn; tauto.
    - apply plane_index in Hyx. destruct Hyx as (j & i & -> & Hj & Hi'). cbn [app] in Hv.
      exists (coord5 (z "realization") (z "time") (z "level") j i c). split.
      + rewrite <- Hv. destruct HP as (_ & _ & _ & _ & Hview). rewrite <- (coord5_std (z "realization") (z "time") (z "level") j i c). apply Hview.
        * apply coord5_sizes; try (rewrite size_fsz by discriminate); try assumption; try (apply Hz; [cbn; tauto|discriminate]). rewrite (proj2 size_time). lia.
        * intros n Hn. apply coord5_extra. apply in_extras in Hn. tauto.
      + exists group, block, r. split; [apply (py_index_at groups (z "time") group Eg); lia|]. split; [apply HB|]. split; [exact Ef|].
        rewrite Hb. f_equal. f_equal; [|f_equal]; symmetry; apply coord_zero; try assumption; try (cbn; tauto); intros _; reflexivity.
  Qed.

  Lemma fill_shape_map : (do time_axis <- str_index cw "time"; Ok (set_nth (nd_shape arr) time_axis (zlen groups))) = Ok (map fsz cw).
  Proof.
    destruct (pos_of_ok cw "time" Htime) as [E Hk]. rewrite E. cbn [bind]. f_equal. rewrite Hshape. apply NdProofs.nth_error_ext'. intros k.
    destruct (Nat.eq_dec k (pos_of cw "time")) as [->|Hne].
    - rewrite nth_error_set_nth_same by (rewrite map_length; apply nth_error_Some; congruence). rewrite nth_error_map, Hk. reflexivity.
    - rewrite nth_error_set_nth_other by exact Hne. rewrite !nth_error_map. destruct (nth_error cw k) as [n|] eqn:Ek; [|reflexivity]. cbn. f_equal.
      unfold fsz, with_coord. destruct (String.eqb_spec n "time") as [->|]; [|reflexivity]. exfalso. apply Hne. eapply nodup_nth_inj; eassumption.
  Qed.

  Lemma map_eq_in (c c' : string -> Z) : forall l, map c l = map c' l -> forall n, In n l -> c n = c' n.
  Proof. induction l as [|m l IH]; intros E n Hn; [contradiction|]. cbn in E. injection E as E1 E2. destruct Hn as [<-|Hn]; [exact E1|apply IH; assumption]. Qed.

  Lemma temporal_agg_in_section fill :
    exists out, temporal_agg f cw arr groups fill = Ok out /\ nd_shape out = map fsz cw /\
      forall c, InSizes cw fsz c -> GoodVal c (nd_at out (map c cw)).
  Proof.
    unfold temporal_agg. pose proof fill_shape_map as Hfs. destruct (str_index cw "time") as [ta|]; [|discriminate]. cbn [bind] in *. injection Hfs as ->.
    destruct (conformed_spec arr cw sz fsz Hnd Hshape Hextra) as (pairs & Ep & Hsound & Hcomplete).
    { intros n Hn. unfold fsz, with_coord. apply in_extras in Hn. destruct (String.eqb_spec n "time") as [->|]; [exfalso; apply (proj2 Hn); cbn; tauto|reflexivity]. }
    rewrite Ep. cbn [bind].
    destruct (fold_res_exists (fun fill p => agg_loop f groups p fill) pairs fill) as (fill' & Efill).
    { intros p s Hp. destruct (Hsound p Hp) as (e & HP). rewrite (agg_loop_unfold p e s HP). apply fold_res_exists. intros rlt s0 Hin. apply (step_ok p e HP). exact Hin. }
    rewrite Efill. cbn [bind]. eexists. split; [reflexivity|]. split; [reflexivity|]. intros c Hc. cbn [nd_at].
    set (G := fun v => exists c', map c cw = map c' cw /\ GoodVal c' v).
    assert (HG : G (fill' (map c cw))).
    { apply (fold_good (fun fill p => agg_loop f groups p fill) (fun s => s (map c cw)) G pairs fill fill' Efill).
      - intros p s s' Hp E. destruct (Hsound p Hp) as (e & HP). rewrite (agg_loop_unfold p e s HP) in E.
        set (v0 := s (map c cw)).
        apply (fold_good (step5 (fst p) (snd p)) (fun s => s (map c cw)) (fun v => v = v0 \/ G v) _ s s' E).
        + intros rlt a a' Hin Ea. destruct (step_good p e (map c cw) HP rlt a a' Hin Ea) as [H|H]; [left; exact H|right; right; exact H].
        + right. left. reflexivity.
      - left. destruct (Hcomplete c) as (p & Hp & HP).
        { intros n Hn. apply in_extras in Hn. destruct Hn as [Hn1 Hn2]. specialize (Hc n Hn1). unfold fsz, with_coord in Hc.
          destruct (String.eqb_spec n "time") as [E0|]; [exfalso; apply Hn2; rewrite E0; cbn; tauto|exact Hc]. }
        exists p. split; [exact Hp|]. intros s s' E. rewrite (agg_loop_unfold p c s HP) in E.
        apply (fold_good (step5 (fst p) (snd p)) (fun s => s (map c cw)) G _ s s' E).
        + intros rlt a a' Hin Ea. destruct (step_good p c (map c cw) HP rlt a a' Hin Ea) as [H|H]; [left; exact H|right; exact H].
        + left. destruct (step_hits p c Hc HP) as (rlt & Hin & H). exists rlt. split; [exact Hin|exact H]. }
    destruct HG as (c' & E & H). apply (good_ext c' c); [|exact H]. intros n Hn. symmetry. apply (map_eq_in c c' cw E n Hn).
  Qed.
End Agg.

Theorem temporal_agg_spec : forall A B (f : nd (mcell A) -> res (nd (mcell B))) names (arr : nd (mcell A)) (sz : string -> Z) groups fill,
  NoDup names -> In "time" names -> nd_shape arr = map sz names ->
  (forall n, In n names -> ~ In n STANDARD -> 1 <= sz n) ->
  (forall g, In g groups -> zlen g = sz "time") ->
  (forall block nt ny nx, nd_shape block = [nt; ny; nx] -> exists r, f block = Ok r /\ nd_shape r = [ny; nx]) ->
  exists out, temporal_agg f names arr groups fill = Ok out /\
    nd_shape out = map (with_coord sz "time" (zlen groups)) names /\
    forall c, InSizes names (with_coord sz "time" (zlen groups)) c ->
      exists group block r, nth_error groups (Z.to_nat (c "time")) = Some group /\ GroupBlock names sz arr c group block /\
        f block = Ok r /\ nd_at out (map c names) = nd_at r [coord_or_zero names c "y"; coord_or_zero names c "x"].
Proof.
  intros A B f names arr sz groups fill H1 H2 H3 H4 H5 H6.
  apply (temporal_agg_in_section f names arr sz groups H1 H2 H3); try assumption.
  intros n Hn. apply in_extras in Hn. apply H4; tauto.
Qed.

(** ** Functions without groups *)
Section Transform.
  Context {A B : Type} (f : nd (mcell A) -> res (nd (mcell B))) (cw : list string) (arr : nd (mcell A)) (sz : string -> Z).
  Hypothesis Hnd : NoDup cw.
  Hypothesis Hshape : nd_shape arr = map sz cw.
  Hypothesis Hextra : forall n, In n (extras cw) -> 1 <= sz n.
  Hypothesis Hf : forall block, exists r, f block = Ok r /\ nd_shape r = nd_shape block.

  Definition GoodT (c : string -> Z) (v : mcell B) : Prop :=
    exists block r, StandardBlock cw sz arr c block /\ f block = Ok r /\ v = nd_at r (map (coord_or_zero cw c) STANDARD).
  Lemma goodT_ext c c' v : (forall n, In n cw -> c n = c' n) -> GoodT c v -> GoodT c' v.
  Proof.
    intros H (block & r & (H1 & H2) & E & ->). exists block, r. split; [split; [exact H1|]|].
    - intros d Hd He. apply H2; [exact Hd|]. intros n Hn Hns. rewrite H by exact Hn. apply He; assumption.
    - split; [exact E|]. f_equal. apply map_ext. intros n. unfold coord_or_zero. destruct (str_mem n cw) eqn:Em; [|reflexivity]. apply H, str_mem_In, Em.
  Qed.
  Definition stepT (fill : list Z -> mcell B) (p : nd (mcell A) * nd (list Z)) : res (list Z -> mcell B) :=
    do r <- f (fst p); write_plane (snd p) [] (nd_shape (fst p)) r fill.

  Lemma pair_block p e : Pair cw sz sz arr e p -> StandardBlock cw sz arr e (fst p).
  Proof. intros (H1 & _ & He & Hc & _). split; [exact H1|]. intros d Hd Hde. apply Hc; [exact Hd|]. intros n Hn. apply in_extras in Hn. apply Hde; tauto. Qed.

  Lemma stepT_write p e s s' b : Pair cw sz sz arr e p -> stepT s p = Ok s' ->
    ((forall d, InSizes STANDARD (size_after cw sz) d -> map (fun n => if is_std n then d n else e n) cw <> b) /\ s' b = s b) \/
    exists c, b = map c cw /\ GoodT c (s' b).
  Proof.
    intros HP E. unfold stepT in E. destruct (f (fst p)) as [r|] eqn:Ef; [|discriminate]. cbn [bind] in E.
    assert (Hview : forall d, InSizes STANDARD (size_after cw sz) d -> nd_at (snd p) (map d STANDARD) = map (fun n => if is_std n then d n else e n) cw).
    { intros d Hd. destruct HP as (_ & _ & _ & _ & Hv). replace (map d STANDARD) with (map (fun n => if is_std n then d n else e n) STANDARD) by reflexivity. apply Hv.
      - intros n Hn. apply std_in in Hn as Hs. rewrite Hs. apply Hd. exact Hn.
      - intros n Hn. apply in_extras in Hn. destruct (is_std n) eqn:Es; [apply std_in in Es; tauto|reflexivity]. }
    pose proof HP as (H1 & _). rewrite H1 in E.
    destruct (write_plane_spec _ _ _ _ _ _ b E) as [[H2 H3]|(yx & Hyx & Hv & Hb)]; cbn [app] in *.
    - left. split; [|exact H3]. intros d Hd Ed. apply (H2 (map d STANDARD)); [|rewrite Hview by exact Hd; exact Ed]. apply index_of_map. exact Hd.
    - right. apply index_as_map in Hyx; [|apply nodup_standard]. destruct Hyx as (d & -> & Hd).
      exists (fun n => if is_std n then d n else e n). split; [rewrite <- Hv; apply Hview; exact Hd|].
      exists (fst p), r. split; [|split; [exact Ef|]].
      + destruct (pair_block p e HP) as [B1 B2]. split; [exact B1|]. intros d' Hd' He'. apply B2; [exact Hd'|]. intros n Hn Hns. rewrite He' by assumption.
        destruct (is_std n) eqn:Es; [apply std_in in Es; tauto|reflexivity].
      + rewrite Hb. f_equal. apply map_ext_in. intros n Hn. unfold coord_or_zero. apply std_in in Hn as Hs. rewrite Hs.
        specialize (Hd n Hn). unfold size_after in Hd. destruct (str_mem n cw); [reflexivity|lia].
  Qed.

  Lemma transform_in_section fill :
    exists out, transform f cw arr fill = Ok out /\ nd_shape out = nd_shape arr /\
      forall c, InSizes cw sz c -> GoodT c (nd_at out (map c cw)).
  Proof.
    unfold transform. rewrite Hshape.
    destruct (conformed_spec arr cw sz sz Hnd Hshape Hextra) as (pairs & Ep & Hsound & Hcomplete); [reflexivity|].
    rewrite Ep. cbn [bind]. fold stepT.
    destruct (fold_res_exists stepT pairs fill) as (fill' & Efill).
    { intros p s Hp. unfold stepT. destruct (Hf (fst p)) as (r & Er & Hr). rewrite Er. cbn [bind]. apply write_plane_ok. exact Hr. }
    rewrite Efill. cbn [bind]. eexists. split; [reflexivity|]. split; [reflexivity|]. intros c Hc. cbn [nd_at].
    set (G := fun v => exists c', map c cw = map c' cw /\ GoodT c' v).
    assert (HG : G (fill' (map c cw))).
    { apply (fold_good stepT (fun s => s (map c cw)) G pairs fill fill' Efill).
      - intros p s s' Hp E. destruct (Hsound p Hp) as (e & HP). destruct (stepT_write p e s s' (map c cw) HP E) as [[_ H]|H]; [left; exact H|right; exact H].
      - left. destruct (Hcomplete c) as (p & Hp & HP).
        { intros n Hn. apply in_extras in Hn. apply Hc; tauto. }
        exists p. split; [exact Hp|]. intros s s' E. destruct (stepT_write p c s s' (map c cw) HP E) as [[H _]|H]; [|exact H].
        exfalso. apply (H (coord_or_zero cw c)).
        + intros n Hn. unfold coord_or_zero, size_after. destruct (str_mem n cw) eqn:Em; [|lia]. apply Hc, str_mem_In, Em.
        + apply map_ext_in. intros n Hn. destruct (is_std n); [|reflexivity]. unfold coord_or_zero. rewrite (proj2 (str_mem_In n cw) Hn). reflexivity. }
    destruct HG as (c' & E & H). apply (goodT_ext c' c); [|exact H]. intros n Hn. symmetry. apply (map_eq_in c c' cw E n Hn).
  Qed.
End Transform.

Theorem transform_spec : forall A B (f : nd (mcell A) -> res (nd (mcell B))) names (arr : nd (mcell A)) (sz : string -> Z) fill,
  NoDup names -> nd_shape arr = map sz names ->
  (forall n, In n names -> ~ In n STANDARD -> 1 <= sz n) ->
  (forall block, exists r, f block = Ok r /\ nd_shape r = nd_shape block) ->
  exists out, transform f names arr fill = Ok out /\ nd_shape out = nd_shape arr /\
    forall c, InSizes names sz c ->
      exists block r, StandardBlock names sz arr c block /\ f block = Ok r /\
        nd_at out (map c names) = nd_at r (map (coord_or_zero names c) STANDARD).
Proof.
  intros A B f names arr sz fill H1 H2 H3 H4. apply (transform_in_section f names arr sz H1 H2); [|exact H4].
  intros n Hn. apply in_extras in Hn. apply H3; tauto.
Qed.

(** ** The engine *)
Section EngineProofs.
  Context {Def Field Group Fn Var : Type}.
  Context (field_name : Field -> string) (get_grouping : Field -> res Group).
  Context (construct : Def -> Field -> option Group -> res Fn) (eval_function : Def -> Field -> Fn).
  Context (run : Fn -> list (string * Var) -> res (list (string * Var))).

  Lemma run_fold mk (own : Def -> Fn -> Prop) vc marks' : forall l vc0 m0, (forall f fn, In f l -> mk f = Ok fn <-> own f fn) ->
    fold_res (fun st f => let '(vc, marks) := st in do fn <- mk f; do vc' <- run fn vc; Ok (vc', marks + 1)) l (vc0, m0) = Ok (vc, marks') <->
    (exists fns, Forall2 own l fns /\ RunAll run fns vc0 vc) /\ marks' = m0 + zlen l.
  Proof.
    induction l as [|f l IH]; intros vc0 m0 Hown; cbn [fold_res].
    - split.
      + intros E. injection E as -> ->. split; [exists []; split; constructor|unfold zlen; cbn; lia].
      + intros [(fns & HF & HR) ->]. inversion HF; subst. inversion HR; subst. do 2 f_equal. unfold zlen; cbn; lia.
    - assert (Hown' : forall g fn, In g l -> mk g = Ok fn <-> own g fn) by (intros; apply Hown; right; assumption).
      rewrite zlen_cons. split.
      + intros E. destruct (mk f) as [fn|] eqn:E1; [|discriminate]. cbn [bind] in E. destruct (run fn vc0) as [vc1|] eqn:E2; [|discriminate]. cbn [bind] in E.
        apply IH in E; [|exact Hown']. destruct E as [(fns & HF & HR) ->]. split; [|lia]. exists (fn :: fns). split; [constructor; [apply Hown; [left; reflexivity|exact E1]|exact HF]|].
        econstructor; eassumption.
      + intros [(fns & HF & HR) ->]. inversion HF as [|? fn ? fns' Ho HF']; subst. inversion HR as [|? ? ? vc1 ? Er HR']; subst.
        apply Hown in Ho; [|left; reflexivity]. rewrite Ho. cbn [bind]. rewrite Er. cbn [bind]. apply IH; [exact Hown'|]. split; [eauto|lia].
  Qed.

  Lemma own_of_make d ds field tgd : (forall d', In d' ds -> construct d' field tgd <> Err KeyError) -> forall f fn, In f (d :: ds) ->
    make_function construct eval_function (d :: ds) f field tgd = Ok fn <-> Own construct eval_function field tgd f fn.
  Proof.
    intros Hkey f fn Hf. unfold make_function, Own. destruct (construct f field tgd) as [g|e] eqn:E.
    - split; [intros H; left; exact H|intros [H|[H _]]; [exact H|discriminate]].
    - assert (Hk : e = KeyError -> f = d).
      { intros ->. destruct Hf as [<-|Hf]; [reflexivity|]. exfalso. apply (Hkey f Hf). exact E. }
      destruct e; split; intros H; try discriminate; try (destruct H as [H|[H1 H2]]; discriminate).
      + rewrite (Hk eq_refl). right. split; [reflexivity|congruence].
      + destruct H as [H|[_ ->]]; [discriminate|]. rewrite (Hk eq_refl). reflexivity.
  Qed.

  Theorem calculate_field_spec : forall d ds field tgd marks vc marks',
    (forall d', In d' ds -> construct d' field tgd <> Err KeyError) ->
    calculate_field construct eval_function run (d :: ds) field tgd marks = Ok (vc, marks') <->
    (exists fns, Forall2 (Own construct eval_function field tgd) (d :: ds) fns /\ RunAll run fns [] vc) /\ marks' = marks + zlen (d :: ds).
  Proof.
    intros d ds field tgd marks vc marks' Hkey. unfold calculate_field.
    apply (run_fold (fun f => make_function construct eval_function (d :: ds) f field tgd)). intros f fn Hf. apply own_of_make; assumption.
  Qed.

  (** Groups. *)
  Lemma collect_groups_spec : forall fields tgds tgds',
    collect_groups field_name get_grouping fields tgds = Ok tgds' ->
    (forall n g, dget String.eqb tgds n = Some g -> dget String.eqb tgds' n = Some g) /\
    (forall n g, dget String.eqb tgds' n = Some g -> dget String.eqb tgds n = Some g \/ exists f, In f fields /\ field_name f = n /\ get_grouping f = Ok g) /\
    (forall f, In f fields -> exists g, dget String.eqb tgds' (field_name f) = Some g).
  Proof.
    induction fields as [|f fields IH]; intros tgds tgds' E; unfold collect_groups in E; cbn [fold_res] in E.
    - injection E as ->. split; [auto|]. split; [auto|]. intros f [].
    - destruct (dmem String.eqb tgds (field_name f)) eqn:Em.
      + cbn [bind] in E. destruct (IH _ _ E) as (H1 & H2 & H3). split; [exact H1|]. split.
        * intros n g Hg. destruct (H2 n g Hg) as [H|(f' & Hf & H)]; [left; exact H|right]. exists f'. split; [right; exact Hf|exact H].
        * intros f' [<-|Hf']; [|apply H3; exact Hf']. unfold dmem in Em. destruct (dget String.eqb tgds (field_name f)) as [g|] eqn:Eg; [|discriminate]. exists g. apply H1. exact Eg.
      + destruct (get_grouping f) as [g|] eqn:Eg; [|discriminate]. cbn [bind] in E. destruct (IH _ _ E) as (H1 & H2 & H3).
        assert (Hn : dget String.eqb tgds (field_name f) = None) by (unfold dmem in Em; destruct (dget String.eqb tgds (field_name f)); [discriminate|reflexivity]).
        split; [|split].
        * intros n g' Hg. apply H1. rewrite dget_dset_other; [exact Hg|exact string_eqb_spec|]. intros ->. congruence.
        * intros n g' Hg. destruct (H2 n g' Hg) as [H|(f' & Hf & H)].
          -- destruct (String.eqb_spec n (field_name f)) as [->|Hne].
             ++ rewrite dget_dset_same in H by exact string_eqb_spec. injection H as <-. right. exists f. split; [left; reflexivity|auto].
             ++ rewrite dget_dset_other in H by (exact string_eqb_spec || exact Hne). left. exact H.
          -- right. exists f'. split; [right; exact Hf|exact H].
        * intros f' [<-|Hf']; [|apply H3; exact Hf']. exists g. apply H1. rewrite dget_dset_same by exact string_eqb_spec. reflexivity.
  Qed.

  Lemma fields_fold (tgds' : list (string * Group)) funcs fields : forall out0 m0 outs marks',
    fold_res (fun st field => let '(out, marks) := st in
               do r <- calculate_field construct eval_function run funcs field (dget String.eqb tgds' (field_name field)) marks;
               Ok (app out [fst r], snd r)) fields (out0, m0) = Ok (outs, marks') ->
    exists new, outs = (out0 ++ new)%list /\
      Forall2 (fun field vc => exists m m', calculate_field construct eval_function run funcs field (dget String.eqb tgds' (field_name field)) m = Ok (vc, m')) fields new /\
      ((forall field m vc m', In field fields -> calculate_field construct eval_function run funcs field (dget String.eqb tgds' (field_name field)) m = Ok (vc, m') -> m' = m + zlen funcs) ->
       marks' = m0 + zlen fields * zlen funcs).
  Proof.
    induction fields as [|field fields IH]; intros out0 m0 outs marks' E; cbn [fold_res] in E.
    - injection E as -> ->. exists []. split; [rewrite app_nil_r; reflexivity|]. split; [constructor|]. intros _. unfold zlen at 1. cbn. lia.
    - destruct (calculate_field _ _ _ funcs field _ m0) as [[vc m1]|] eqn:Ec; [|discriminate]. cbn [bind fst snd] in E.
      destruct (IH _ _ _ _ E) as (new & -> & HF & Hm). exists (vc :: new). split; [rewrite <- app_assoc; reflexivity|]. split.
      + constructor; [eauto|exact HF].
      + intros H. rewrite Hm by (intros; eapply H; [right; eassumption|eassumption]). rewrite (H field m0 vc m1 (or_introl eq_refl) Ec). rewrite zlen_cons. lia.
  Qed.

  Theorem execute_spec : forall grouped d ds fields tgds marks outs tgds' marks',
    (forall d' field tgd, In d' ds -> construct d' field tgd <> Err KeyError) ->
    execute field_name get_grouping construct eval_function run grouped (d :: ds) fields tgds marks = Ok (outs, tgds', marks') ->
    Forall2 (fun field vc => exists fns,
      Forall2 (Own construct eval_function field (dget String.eqb tgds' (field_name field))) (d :: ds) fns /\ RunAll run fns [] vc) fields outs /\
    marks' = marks + zlen fields * zlen (d :: ds).
  Proof.
    intros grouped d ds fields tgds marks outs tgds' marks' Hkey E. unfold execute in E.
    destruct (if grouped then _ else _) as [t|]; [|discriminate]. cbn [bind] in E.
    destruct (fold_res _ fields ([], marks)) as [[o m]|] eqn:Ef; [|discriminate]. cbn [bind fst snd] in E. injection E as -> -> ->.
    destruct (fields_fold tgds' (d :: ds) fields [] marks outs marks' Ef) as (new & -> & HF & Hm). cbn [app]. split.
    - eapply Forall2_imp; [|exact HF]. cbn beta. intros field vc (m0 & m1 & H). apply calculate_field_spec in H; [apply H|]. intros d' Hd'. apply Hkey. exact Hd'.
    - apply Hm. intros field m0 vc m1 _ H. apply calculate_field_spec in H; [apply H|]. intros d' Hd'. apply Hkey. exact Hd'.
  Qed.

  (** Fields of the same name have the same grouping: then every field is
      calculated with its own. *)
  Theorem execute_groups_spec : forall funcs fields marks outs tgds' marks',
    (forall f f', In f fields -> In f' fields -> field_name f = field_name f' -> get_grouping f = get_grouping f') ->
    execute field_name get_grouping construct eval_function run true funcs fields [] marks = Ok (outs, tgds', marks') ->
    forall field, In field fields -> exists g, dget String.eqb tgds' (field_name field) = Some g /\ get_grouping field = Ok g.
  Proof.
    intros funcs fields marks outs tgds' marks' Hsame E field Hin. unfold execute in E.
    destruct (collect_groups _ _ fields []) as [t|] eqn:Ec; [|discriminate]. cbn [bind] in E.
    destruct (fold_res _ fields ([], marks)) as [[o m]|] eqn:Ef; [|discriminate]. cbn [bind fst snd] in E. injection E as -> -> ->.
    destruct (collect_groups_spec _ _ _ Ec) as (_ & H2 & H3). destruct (H3 field Hin) as (g & Hg). exists g. split; [exact Hg|].
    destruct (H2 _ _ Hg) as [H|(f & Hf & Hn & H)]; [discriminate|]. rewrite (Hsame field f Hin Hf (eq_sym Hn)). exact H.
  Qed.
End EngineProofs.


(** ** Tiles *)
Lemma adjacent_map_zrange (g : Z -> Z) : forall k lo, adjacent pair (map g (zrange lo (lo + Z.of_nat k + 1))) = map (fun i => (g i, g (i + 1))) (zrange lo (lo + Z.of_nat k)).
Proof.
  induction k as [|k IH]; intros lo.
  - rewrite (zrange_nil lo (lo + Z.of_nat 0)) by lia. rewrite zrange_cons by lia. rewrite zrange_nil by lia. reflexivity.
  - rewrite (zrange_cons lo (lo + Z.of_nat (S k) + 1)) by lia. rewrite (zrange_cons lo (lo + Z.of_nat (S k))) by lia.
    replace (lo + Z.of_nat (S k) + 1) with (lo + 1 + Z.of_nat k + 1) by lia. replace (lo + Z.of_nat (S k)) with (lo + 1 + Z.of_nat k) by lia.
    specialize (IH (lo + 1)). cbn [map]. rewrite <- IH. rewrite (zrange_cons (lo + 1) (lo + 1 + Z.of_nat k + 1)) by lia. reflexivity.
Qed.

Definition n_tiles (n tdim : Z) : Z := (n + tdim - 1) / tdim.
Lemma n_tiles_spec n tdim : 0 <= n -> 1 <= tdim -> 0 <= n_tiles n tdim /\ n <= n_tiles n tdim * tdim /\ (n_tiles n tdim - 1) * tdim < n.
Proof. intros Hn Ht. unfold n_tiles. nia. Qed.

Lemma tile_slices_spec n tdim : 0 <= n -> 1 <= tdim ->
  tile_slices n tdim 0 = Ok (map (fun k => (Z.min (k * tdim) n, Z.min ((k + 1) * tdim) n)) (zrange 0 (n_tiles n tdim))).
Proof.
  intros Hn Ht. destruct (n_tiles_spec n tdim Hn Ht) as (H0 & H1 & H2). unfold tile_slices. cbv zeta.
  set (m := n_tiles n tdim) in *.
  assert (Ha : np_arange 0 (n + tdim) tdim = map (fun k => k * tdim) (zrange 0 (m + 1))).
  { unfold np_arange. replace ((n + tdim - 0 + tdim - 1) / tdim) with (m + 1); [apply map_ext; intros; lia|]. unfold m, n_tiles.
    replace (n + tdim - 0 + tdim - 1) with (n + tdim - 1 + 1 * tdim) by lia. rewrite Z.div_add by lia. reflexivity. }
  rewrite Ha. set (l := map (fun k => k * tdim) (zrange 0 (m + 1))).
  assert (Hlen : zlen l = m + 1) by (unfold l; rewrite zlen_map, zrange_zlen; lia).
  assert (Hlenn : List.length l = Z.to_nat (m + 1)) by (unfold zlen in Hlen; lia).
  assert (Hnth : forall k, (k < Z.to_nat (m + 1))%nat -> nth_error l k = Some (Z.of_nat k * tdim)).
  { intros k Hk. unfold l. rewrite nth_error_map, nth_error_zrange by lia. reflexivity. }
  assert (Hlast : py_index l (-1) = Ok (m * tdim)).
  { unfold py_index. cbn [Z.ltb Z.compare]. rewrite Hlen. replace ((-1 + (m + 1) <? 0) || (m + 1 <=? -1 + (m + 1))) with false by lia.
    rewrite Hnth by lia. do 2 f_equal. lia. }
  rewrite Hlast. cbn [bind]. f_equal.
  assert (Hl' : (if n <? m * tdim then set_nth l (List.length l - 1) n else l) = map (fun k => Z.min (k * tdim) n) (zrange 0 (m + 1))).
  { apply NdProofs.nth_error_ext'. intros k. rewrite nth_error_map.
    destruct (Nat.ltb_spec k (Z.to_nat (m + 1))) as [Hk|Hk].
    - rewrite nth_error_zrange by lia. cbn [option_map].
      destruct (Z.ltb_spec n (m * tdim)) as [Hlt|Hge].
      + destruct (Nat.eq_dec k (List.length l - 1)) as [->|Hne].
        * rewrite nth_error_set_nth_same by lia. f_equal. assert (Z.of_nat (List.length l - 1) = m) by lia. nia.
        * rewrite nth_error_set_nth_other by exact Hne. rewrite Hnth by exact Hk. f_equal. assert (Z.of_nat k <= m - 1) by lia. nia.
      + rewrite Hnth by exact Hk. f_equal. assert (Z.of_nat k <= m) by lia. nia.
    - rewrite (proj2 (nth_error_None (zrange 0 (m + 1)) k)) by (rewrite zrange_length; lia). cbn [option_map].
      apply nth_error_None. destruct (n <? m * tdim); rewrite ?set_nth_length; lia. }
  rewrite Hl'. unfold get_slices. pose proof (adjacent_map_zrange (fun k => Z.min (k * tdim) n) (Z.to_nat m) 0) as Had.
  rewrite Z.add_0_l, Z2Nat.id in Had by exact H0. exact Had.
Qed.

Lemma nodup_product {A B} (rows : list A) (cols : list B) : NoDup rows -> NoDup cols -> NoDup (flat_map (fun r => map (pair r) cols) rows).
Proof.
  intros Hr Hc. induction Hr as [|r rows Hin _ IH]; [constructor|]. cbn [flat_map]. apply NoDup_app_intro; [|exact IH|].
  - apply FinFun.Injective_map_NoDup; [intros a b E; congruence|exact Hc].
  - intros [a b] H1 H2. apply in_map_iff in H1. destruct H1 as (x & E & _). injection E as <- <-.
    apply in_flat_map in H2. destruct H2 as (r' & Hr' & H2). apply in_map_iff in H2. destruct H2 as (y & E & _). injection E as -> _. contradiction.
Qed.

Definition axis_tiles (n tdim : Z) : list (Z * Z) := map (fun k => (Z.min (k * tdim) n, Z.min ((k + 1) * tdim) n)) (zrange 0 (n_tiles n tdim)).
Lemma axis_tile_in n tdim s : 0 <= n -> 1 <= tdim -> In s (axis_tiles n tdim) -> exists k, 0 <= k < n_tiles n tdim /\ s = (k * tdim, Z.min ((k + 1) * tdim) n) /\ k * tdim < n.
Proof.
  intros Hn Ht H. destruct (n_tiles_spec n tdim Hn Ht) as (H0 & H1 & H2). apply in_map_iff in H. destruct H as (k & <- & Hk). apply in_zrange in Hk. exists k. split; [exact Hk|].
  assert (k * tdim < n) by nia. split; [f_equal; lia|assumption].
Qed.
Lemma axis_tiles_nodup n tdim : 0 <= n -> 1 <= tdim -> NoDup (axis_tiles n tdim).
Proof.
  intros Hn Ht. destruct (n_tiles_spec n tdim Hn Ht) as (H0 & H1 & H2). unfold axis_tiles.
  assert (H : forall l : list Z, NoDup l -> (forall k, In k l -> 0 <= k < n_tiles n tdim) -> NoDup (map (fun k => (Z.min (k * tdim) n, Z.min ((k + 1) * tdim) n)) l)).
  { induction 1 as [|k l Hin _ IH]; intros Hb; cbn [map]; constructor.
    - intros Hc. apply in_map_iff in Hc. destruct Hc as (k' & E & Hk'). injection E as E _. assert (k' = k); [|congruence].
      assert (0 <= k < n_tiles n tdim) by (apply Hb; left; reflexivity). assert (0 <= k' < n_tiles n tdim) by (apply Hb; right; exact Hk').
      assert (k * tdim < n) by nia. assert (k' * tdim < n) by nia. nia.
    - apply IH. intros; apply Hb; right; assumption. }
  apply H; [apply nodup_zrange|]. intros k Hk. apply in_zrange in Hk. exact Hk.
Qed.
Lemma axis_tile_hit n tdim i : 0 <= n -> 1 <= tdim -> 0 <= i < n -> exists s, In s (axis_tiles n tdim) /\ InIval i s /\ forall s', In s' (axis_tiles n tdim) -> InIval i s' -> s' = s.
Proof.
  intros Hn Ht Hi. destruct (n_tiles_spec n tdim Hn Ht) as (H0 & H1 & H2). set (k := i / tdim).
  assert (Hk : k * tdim <= i < (k + 1) * tdim) by (unfold k; nia).
  exists (k * tdim, Z.min ((k + 1) * tdim) n). split; [|split].
  - apply in_map_iff. exists k. split; [f_equal; lia|]. apply in_zrange. split; [unfold k; nia|nia].
  - unfold InIval. cbn [fst snd]. lia.
  - intros s' Hs' Hi'. apply axis_tile_in in Hs'; try assumption. destruct Hs' as (k' & Hk' & -> & _). unfold InIval in Hi'. cbn [fst snd] in Hi'.
    assert (k' = k) by nia. subst k'. reflexivity.
Qed.

Theorem tile_schema_spec : forall nrow ncol tdim, 0 <= nrow -> 0 <= ncol -> 1 <= tdim ->
  exists tiles, get_tile_schema nrow ncol tdim 0 = Ok tiles /\ map fst tiles = zrange 0 (zlen tiles) /\
    (forall row col, 0 <= row < nrow -> 0 <= col < ncol -> ExactlyOne (InTile row col) tiles) /\
    (forall id r0 r1 c0 c1, In (id, ((r0, r1), (c0, c1))) tiles -> 0 <= r0 < r1 /\ r1 <= nrow /\ r1 - r0 <= tdim /\ 0 <= c0 < c1 /\ c1 <= ncol /\ c1 - c0 <= tdim).
Proof.
  intros nrow ncol tdim Hr Hc Ht. unfold get_tile_schema. rewrite !tile_slices_spec by assumption. cbn [bind]. fold (axis_tiles nrow tdim) (axis_tiles ncol tdim). cbv zeta.
  set (flat := flat_map (fun r => map (pair r) (axis_tiles ncol tdim)) (axis_tiles nrow tdim)).
  assert (Hfst : map fst (combine (zrange 0 (zlen flat)) flat) = zrange 0 (zlen flat)).
  { apply SeasonProofs.combine_fst. rewrite zrange_length. unfold zlen. lia. }
  rewrite (SeasonProofs.fold_dset_fresh (combine (zrange 0 (zlen flat)) flat) []); [|cbn [app]; rewrite Hfst; apply nodup_zrange].
  cbn [app]. eexists. split; [reflexivity|]. set (tiles := combine (zrange 0 (zlen flat)) flat) in *.
  assert (Hlen : List.length tiles = List.length flat) by (unfold tiles; rewrite combine_length, zrange_length; unfold zlen; lia).
  assert (Hnth : forall k t, nth_error tiles k = Some t <-> fst t = Z.of_nat k /\ nth_error flat k = Some (snd t)).
  { intros k [id rc]. cbn [fst snd]. split.
    - intros H. assert (Hk : (k < List.length flat)%nat) by (rewrite <- Hlen; apply nth_error_Some; congruence).
      destruct (nth_error flat k) as [rc'|] eqn:E; [|apply nth_error_None in E; lia].
      assert (H' : nth_error tiles k = Some (Z.of_nat k, rc')) by (apply SeasonProofs.nth_error_combine; [rewrite nth_error_zrange by (unfold zlen; lia); f_equal; lia|exact E]).
      rewrite H' in H. injection H as <- <-. auto.
    - intros [-> E]. assert (Hk : (k < List.length flat)%nat) by (apply nth_error_Some; congruence). apply SeasonProofs.nth_error_combine; [|exact E].
      rewrite nth_error_zrange by (unfold zlen; lia). f_equal; lia. }
  assert (Hfin : forall r c, In (r, c) flat <-> In r (axis_tiles nrow tdim) /\ In c (axis_tiles ncol tdim)).
  { intros r c. unfold flat. rewrite in_flat_map. split.
    - intros (r' & Hr' & H). apply in_map_iff in H. destruct H as (c' & E & Hc'). injection E as -> ->. auto.
    - intros [H1 H2]. exists r. split; [exact H1|]. apply in_map. exact H2. }
  split; [|split].
  - rewrite Hfst. f_equal. unfold zlen. f_equal. exact (eq_sym Hlen).
  - intros row col Hrow Hcol. destruct (axis_tile_hit nrow tdim row Hr Ht Hrow) as (r & R1 & R2 & R3). destruct (axis_tile_hit ncol tdim col Hc Ht Hcol) as (c & C1 & C2 & C3).
    assert (Hin : In (r, c) flat) by (apply Hfin; auto). apply In_nth_error in Hin. destruct Hin as (k & Hk).
    exists k, (Z.of_nat k, (r, c)). split; [apply Hnth; auto|]. split; [split; [exact R2|exact C2]|].
    intros k' [id [r' c']] Hk' [HR HC]. cbn [fst snd] in HR, HC. apply Hnth in Hk'. destruct Hk' as [_ Hk']. cbn [snd] in Hk'.
    assert (Hin' : In (r', c') flat) by (eapply nth_error_In; exact Hk'). apply Hfin in Hin'. destruct Hin' as [I1 I2].
    rewrite (R3 r' I1 HR), (C3 c' I2 HC) in Hk'. eapply nodup_nth_inj; [|exact Hk'|exact Hk]. unfold flat. apply nodup_product; apply axis_tiles_nodup; assumption.
  - intros id r0 r1 c0 c1 Hin. apply In_nth_error in Hin. destruct Hin as (k & Hk). apply Hnth in Hk. destruct Hk as [_ Hk]. cbn [snd] in Hk. apply nth_error_In in Hk.
    apply Hfin in Hk. destruct Hk as [I1 I2]. apply axis_tile_in in I1; try assumption. apply axis_tile_in in I2; try assumption.
    destruct I1 as (a & Ha & E1 & La). destruct I2 as (b & Hb & E2 & Lb). injection E1 as -> ->. injection E2 as -> ->. nia.
Qed.
