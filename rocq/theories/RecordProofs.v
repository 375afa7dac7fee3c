(** Proofs about record iteration. *)
From Verif Require Import Py Lib Spec PartitionModel NdModel NdSpec NdProofs MaskProofs RecordModel RecordSpec DmapProofs CollProofs.
From Coq Require Import Sorted.

(** * Row-major order *)

Lemma zrange_sorted lo hi : StronglySorted Z.lt (zrange lo hi).
Proof.
  unfold zrange. generalize (Z.to_nat (hi - lo)). intros n. generalize O as k. induction n as [|n IH]; intros k; cbn [seq map]; [constructor|].
  constructor; [apply IH|]. apply Forall_forall. intros x Hx. apply in_map_iff in Hx. destruct Hx as [j [<- Hj]]. apply in_seq in Hj. lia.
Qed.

Lemma ss_app {X} (R : X -> X -> Prop) a b : StronglySorted R a -> StronglySorted R b ->
  (forall x y, In x a -> In y b -> R x y) -> StronglySorted R (a ++ b).
Proof.
  induction a as [|x t IH]; intros Ha Hb H; [exact Hb|]. inversion Ha as [|? ? Ht Hx]; subst. cbn [app]. constructor.
  - apply IH; auto. intros u v Hu Hv. apply H; [right|]; assumption.
  - apply Forall_app; split; [exact Hx|]. apply Forall_forall. intros y Hy. apply H; [left; reflexivity|exact Hy].
Qed.

Lemma indices_sorted shape : StronglySorted before (indices shape).
Proof.
  unfold indices. induction shape as [|n t IH]; cbn [map list_product]; [constructor; constructor|].
  generalize (zrange_sorted 0 n). generalize (zrange 0 n) as l. induction l as [|x l IHl]; intros Hs; cbn [flat_map]; [constructor|].
  inversion Hs as [|? ? Ht Hx]; subst. apply ss_app.
  - clear - IH. induction (list_product (map (zrange 0) t)) as [|u us IHu]; cbn [map]; [constructor|]. inversion IH as [|? ? H1 H2]; subst.
    constructor; [apply IHu; exact H1|]. apply Forall_forall. intros y Hy. apply in_map_iff in Hy. destruct Hy as [v [<- Hv]]. cbn [before].
    right. split; [reflexivity|]. rewrite Forall_forall in H2. apply H2. exact Hv.
  - apply IHl. exact Ht.
  - intros a b Ha Hb. apply in_map_iff in Ha. destruct Ha as [u [<- Hu]]. apply in_flat_map in Hb. destruct Hb as [y [Hy Hb]].
    apply in_map_iff in Hb. destruct Hb as [v [<- Hv]]. cbn [before]. left. rewrite Forall_forall in Hx. apply Hx. exact Hy.
Qed.

(** * Elements at the same coordinates *)

Lemma inside_index shape idx : IndexOf shape idx -> inside shape idx = true.
Proof. intros H. induction H as [|n i s t H1 H2 IH]; [reflexivity|]. cbn [inside]. rewrite IH. lia. Qed.

Lemma at_unique {A} (lead w : iter A) idx a b : Fresh w -> incl (i_dims w) (i_dims lead) ->
  At lead w idx a -> At lead w idx b -> a = b.
Proof.
  intros [_ [Hn [Hl [Hv _]]]] Hi [Ia Ha] [Ib Hb]. rewrite Hv in *.
  apply index_length in Ia. apply index_length in Ib. apply nth_error_ext'. intros k.
  destruct (nth_error (i_dims w) k) as [n|] eqn:E.
  - assert (Hin : In n (i_dims lead)) by (apply Hi; eapply nth_error_In; exact E).
    apply In_nth_error in Hin. destruct Hin as [q Hq]. rewrite (Ha n k q E Hq), (Hb n k q E Hq). reflexivity.
  - apply nth_error_None in E. rewrite (proj2 (nth_error_None a k)), (proj2 (nth_error_None b k)) by lia. reflexivity.
Qed.

Definition outcome {A} (w : iter A) (idxw : list Z) : option (list (entry A)) :=
  if negb (i_allow w) && hidden w idxw && String.eqb (i_primary w) (i_name w) then None else Some (cells w idxw).

(** What an iterator gives once its index is mapped to the element [idxw]. *)
Lemma one_outcome {A} (w : iter A) idx idxw :
  match i_remap w with None => Ok idx | Some l => map_res (tuple_get idx) l end = Ok idxw ->
  nd_shape (i_value w) = i_shape w \/ True ->
  inside (nd_shape (i_value w)) idxw = true ->
  match i_mask w with None => True | Some m => inside (nd_shape m) idxw = true end ->
  one w idx = Ok (outcome w idxw).
Proof.
  intros E _ Hv Hm. unfold one. rewrite E. cbn [bind]. unfold outcome, cells, hidden, np_get. rewrite Hv.
  destruct (i_mask w) as [m|]; [rewrite Hm|]; cbn [bind]; cbv zeta.
  - destruct (negb (i_allow w) && nd_at m idxw && String.eqb (i_primary w) (i_name w)); [reflexivity|].
    destruct (i_rep w); reflexivity.
  - rewrite andb_false_r. cbn [andb]. destruct (i_rep w); reflexivity.
Qed.

Lemma remap_ok dims_lead dims idx remap : Forall2 (fun d k => str_index dims_lead d = Ok k) dims remap ->
  List.length idx = List.length dims_lead ->
  exists idxw, map_res (tuple_get idx) remap = Ok idxw /\ Forall2 (fun k x => nth_error idx k = Some x) remap idxw.
Proof.
  intros H Hl. induction H as [|d k ds ks E H IH]; [exists []; split; [reflexivity|constructor]|].
  destruct IH as [iw [E1 E2]]. cbn [map_res]. unfold tuple_get at 1. apply str_index_sound in E.
  destruct (nth_error idx k) as [x|] eqn:Ex.
  - exists (x :: iw). cbn [bind]. rewrite E1. cbn [bind]. split; [reflexivity|]. constructor; assumption.
  - apply nth_error_None in Ex. assert (nth_error dims_lead k <> None) by congruence. apply nth_error_Some in H0. lia.
Qed.

Lemma index_nth shape idx : List.length idx = List.length shape ->
  (forall k n i, nth_error shape k = Some n -> nth_error idx k = Some i -> 0 <= i < n) -> IndexOf shape idx.
Proof.
  revert idx. induction shape as [|n s IH]; intros [|i t] Hl H; cbn [List.length] in Hl; try discriminate; [constructor|].
  constructor; [apply (H O); reflexivity|]. apply IH; [lia|]. intros k n' i' E1 E2. apply (H (S k) n' i'); assumption.
Qed.

Lemma index_nth_inv shape idx k n i : IndexOf shape idx -> nth_error shape k = Some n -> nth_error idx k = Some i -> 0 <= i < n.
Proof.
  intros H. revert k. induction H as [|x y s t H1 H2 IH]; intros [|k] E1 E2; cbn [nth_error] in *; try discriminate.
  - injection E1 as <-. injection E2 as <-. exact H1.
  - apply (IH k); assumption.
Qed.

Lemma Forall2_nth_l {X Y} (P : X -> Y -> Prop) a b k x : Forall2 P a b -> nth_error a k = Some x -> exists y, nth_error b k = Some y /\ P x y.
Proof.
  intros H. revert k. induction H as [|u v s t H1 H2 IH]; intros [|k] E; cbn [nth_error] in *; try discriminate.
  - injection E as <-. eauto.
  - apply IH. exact E.
Qed.

(** Linking a follower succeeds and the linked iterator walks the lead's shape,
    giving the follower's element at the same coordinates. *)
Lemma link_ok {A} (lead f : iter A) : NoDup (i_dims lead) -> List.length (i_dims lead) = List.length (i_shape lead) -> Follows lead f ->
  exists f', link lead f = Ok f' /\ i_shape f' = i_shape lead /\
    forall idx, IndexOf (i_shape lead) idx -> exists idxw, At lead f idx idxw /\ one f' idx = Ok (outcome f idxw).
Proof.
  intros Hnl Hll [Hf [Hi [Hsz _]]]. destruct Hf as [Hr [Hn [Hl [Hv Hm]]]]. unfold link.
  assert (Hsub : forallb (fun d => str_mem d (i_dims lead)) (i_dims f) = true).
  { apply forallb_forall. intros d Hd. unfold str_mem. apply existsb_exists. exists d. split; [apply Hi; exact Hd|apply String.eqb_refl]. }
  rewrite Hsub. destruct (strs_eqb (i_dims f) (i_dims lead)) eqn:E.
  - apply strs_eqb_eq in E. exists f. split; [reflexivity|].
    assert (Hs : i_shape f = i_shape lead).
    { rewrite E in *. apply (agree_same_names (i_dims lead)); [exact Hnl|symmetry; exact Hl|symmetry; exact Hll|exact Hsz]. }
    split; [exact Hs|]. intros idx H. exists idx. split.
    + split; [rewrite Hv, Hs; exact H|]. rewrite E. intros n p q Ep Eq. rewrite (nodup_nth_inj _ _ _ _ Hnl Ep Eq). reflexivity.
    + apply one_outcome; [rewrite Hr; reflexivity|now right|rewrite Hv, Hs; now apply inside_index|].
      destruct (i_mask f); [rewrite Hm, Hs; now apply inside_index|exact I].
  - destruct (map_res_exists (str_index (i_dims lead)) (i_dims f)) as [remap Er].
    { intros d Hd. destruct (str_index_ok (i_dims lead) d (Hi d Hd)) as [k [Ek _]]. exists k. exact Ek. }
    rewrite Er. cbn [bind]. eexists. split; [reflexivity|]. split; [reflexivity|]. intros idx H.
    pose proof (map_res_ok _ _ _ Er) as F1.
    assert (Hlen : List.length idx = List.length (i_dims lead)) by (rewrite (index_length _ _ H); symmetry; exact Hll).
    destruct (remap_ok _ _ idx _ F1 Hlen) as [iw [E1 F2]].
    assert (Hliw : List.length iw = List.length (i_dims f)) by (rewrite <- (Forall2_len _ _ _ F2), <- (Forall2_len _ _ _ F1); reflexivity).
    assert (Hag : Agree (i_dims f) (i_dims lead) iw idx).
    { intros n p q Ep Eq. destruct (Forall2_nth_l _ _ _ _ _ F1 Ep) as [k [Ek Ek']]. apply str_index_sound in Ek'.
      rewrite (nodup_nth_inj _ _ _ _ Hnl Eq Ek'). destruct (Forall2_nth_l _ _ _ _ _ F2 Ek) as [x [Ex Ex']]. rewrite Ex, Ex'. reflexivity. }
    assert (Hidx : IndexOf (i_shape f) iw).
    { apply index_nth; [rewrite Hliw; exact Hl|]. intros k n i Ek Ei.
      destruct (nth_error (i_dims f) k) as [d|] eqn:Ed.
      - assert (Hin : In d (i_dims lead)) by (apply Hi; eapply nth_error_In; exact Ed). apply In_nth_error in Hin. destruct Hin as [q Hq].
        pose proof (Hsz d k q Ed Hq) as S1. pose proof (Hag d k q Ed Hq) as S2. rewrite Ek in S1. rewrite Ei in S2.
        apply (index_nth_inv _ _ q n i H); symmetry; assumption.
      - apply nth_error_None in Ed. assert (nth_error iw k <> None) by congruence. apply nth_error_Some in H0. lia. }
    exists iw. split; [split; [rewrite Hv; exact Hidx|exact Hag]|].
    match goal with |- one ?w _ = _ => change (outcome f iw) with (outcome w iw) end.
    apply one_outcome; cbn [i_remap i_value i_mask].
    + exact E1.
    + now right.
    + rewrite Hv. now apply inside_index.
    + destruct (i_mask f); [rewrite Hm; now apply inside_index|exact I].
Qed.

Lemma lead_one {A} (lead : iter A) idx : Fresh lead -> IndexOf (i_shape lead) idx -> At lead lead idx idx /\ one lead idx = Ok (outcome lead idx).
Proof.
  intros [Hr [Hn [Hl [Hv Hm]]]] H. split.
  - split; [rewrite Hv; exact H|]. intros n p q Ep Eq. rewrite (nodup_nth_inj _ _ _ _ Hn Ep Eq). reflexivity.
  - apply one_outcome; [rewrite Hr; reflexivity|now right|rewrite Hv; now apply inside_index|].
    destruct (i_mask lead); [rewrite Hm; now apply inside_index|exact I].
Qed.

(** * Zipping the streams *)

Definition Gives {A} (lead w : iter A) (idx : list Z) (o : option (list (entry A))) : Prop :=
  exists idxw, At lead w idx idxw /\ o = outcome w idxw.

Lemma map_res_Forall2 {X Y} (f : X -> res Y) (P : X -> Y -> Prop) l :
  (forall x, In x l -> exists y, f x = Ok y /\ P x y) -> exists ys, map_res f l = Ok ys /\ Forall2 P l ys.
Proof.
  induction l as [|x t IH]; intros H; [exists []; split; [reflexivity|constructor]|].
  destruct (H x (or_introl eq_refl)) as [y [E Hy]]. destruct IH as [ys [E2 F]]; [intros z Hz; apply H; right; exact Hz|].
  exists (y :: ys). cbn [map_res]. rewrite E. cbn [bind]. rewrite E2. cbn [bind]. split; [reflexivity|]. constructor; assumption.
Qed.

Lemma uncons_spec {X Y Z} (P : X -> Y -> Z -> Prop) y ys (fs : list X) (rest : list (list Z)) :
  Forall2 (fun f l => Forall2 (P f) (y :: ys) l) fs rest ->
  exists hs ts, uncons_all rest = Some (hs, ts) /\ Forall2 (fun f h => P f y h) fs hs /\ Forall2 (fun f l => Forall2 (P f) ys l) fs ts.
Proof.
  intros H. induction H as [|f l fs rest H1 H2 IH]; [exists [], []; repeat split; constructor|].
  destruct IH as [hs [ts [E [F1 F2]]]]. inversion H1 as [|? z ? t Hz Ht]; subst. cbn [uncons_all]. rewrite E.
  exists (z :: hs), (t :: ts). repeat split; constructor; assumption.
Qed.

Lemma zip_spec {X Y Z} (P : X -> Y -> Z -> Prop) w (fs : list X) ys : forall first rest,
  Forall2 (P w) ys first -> Forall2 (fun f l => Forall2 (P f) ys l) fs rest ->
  Forall2 (fun y tup => Forall2 (fun f o => P f y o) (w :: fs) tup) ys (zip_all first rest).
Proof.
  induction ys as [|y ys IH]; intros first rest F1 F2; inversion F1 as [|? z ? t Hz Ht]; subst; [constructor|].
  destruct (uncons_spec P y ys fs rest F2) as [hs [ts [E [G1 G2]]]]. cbn [zip_all]. rewrite E. constructor.
  - constructor; assumption.
  - apply IH; assumption.
Qed.

(** * One tuple of the streams *)

Lemma tuple_case {A} (lead : iter A) ws idx tup :
  Forall (fun w => i_allow w = i_allow lead /\ i_primary w = i_primary lead /\ Fresh w /\ incl (i_dims w) (i_dims lead)) ws ->
  Forall2 (fun w o => Gives lead w idx o) ws tup ->
  (LeftOut ws lead idx /\ i_allow lead = false /\ existsb (fun r => match r with None => true | Some _ => false end) tup = true) \/
  (~ LeftOut ws lead idx /\ existsb (fun r => match r with None => true | Some _ => false end) tup = false /\
   exists ess, map_res (fun r => match r with Some l => Ok l | None => Err TypeError end) tup = Ok ess /\ Row ws lead idx (List.concat ess)).
Proof.
  intros Hw F. induction F as [|w o ws tup [iw [Ha Eo]] F IH].
  - right. split; [intros [_ [w [iw [[] _]]]]|]. split; [reflexivity|]. exists []. split; [reflexivity|]. exists []. split; [reflexivity|constructor].
  - apply Forall_inv in Hw as Hw1. apply Forall_inv_tail in Hw. destruct Hw1 as [H1 [H2 [H3 H4]]]. specialize (IH Hw). cbn [existsb].
    destruct IH as [[[L1 [w0 [i0 [L2 L3]]]] [L4 L5]]|[L1 [L2 [ess [L3 L4]]]]].
    + left. split; [split; [exact L1|]; exists w0, i0; split; [right; exact L2|exact L3]|]. split; [exact L4|]. rewrite L5. apply orb_true_r.
    + destruct (negb (i_allow w) && hidden w iw && String.eqb (i_primary w) (i_name w)) eqn:E; unfold outcome in Eo; rewrite E in Eo; subst o.
      * left. apply andb_true_iff in E. destruct E as [E E3]. apply andb_true_iff in E. destruct E as [E1 E2]. apply negb_true_iff in E1. apply String.eqb_eq in E3.
        split; [split; [congruence|]; exists w, iw; repeat split; try assumption; [left; reflexivity|congruence|apply Ha|apply Ha]|]. split; [congruence|reflexivity].
      * right. split; [|split].
        -- intros [K1 [w0 [i0 [[<-|K2] [K3 [K4 K5]]]]]].
           ++ rewrite (at_unique lead w idx i0 iw H3 H4 K4 Ha) in K5. rewrite K5, H1, K1, K3, H2, String.eqb_refl in E. discriminate.
           ++ apply L1. split; [exact K1|]. exists w0, i0. auto.
        -- exact L2.
        -- exists (cells w iw :: ess). cbn [map_res bind]. rewrite L3. cbn [bind]. split; [reflexivity|].
           destruct L4 as [ess' [Ec F']]. exists (cells w iw :: ess'). cbn [List.concat]. rewrite Ec. split; [reflexivity|].
           constructor; [exists iw; split; [exact Ha|reflexivity]|exact F'].
Qed.

(** All tuples: what is left out contributes nothing. *)
Lemma pick_rows {X Y} (skip : X -> Prop) (Q : X -> list Y -> Prop) (R : X -> X -> Prop) xs outs :
  StronglySorted R xs ->
  Forall2 (fun x out => (skip x /\ out = []) \/ (~ skip x /\ Q x out)) xs outs ->
  exists xs' outs', List.concat outs = List.concat outs' /\ StronglySorted R xs' /\
    (forall x, In x xs' <-> In x xs /\ ~ skip x) /\ Forall2 Q xs' outs'.
Proof.
  intros Hs F. induction F as [|x out xs outs H F IH].
  - exists [], []. split; [reflexivity|]. split; [constructor|]. split; [|constructor]. intros x. cbn [In]. tauto.
  - inversion Hs as [|? ? Ht Hx]; subst. destruct (IH Ht) as [xs' [outs' [E [S1 [M F']]]]]. destruct H as [[H1 H2]|[H1 H2]].
    + subst out. exists xs', outs'. split; [cbn [List.concat app]; exact E|]. split; [exact S1|]. split; [|exact F'].
      intros y. rewrite M. cbn [In]. split; [tauto|]. intros [[<-|K1] K2]; tauto.
    + exists (x :: xs'), (out :: outs'). split; [cbn [List.concat]; now rewrite E|]. split; [|split].
      * constructor; [exact S1|]. apply Forall_forall. intros y Hy. rewrite Forall_forall in Hx. apply Hx. apply M in Hy. tauto.
      * intros y. cbn [In]. rewrite M. split; [intros [<-|K]; tauto|tauto].
      * constructor; assumption.
Qed.

(** * Records as ordered dictionaries *)

Lemma put_get {A} (d : list (entry A)) e k :
  dget String.eqb (put d e) k = if String.eqb k (fst e) then Some (snd e) else dget String.eqb d k.
Proof.
  unfold put. destruct (String.eqb_spec k (fst e)) as [->|N]; [apply dget_same|]. apply dget_other. exact N.
Qed.

Lemma put_nodup {A} (d : list (entry A)) e : NoDup (map fst d) -> NoDup (map fst (put d e)).
Proof. apply (dset_nodup _ String.eqb_spec). Qed.

Lemma puts_nodup {A} (l d : list (entry A)) : NoDup (map fst d) -> NoDup (map fst (fold_left put l d)).
Proof. revert d. induction l as [|e t IH]; intros d H; [exact H|]. cbn [fold_left]. apply IH. apply put_nodup. exact H. Qed.

Lemma last_or {A} (l : list (entry A)) k : (exists x, LastOf l k x) \/ ~ In k (map fst l).
Proof.
  induction l as [|[k' x'] t IH]; [right; intros []|]. destruct IH as [[x [a [b [E N]]]]|N].
  - left. exists x, ((k', x') :: a), b. rewrite E. split; [reflexivity|exact N].
  - destruct (string_dec k' k) as [->|K]; [left; exists x', [], t; split; [reflexivity|exact N]|]. right. cbn [map fst In]. tauto.
Qed.

Lemma last_in {A} (l : list (entry A)) k x : LastOf l k x -> In k (map fst l).
Proof. intros [a [b [-> _]]]. rewrite map_app, in_app_iff. right; left; reflexivity. Qed.

Lemma puts_get {A} (l : list (entry A)) : forall d k,
  (forall x, LastOf l k x -> dget String.eqb (fold_left put l d) k = Some x) /\
  (~ In k (map fst l) -> dget String.eqb (fold_left put l d) k = dget String.eqb d k).
Proof.
  induction l as [|e t IH]; intros d k; cbn [fold_left]; split.
  - intros x [a [b [E _]]]. destruct a; discriminate.
  - reflexivity.
  - intros x H. destruct H as [a [b [E N]]]. destruct a as [|a0 a]; cbn [app] in E; injection E as -> ->.
    + rewrite (proj2 (IH _ k) N), put_get. cbn [fst snd]. rewrite String.eqb_refl. reflexivity.
    + apply (proj1 (IH _ k)). exists a, b. split; [reflexivity|exact N].
  - intros N. cbn [map fst In] in N. rewrite (proj2 (IH _ k)) by tauto. rewrite put_get.
    destruct (String.eqb_spec k (fst e)) as [->|K]; [tauto|reflexivity].
Qed.

Lemma puts_new {A} (l : list (entry A)) : forall d, NoDup (map fst (d ++ l)%list) -> fold_left put l d = (d ++ l)%list.
Proof.
  induction l as [|e t IH]; intros d H; cbn [fold_left]; [now rewrite app_nil_r|].
  assert (E : put d e = (d ++ [e])%list).
  { unfold put. rewrite dset_new; [now destruct e|]. apply (dget_none _ String.eqb_spec). intros K.
    rewrite map_app in H. cbn [map] in H. apply NoDup_remove_2 in H. apply H. apply in_app_iff. left; exact K. }
  rewrite E, IH; [now rewrite <- app_assoc|]. rewrite <- app_assoc. exact H.
Qed.

Lemma dget_iff {A} (d : list (entry A)) k x : NoDup (map fst d) -> (In (k, x) d <-> dget String.eqb d k = Some x).
Proof.
  intros H. split; [apply (in_dget _ String.eqb_spec); exact H|apply (dget_in _ String.eqb_spec)].
Qed.

Lemma collect_nodup {A} (l : list (entry A)) : NoDup (map fst (collect l)).
Proof. apply puts_nodup. constructor. Qed.

Lemma collect_get {A} (l : list (entry A)) k x : dget String.eqb (collect l) k = Some x <-> LastOf l k x.
Proof.
  unfold collect. destruct (puts_get l [] k) as [H1 H2]. split.
  - intros H. destruct (last_or l k) as [[y Hy]|N].
    + rewrite (H1 y Hy) in H. injection H as ->. exact Hy.
    + rewrite (H2 N) in H. discriminate.
  - apply H1.
Qed.

Lemma collect_dict {A} (l : list (entry A)) : DictOf l (collect l).
Proof.
  split; [apply collect_nodup|]. split.
  - intros k x. rewrite (dget_iff _ k x (collect_nodup l)). apply collect_get.
  - intros H. unfold collect. now rewrite puts_new.
Qed.

(** * The iteration *)

Lemma follows_all {A} (lead : iter A) fs : Fresh lead -> Forall (Follows lead) fs ->
  Forall (fun w => i_allow w = i_allow lead /\ i_primary w = i_primary lead /\ Fresh w /\ incl (i_dims w) (i_dims lead)) (lead :: fs).
Proof.
  intros H F. constructor; [repeat split; try exact (proj1 H); try apply H; apply incl_refl|].
  apply Forall_forall. intros w Hw. rewrite Forall_forall in F. destruct (F w Hw) as [K1 [K2 [K3 [K4 K5]]]]. auto.
Qed.

Lemma tuples {A} (lead : iter A) fs : Fresh lead -> Forall (Follows lead) fs ->
  exists fs' first rest, map_res (link lead) fs = Ok fs' /\ List.length fs' = List.length fs /\ stream lead = Ok first /\ map_res stream fs' = Ok rest /\
    Forall2 (fun idx tup => Forall2 (fun w o => Gives lead w idx o) (lead :: fs) tup) (indices (i_shape lead)) (zip_all first rest).
Proof.
  intros Hl Hf.
  destruct (map_res_Forall2 (link lead) (fun f f' => exists l, stream f' = Ok l /\ Forall2 (fun idx o => Gives lead f idx o) (indices (i_shape lead)) l) fs) as [fs' [E F]].
  { intros f Hin. rewrite Forall_forall in Hf. destruct (link_ok lead f (proj1 (proj2 Hl)) (proj1 (proj2 (proj2 Hl))) (Hf f Hin)) as [f' [E [S1 H]]].
    exists f'. split; [exact E|]. unfold stream. rewrite S1. apply map_res_Forall2. intros idx Hi. apply in_indices in Hi.
    destruct (H idx Hi) as [iw [H1 H2]]. exists (outcome f iw). split; [exact H2|]. exists iw. auto. }
  destruct (map_res_Forall2 (one lead) (fun idx o => Gives lead lead idx o) (indices (i_shape lead))) as [first [E1 F1]].
  { intros idx Hi. apply in_indices in Hi. destruct (lead_one lead idx Hl Hi) as [H1 H2]. exists (outcome lead idx). split; [exact H2|]. exists idx. auto. }
  assert (exists rest, map_res stream fs' = Ok rest /\ Forall2 (fun f l => Forall2 (fun idx o => Gives lead f idx o) (indices (i_shape lead)) l) fs rest) as [rest [E2 F2]].
  { clear - F. induction F as [|f f' fs fs' [l [H1 H2]] F IH]; [exists []; split; [reflexivity|constructor]|].
    destruct IH as [rest [E F']]. exists (l :: rest). cbn [map_res]. rewrite H1. cbn [bind]. rewrite E. cbn [bind]. split; [reflexivity|]. constructor; assumption. }
  exists fs', first, rest. split; [exact E|]. split; [symmetry; eapply Forall2_len; exact F|]. split; [exact E1|]. split; [exact E2|].
  apply (zip_spec (fun f idx o => Gives lead f idx o)); assumption.
Qed.

Lemma iterate_rows {A} (lead : iter A) (followers : option (list (follower A))) fs :
  Fresh lead -> Forall (Follows lead) fs -> match followers with None => [] | Some l => flat_map (follower_iters lead) l end = fs ->
  exists idxs recs, iterate lead followers None = Ok recs /\ RowMajor (i_shape lead) (fun idx => ~ LeftOut (lead :: fs) lead idx) idxs /\
    Forall2 (fun idx r => exists row, Row (lead :: fs) lead idx row /\ DictOf row r) idxs recs.
Proof.
  intros Hl Hf Ef. destruct (tuples lead fs Hl Hf) as [fs' [first [rest [E1 [El [E2 [E3 F]]]]]]].
  unfold iterate. rewrite Ef, E1. cbn [bind]. rewrite E2. cbn [bind]. rewrite E3. cbn [bind].
  match goal with |- context [map_res ?g (zip_all first rest)] => set (stp := g) end.
  assert (exists outs, map_res stp (zip_all first rest) = Ok outs /\
    Forall2 (fun idx out => (LeftOut (lead :: fs) lead idx /\ out = []) \/
      (~ LeftOut (lead :: fs) lead idx /\ exists r, out = [r] /\ exists row, Row (lead :: fs) lead idx row /\ DictOf row r)) (indices (i_shape lead)) outs) as [outs [E4 F4]].
  { clear - F Hl Hf. induction F as [|idx tup idxs tups H F IH]; [exists []; split; [reflexivity|constructor]|]. destruct IH as [outs [E G]].
    destruct (tuple_case lead (lead :: fs) idx tup (follows_all lead fs Hl Hf) H) as [[K1 [K2 K3]]|[K1 [K2 [ess [K3 K4]]]]]; cbn [map_res].
    - exists ([] :: outs). unfold stp at 1, step. rewrite K2, K3. cbn [negb andb bind]. rewrite E. cbn [bind]. split; [reflexivity|]. constructor; [left; auto|exact G].
    - exists ([collect (List.concat ess)] :: outs). unfold stp at 1, step. rewrite K2, andb_false_r, K3. cbn [bind]. cbv zeta. rewrite E. cbn [bind]. split; [reflexivity|].
      constructor; [|exact G]. right. split; [exact K1|]. eexists. split; [reflexivity|]. exists (List.concat ess). split; [exact K4|apply collect_dict]. }
  rewrite E4. cbn [bind].
  destruct (pick_rows _ _ before _ _ (indices_sorted (i_shape lead)) F4) as [idxs [outs' [Ec [S1 [M G]]]]].
  exists idxs, (List.concat outs'). rewrite Ec. split; [reflexivity|]. split.
  - split; [exact S1|]. intros idx. rewrite M, in_indices. reflexivity.
  - clear - G. induction G as [|idx out idxs outs' [r [-> H]] G IH]; [constructor|]. cbn [List.concat app]. constructor; assumption.
Qed.
