(** General lemmas used by the proof files.  No model definitions. *)
From Verif Require Import Py.
From Coq Require Export ZifyBool ZifyNat Permutation.
From Coq Require FinFun.
Ltac Zify.zify_post_hook ::= Z.div_mod_to_equations.

Lemma zlen_nonneg {A} (l : list A) : 0 <= zlen l.
Proof. unfold zlen; lia. Qed.

Lemma zlen_app {A} (l1 l2 : list A) : zlen (l1 ++ l2) = zlen l1 + zlen l2.
Proof. unfold zlen; rewrite app_length; lia. Qed.

Lemma zlen_cons {A} (x : A) l : zlen (x :: l) = 1 + zlen l.
Proof. unfold zlen; cbn [List.length]; lia. Qed.

Lemma zlen_map {A B} (f : A -> B) l : zlen (map f l) = zlen l.
Proof. unfold zlen; rewrite map_length; reflexivity. Qed.

Lemma zrange_length lo hi : List.length (zrange lo hi) = Z.to_nat (hi - lo).
Proof. unfold zrange; rewrite map_length, seq_length; reflexivity. Qed.

Lemma zrange_zlen lo hi : zlen (zrange lo hi) = Z.max 0 (hi - lo).
Proof. unfold zlen; rewrite zrange_length; lia. Qed.

Lemma in_zrange x lo hi : In x (zrange lo hi) <-> lo <= x < hi.
Proof.
  unfold zrange; rewrite in_map_iff; split.
  - intros [k [Hk Hin]]; apply in_seq in Hin; lia.
  - intros H; exists (Z.to_nat (x - lo)); split; [lia|apply in_seq; lia].
Qed.

Lemma zrange_nil lo hi : hi <= lo -> zrange lo hi = [].
Proof. intros H; unfold zrange; replace (Z.to_nat (hi - lo)) with 0%nat by lia; reflexivity. Qed.

Lemma zrange_cons lo hi : lo < hi -> zrange lo hi = lo :: zrange (lo + 1) hi.
Proof.
  intros H; unfold zrange.
  replace (Z.to_nat (hi - lo)) with (S (Z.to_nat (hi - (lo + 1)))) by lia.
  cbn [seq map]; f_equal; [lia|].
  rewrite <- seq_shift, map_map; apply map_ext; intros k; lia.
Qed.

Lemma zrange_app a b c : a <= b <= c -> zrange a c = zrange a b ++ zrange b c.
Proof.
  intros H; unfold zrange.
  replace (Z.to_nat (c - a)) with (Z.to_nat (b - a) + Z.to_nat (c - b))%nat by lia.
  rewrite seq_app, map_app; f_equal.
  replace (0 + Z.to_nat (b - a))%nat with (Z.to_nat (b - a)) by lia.
  rewrite <- (Nat.add_0_r (Z.to_nat (b - a))) at 1.
  generalize (Z.to_nat (c - b)) as m; intros m.
  assert (G : forall s, map (fun k => a + Z.of_nat k) (seq (Z.to_nat (b - a) + s) m)
                  = map (fun k => b + Z.of_nat k) (seq s m)).
  { induction m as [|m IH]; intros s; cbn [seq map]; [reflexivity|]. f_equal; [lia|].
    rewrite <- IH; f_equal; f_equal; lia. }
  apply G.
Qed.

Lemma nodup_zrange lo hi : NoDup (zrange lo hi).
Proof.
  unfold zrange; apply FinFun.Injective_map_NoDup; [|apply seq_NoDup].
  intros x y Hxy; lia.
Qed.

Lemma nth_error_zrange lo hi k :
  (k < Z.to_nat (hi - lo))%nat -> nth_error (zrange lo hi) k = Some (lo + Z.of_nat k).
Proof.
  intros H; unfold zrange.
  rewrite nth_error_map.
  rewrite (nth_error_nth' _ 0%nat) by (rewrite seq_length; lia).
  rewrite seq_nth by lia; cbn [option_map]; f_equal; lia.
Qed.

Lemma map_zrange_shift lo hi c :
  map (fun x => x + c) (zrange lo hi) = zrange (lo + c) (hi + c).
Proof.
  unfold zrange; rewrite map_map.
  replace (hi + c - (lo + c)) with (hi - lo) by lia.
  apply map_ext; intros; lia.
Qed.

Lemma map_res_ok {A B} (f : A -> res B) l l' :
  map_res f l = Ok l' -> Forall2 (fun x y => f x = Ok y) l l'.
Proof.
  revert l'; induction l as [|x t IH]; cbn [map_res]; intros l' H.
  - injection H as <-; constructor.
  - destruct (f x) as [y|e] eqn:Hx; cbn [bind] in H; [|discriminate].
    destruct (map_res f t) as [ys|e] eqn:Ht; cbn [bind] in H; [|discriminate].
    injection H as <-; constructor; [exact Hx|apply IH; reflexivity].
Qed.

Lemma map_res_all {A B} (f : A -> res B) (g : A -> B) l :
  (forall x, In x l -> f x = Ok (g x)) -> map_res f l = Ok (map g l).
Proof.
  induction l as [|x t IH]; cbn [map_res map]; intros H; [reflexivity|].
  rewrite (H x) by (left; reflexivity); cbn [bind].
  rewrite IH by (intros y Hy; apply H; right; exact Hy); reflexivity.
Qed.

Lemma map_res_ext_in {A B} (f g : A -> res B) l :
  (forall x, In x l -> f x = g x) -> map_res f l = map_res g l.
Proof.
  induction l as [|x t IH]; cbn [map_res]; intros H; [reflexivity|].
  rewrite (H x) by (left; reflexivity).
  rewrite IH by (intros y Hy; apply H; right; exact Hy); reflexivity.
Qed.

Lemma zsum_app l1 l2 : zsum (l1 ++ l2) = zsum l1 + zsum l2.
Proof. unfold zsum; induction l1 as [|x t IH]; cbn [fold_right app]; lia. Qed.

Lemma zsum_cons x l : zsum (x :: l) = x + zsum l.
Proof. reflexivity. Qed.

Lemma zsum_nonneg l : (forall x, In x l -> 0 <= x) -> 0 <= zsum l.
Proof.
  induction l as [|x t IH]; intros H; [reflexivity|].
  rewrite zsum_cons. pose proof (H x (or_introl eq_refl)).
  assert (0 <= zsum t) by (apply IH; intros y Hy; apply H; right; exact Hy). lia.
Qed.

Lemma firstn_skipn_zrange lo hi a b :
  0 <= a -> a <= b -> b <= hi - lo ->
  firstn (Z.to_nat (b - a)) (skipn (Z.to_nat a) (zrange lo hi)) = zrange (lo + a) (lo + b).
Proof.
  intros Ha Hab Hb.
  rewrite (zrange_app lo (lo + a) hi) by lia.
  rewrite (zrange_app (lo + a) (lo + b) hi) by lia.
  assert (L1 : List.length (zrange lo (lo + a)) = Z.to_nat a) by (rewrite zrange_length; f_equal; lia).
  rewrite skipn_app, L1, Nat.sub_diag, skipn_all2 by lia; cbn [skipn app].
  assert (L2 : List.length (zrange (lo + a) (lo + b)) = Z.to_nat (b - a)) by (rewrite zrange_length; f_equal; lia).
  rewrite firstn_app, L2, Nat.sub_diag, firstn_all2 by lia; cbn [firstn]; rewrite app_nil_r; reflexivity.
Qed.

Lemma forallb_false_exists {A} (f : A -> bool) l :
  forallb f l = false -> exists x, In x l /\ f x = false.
Proof.
  induction l as [|x t IH]; cbn [forallb]; intros H; [discriminate|].
  destruct (f x) eqn:Hx; cbn [andb] in H.
  - destruct (IH H) as [y [Hy Hf]]; exists y; split; [right; exact Hy|exact Hf].
  - exists x; split; [left; reflexivity|exact Hx].
Qed.

Lemma existsb_false_forall {A} (f : A -> bool) l :
  existsb f l = false <-> forall x, In x l -> f x = false.
Proof.
  induction l as [|x t IH]; cbn [existsb]; split; intros H.
  - intros y [].
  - reflexivity.
  - apply orb_false_iff in H; destruct H as [H1 H2].
    intros y [<-|Hy]; [exact H1|apply IH; assumption].
  - apply orb_false_iff; split; [apply H; left; reflexivity|apply IH; intros y Hy; apply H; right; exact Hy].
Qed.

(** Dictionaries *)
Section DictLemmas.
  Context {K V : Type} (eqk : K -> K -> bool).
  Hypothesis eqk_spec : forall a b, reflect (a = b) (eqk a b).

  Lemma eqk_refl a : eqk a a = true.
  Proof. destruct (eqk_spec a a) as [H|H]; [reflexivity|contradiction]. Qed.

  Lemma dget_dset_same (d : list (K * V)) k v : dget eqk (dset eqk d k v) k = Some v.
  Proof.
    induction d as [|[k' v'] t IH]; cbn [dset dget].
    - rewrite eqk_refl; reflexivity.
    - destruct (eqk k k') eqn:E; cbn [dget]; rewrite E; [reflexivity|exact IH].
  Qed.

  Lemma dget_dset_other (d : list (K * V)) k k2 v :
    k2 <> k -> dget eqk (dset eqk d k v) k2 = dget eqk d k2.
  Proof.
    intros Hne; induction d as [|[k' v'] t IH]; cbn [dset dget].
    - destruct (eqk_spec k2 k) as [H|H]; [contradiction|reflexivity].
    - destruct (eqk k k') eqn:E; cbn [dget].
      + destruct (eqk_spec k k') as [H|H]; [subst k'|discriminate].
        destruct (eqk_spec k2 k) as [H|H]; [contradiction|reflexivity].
      + destruct (eqk k2 k'); [reflexivity|exact IH].
  Qed.

  Lemma dget_in (d : list (K * V)) k v : dget eqk d k = Some v -> In (k, v) d.
  Proof.
    induction d as [|[k' v'] t IH]; cbn [dget]; intros H; [discriminate|].
    destruct (eqk_spec k k') as [E|E].
    - injection H as <-; subst; left; reflexivity.
    - right; apply IH; exact H.
  Qed.

  Lemma dget_none (d : list (K * V)) k : dget eqk d k = None <-> ~ In k (map fst d).
  Proof.
    induction d as [|[k' v'] t IH]; cbn [dget map fst]; split; intros H.
    - intros [].
    - reflexivity.
    - destruct (eqk_spec k k') as [E|E]; [discriminate|].
      intros [E'|E']; [apply E; symmetry; exact E'|apply IH in H; contradiction].
    - destruct (eqk_spec k k') as [E|E].
      + exfalso; apply H; left; symmetry; exact E.
      + apply IH; intros Hin; apply H; right; exact Hin.
  Qed.

  Lemma in_dget (d : list (K * V)) k v :
    NoDup (map fst d) -> In (k, v) d -> dget eqk d k = Some v.
  Proof.
    induction d as [|[k' v'] t IH]; cbn [dget map fst]; intros Hnd Hin; [destruct Hin|].
    inversion Hnd as [|? ? Hni Hnd']; subst.
    destruct Hin as [E|Hin].
    - injection E as -> ->; rewrite eqk_refl; reflexivity.
    - destruct (eqk_spec k k') as [E|E].
      + subst; exfalso; apply Hni; apply in_map with (f := fst) in Hin; exact Hin.
      + apply IH; assumption.
  Qed.

  Lemma dset_keys (d : list (K * V)) k v :
    map fst (dset eqk d k v) = if dmem eqk d k then map fst d else map fst d ++ [k].
  Proof.
    unfold dmem; induction d as [|[k' v'] t IH]; cbn [dset dget map fst]; [reflexivity|].
    destruct (eqk k k') eqn:E; cbn [map fst]; [reflexivity|].
    rewrite IH; destruct (dget eqk t k); reflexivity.
  Qed.

  Lemma dset_nodup (d : list (K * V)) k v :
    NoDup (map fst d) -> NoDup (map fst (dset eqk d k v)).
  Proof.
    intros H; rewrite dset_keys; unfold dmem; destruct (dget eqk d k) eqn:E; [exact H|].
    apply dget_none in E.
    apply (Permutation_NoDup (l := k :: map fst d)).
    - apply Permutation_cons_append.
    - constructor; assumption.
  Qed.

  Lemma dget_dremove_other (d : list (K * V)) k k2 :
    k2 <> k -> dget eqk (dremove eqk d k) k2 = dget eqk d k2.
  Proof.
    intros Hne; induction d as [|[k' v'] t IH]; cbn [dremove dget]; [reflexivity|].
    destruct (eqk_spec k k') as [E|E]; cbn [dget].
    - subst; destruct (eqk_spec k2 k') as [E2|E2]; [contradiction|reflexivity].
    - destruct (eqk k2 k'); [reflexivity|exact IH].
  Qed.

  Lemma dget_dremove_same (d : list (K * V)) k :
    NoDup (map fst d) -> dget eqk (dremove eqk d k) k = None.
  Proof.
    induction d as [|[k' v'] t IH]; cbn [dremove dget map fst]; intros H; [reflexivity|].
    inversion H as [|? ? Hni Hnd]; subst.
    destruct (eqk_spec k k') as [E|E]; cbn [dget].
    - subst; apply dget_none; exact Hni.
    - destruct (eqk_spec k k') as [E2|E2]; [contradiction|apply IH; exact Hnd].
  Qed.

  Lemma in_dremove (d : list (K * V)) k p : In p (dremove eqk d k) -> In p d.
  Proof.
    induction d as [|[k' v'] t IH]; cbn [dremove]; intros H; [exact H|].
    destruct (eqk k k'); [right; exact H|].
    destruct H as [H|H]; [left; exact H|right; apply IH; exact H].
  Qed.

  Lemma dremove_nodup (d : list (K * V)) k : NoDup (map fst d) -> NoDup (map fst (dremove eqk d k)).
  Proof.
    induction d as [|[k' v'] t IH]; cbn [dremove map fst]; intros H; [constructor|].
    inversion H as [|? ? Hni Hnd]; subst.
    destruct (eqk k k'); [exact Hnd|].
    cbn [map fst]; constructor; [|apply IH; exact Hnd].
    intros Hin; apply Hni; apply in_map_iff in Hin; destruct Hin as [[a b] [Ha Hb]].
    cbn [fst] in Ha; subst a; apply in_dremove in Hb; apply in_map with (f := fst) in Hb; exact Hb.
  Qed.
End DictLemmas.

Lemma string_eqb_spec a b : reflect (a = b) (String.eqb a b).
Proof. apply String.eqb_spec. Qed.

Lemma Forall2_len {A B} (R : A -> B -> Prop) l l' : Forall2 R l l' -> List.length l = List.length l'.
Proof. induction 1 as [|x y l l' H HF IH]; cbn [List.length]; [reflexivity|f_equal; exact IH]. Qed.

Lemma skipn_skipn' {A} : forall x y (l : list A), skipn x (skipn y l) = skipn (x + y) l.
Proof.
  intros x y; revert x; induction y as [|y IH]; intros x l.
  - rewrite Nat.add_0_r. reflexivity.
  - destruct l as [|a l]; [rewrite !skipn_nil; reflexivity|].
    rewrite Nat.add_succ_r. cbn [skipn]. apply IH.
Qed.

Lemma map_res_app {A B} (f : A -> res B) : forall l1 l2,
  map_res f (l1 ++ l2) = do a <- map_res f l1; do b <- map_res f l2; Ok (a ++ b).
Proof.
  induction l1 as [|x t IH]; intros l2; cbn [app map_res bind].
  - destruct (map_res f l2); reflexivity.
  - destruct (f x) as [y|]; cbn [bind]; [|reflexivity]. rewrite IH.
    destruct (map_res f t) as [a|]; cbn [bind]; [|reflexivity]. destruct (map_res f l2); reflexivity.
Qed.

Lemma combine_app {A B} : forall (l1 l2 : list A) (m1 m2 : list B), List.length m1 = List.length l1 ->
  combine (l1 ++ l2) (m1 ++ m2) = combine l1 m1 ++ combine l2 m2.
Proof.
  induction l1 as [|x t IH]; intros l2 [|y m1] m2 H; cbn [List.length] in H; try discriminate; [reflexivity|].
  cbn [app combine]. rewrite IH by lia. reflexivity.
Qed.

Lemma NoDup_app_intro {A} (l1 l2 : list A) : NoDup l1 -> NoDup l2 -> (forall x, In x l1 -> ~ In x l2) -> NoDup (l1 ++ l2).
Proof.
  induction l1 as [|x t IH]; intros H1 H2 H; [exact H2|]. inversion H1; subst. cbn [app]. constructor.
  - intros Hin. apply in_app_or in Hin. destruct Hin as [Hin|Hin]; [tauto|]. apply (H x); [left; reflexivity|exact Hin].
  - apply IH; try assumption. intros y Hy. apply H. right; exact Hy.
Qed.

Lemma Forall2_imp {A B} (R S : A -> B -> Prop) : (forall x y, R x y -> S x y) -> forall l l', Forall2 R l l' -> Forall2 S l l'.
Proof. intros H. induction 1; constructor; auto. Qed.

Lemma map_res_exists {A B} (f : A -> res B) l : (forall x, In x l -> exists y, f x = Ok y) -> exists ys, map_res f l = Ok ys.
Proof.
  induction l as [|x t IH]; intros H; [eexists; reflexivity|]. destruct (H x (or_introl eq_refl)) as [y Ey].
  destruct IH as [ys E]; [intros z Hz; apply H; right; exact Hz|]. cbn [map_res]. rewrite Ey; cbn [bind]. rewrite E; cbn [bind]. eexists; reflexivity.
Qed.
