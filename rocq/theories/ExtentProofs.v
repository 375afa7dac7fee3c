From Verif Require Import Py Lib ExtentModel ExtentSpec.
From Coq Require Import QArith Lia Lqa.
Local Notation length := List.length.
Local Open Scope Q_scope.

Lemma largest_spec : forall l x, In (largest x l) (x :: l) /\ forall y, In y (x :: l) -> y <= largest x l.
Proof.
  induction l as [|z t IH]; intros x.
  - split; [left; reflexivity|]. intros y [->|[]]. apply Qle_refl.
  - unfold largest. cbn [fold_left]. fold (largest (if Qle_bool x z then z else x) t).
    destruct (IH (if Qle_bool x z then z else x)) as [H1 H2]. split.
    + destruct H1 as [H1|H1]; [|right; right; exact H1]. rewrite <- H1. destruct (Qle_bool x z); [right; left|left]; reflexivity.
    + assert (x <= (if Qle_bool x z then z else x) /\ z <= (if Qle_bool x z then z else x)) as [Ex Ez].
      { destruct (Qle_bool x z) eqn:E; [apply Qle_bool_iff in E; split; [exact E|apply Qle_refl]|]. split; [apply Qle_refl|].
        destruct (Qlt_le_dec x z) as [C|C]; [|exact C]. apply Qlt_le_weak, Qle_bool_iff in C. congruence. }
      intros y [<-|[<-|H]]; [eapply Qle_trans; [exact Ex|]|eapply Qle_trans; [exact Ez|]|]; apply H2; [left; reflexivity|left; reflexivity|right; exact H].
Qed.

Lemma smallest_spec : forall l x, In (smallest x l) (x :: l) /\ forall y, In y (x :: l) -> smallest x l <= y.
Proof.
  induction l as [|z t IH]; intros x.
  - split; [left; reflexivity|]. intros y [->|[]]. apply Qle_refl.
  - unfold smallest. cbn [fold_left]. fold (smallest (if Qle_bool z x then z else x) t).
    destruct (IH (if Qle_bool z x then z else x)) as [H1 H2]. split.
    + destruct H1 as [H1|H1]; [|right; right; exact H1]. rewrite <- H1. destruct (Qle_bool z x); [right; left|left]; reflexivity.
    + assert ((if Qle_bool z x then z else x) <= x /\ (if Qle_bool z x then z else x) <= z) as [Ex Ez].
      { destruct (Qle_bool z x) eqn:E; [apply Qle_bool_iff in E; split; [exact E|apply Qle_refl]|]. split; [apply Qle_refl|].
        destruct (Qlt_le_dec z x) as [C|C]; [|exact C]. apply Qlt_le_weak, Qle_bool_iff in C. congruence. }
      intros y [<-|[<-|H]]; [eapply Qle_trans; [|exact Ex]|eapply Qle_trans; [|exact Ez]|]; apply H2; [left; reflexivity|left; reflexivity|right; exact H].
Qed.

Lemma compressed_in : forall {A} (a : list (option A)) x, In x (compressed a) <-> In (Some x) a.
Proof.
  induction a as [|[y|] t IH]; intros x; cbn [compressed In].
  - reflexivity.
  - rewrite IH. split; intros [H|H]; try (right; exact H); left; congruence.
  - rewrite IH. split; [intros H; right; exact H|intros [H|H]; [discriminate|exact H]].
Qed.

Definition counted {G} (area_of : G -> Q) (g : list (bool * G)) : list (option Q) :=
  map (fun mg : bool * G => if fst mg then None else Some (CountedArea (area_of (snd mg)))) g.

Lemma counted_eq : forall {G} (area_of : G -> Q) g,
  map (option_map (fun x => if Qeq_bool x 0 then 1 else x)) (area area_of g) = counted area_of g.
Proof. intros G area_of g. unfold area, counted. rewrite map_map. apply map_ext. intros [[|] y]; reflexivity. Qed.

Lemma counted_in : forall {G} (area_of : G -> Q) g x, In x (compressed (counted area_of g)) <-> CountedAreas area_of g x.
Proof.
  intros G area_of g x. rewrite compressed_in. unfold counted, CountedAreas. rewrite in_map_iff. split.
  - intros [[[|] y] [E H]]; cbn [fst snd] in E; [discriminate|]. injection E as <-. exists y. auto.
  - intros [y [H ->]]. exists (false, y). auto.
Qed.

(** ** Index arrays *)

Lemma first_index_in : forall {A} eqb (spec : forall x y : A, Bool.reflect (x = y) (eqb x y)) x dst, In x dst ->
  exists i, first_index eqb x dst = Ok i /\ nth_error dst i = Some x /\ forall j, (j < i)%nat -> nth_error dst j <> Some x.
Proof.
  intros A eqb spec x. induction dst as [|y t IH]; intros H; [destruct H|]. cbn [first_index]. destruct (spec x y) as [->|N].
  - exists O. split; [reflexivity|]. split; [reflexivity|lia].
  - destruct H as [->|H]; [congruence|]. destruct (IH H) as [i [E [E2 F]]]. exists (S i). rewrite E. split; [reflexivity|]. split; [exact E2|].
    intros [|j] J; cbn [nth_error]; [congruence|apply F; lia].
Qed.

Lemma first_index_out : forall {A} eqb (spec : forall x y : A, Bool.reflect (x = y) (eqb x y)) x dst, ~ In x dst ->
  first_index eqb x dst = Err IndexError.
Proof.
  intros A eqb spec x. induction dst as [|y t IH]; intros H; [reflexivity|]. cbn [first_index]. destruct (spec x y) as [->|N]; [exfalso; apply H; left; reflexivity|].
  rewrite IH; [reflexivity|]. intros C. apply H. right. exact C.
Qed.

Lemma set_row_length : forall rows idx a, match set_row rows idx a with Ok r => (idx < length rows)%nat /\ length r = length rows | Err e => e = IndexError /\ (length rows <= idx)%nat end.
Proof.
  induction rows as [|r t IH]; intros [|i] a; cbn [set_row length]; try (split; [reflexivity|lia]).
  - split; [lia|reflexivity].
  - specialize (IH i a). destruct (set_row t i a) as [t'|e]; cbn [bind length]; destruct IH; split; try assumption; lia.
Qed.

Lemma set_rows_over : forall {A} eqb (spec : forall x y : A, Bool.reflect (x = y) (eqb x y)) flat dst idx ret,
  (forall x, In x flat -> In x dst) -> (idx <= length ret)%nat -> (length ret < idx + length flat)%nat -> set_rows eqb None flat dst idx ret = Err IndexError.
Proof.
  intros A eqb spec. induction flat as [|x t IH]; intros dst idx ret Hin Hi Hl; cbn [length] in Hl; [lia|]. cbn [set_rows]. unfold index_of.
  destruct (first_index_in eqb spec x dst (Hin x (or_introl eq_refl))) as [i [E _]]. rewrite E. cbn [bind].
  pose proof (set_row_length ret idx (Z.of_nat i)) as L. destruct (set_row ret idx (Z.of_nat i)) as [r|e]; cbn [bind]; [|destruct L as [-> _]; reflexivity].
  destruct L as [L1 L2]. apply IH; [intros y H; apply Hin; right; exact H|lia|lia].
Qed.

Lemma where_true_in : forall arr i n, In n (where_true i arr) <-> exists k, nth_error arr k = Some true /\ n = (i + Z.of_nat k)%Z.
Proof.
  induction arr as [|b t IH]; intros i n; cbn [where_true].
  - split; [intros []|]. intros [[|k] [H _]]; discriminate.
  - assert (In n (where_true (i + 1) t) <-> exists k, nth_error (b :: t) (S k) = Some true /\ n = (i + Z.of_nat (S k))%Z) as E.
    { rewrite IH. split; intros [k [H ->]]; exists k; (split; [exact H|lia]). }
    destruct b; cbn [In].
    + rewrite E. split; [intros [<-|[k [H ->]]]; [exists O; split; [reflexivity|lia]|exists (S k); split; [exact H|reflexivity]]|].
      intros [[|k] [H ->]]; [left; lia|right; exists k; split; [exact H|reflexivity]].
    + rewrite E. split; [intros [k [H ->]]; exists (S k); split; [exact H|reflexivity]|]. intros [[|k] [H ->]]; [discriminate|exists k; split; [exact H|reflexivity]].
Qed.

Lemma where_true_filter : forall {A} (d : A) (arr : list bool) (pre l : list A), length l = length arr ->
  map (fun n => nth (Z.to_nat n) (pre ++ l) d) (where_true (zlen pre) arr) = map snd (filter fst (combine arr l)).
Proof.
  intros A d. induction arr as [|b t IH]; intros pre l L; [destruct l; [reflexivity|discriminate]|]. destruct l as [|x l]; [discriminate|].
  cbn [where_true combine filter fst]. injection L as L. specialize (IH (pre ++ [x])%list l L).
  rewrite <- app_assoc in IH. cbn [app] in IH.
  assert (zlen (pre ++ [x]) = zlen pre + 1)%Z as Ez by (unfold zlen; rewrite app_length; cbn [length]; lia). rewrite Ez in IH.
  destruct b; cbn [map snd]; [|exact IH]. rewrite IH. f_equal. unfold zlen. rewrite Nat2Z.id, app_nth2, Nat.sub_diag by lia. reflexivity.
Qed.
