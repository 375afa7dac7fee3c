(** Proofs about conversion of units. *)
From Coq Require Import QArith Qround Lqa Lia.
From Verif Require Import Py Lib UnitsModel UnitsSpec.
Local Close Scope Q_scope.
Local Open Scope nat_scope.

(** * Numbers *)

Lemma of_to u q : ~ (u_scale u == 0)%Q -> (of_base u (to_base u q) == q)%Q.
Proof. intros N. unfold of_base, to_base. field. exact N. Qed.

Lemma to_of u b : ~ (u_scale u == 0)%Q -> (to_base u (of_base u b) == b)%Q.
Proof. intros N. unfold of_base, to_base. field. exact N. Qed.

Lemma to_base_compat u q q' : (q == q')%Q -> (to_base u q == to_base u q')%Q.
Proof. intros E. unfold to_base. now rewrite E. Qed.

Lemma of_base_compat u q q' : (q == q')%Q -> (of_base u q == of_base u q')%Q.
Proof. intros E. unfold of_base. now rewrite E. Qed.

Lemma to_base_inj u q q' : ~ (u_scale u == 0)%Q -> (to_base u q == to_base u q')%Q -> (q == q')%Q.
Proof. intros N E. rewrite <- (of_to u q N), <- (of_to u q' N). now apply of_base_compat. Qed.

Lemma convert_same s d q : ~ (u_scale d == 0)%Q -> (to_base s q == to_base d (lib_convert s d q))%Q.
Proof. intros N. unfold lib_convert. now rewrite to_of. Qed.

Lemma cfu_eqb_spec s d : cfu_eqb s d = true -> u_dim s = u_dim d /\ forall q, (to_base s q == to_base d q)%Q.
Proof.
  unfold cfu_eqb. intros H. apply andb_true_iff in H. destruct H as [H H3]. apply andb_true_iff in H. destruct H as [H1 H2].
  apply Z.eqb_eq in H1. apply Qeq_bool_eq in H2. apply Qeq_bool_eq in H3. split; [exact H1|].
  intros q. unfold to_base. now rewrite H2, H3.
Qed.

Lemma same_map s d l : ~ (u_scale d == 0)%Q -> SameQuantities s d l (map (lib_convert s d) l).
Proof. intros N. induction l as [|q t IH]; constructor; [now apply convert_same | exact IH]. Qed.

Lemma same_eq s d l : cfu_eqb s d = true -> SameQuantities s d l l.
Proof. intros E. induction l as [|q t IH]; constructor; [now apply cfu_eqb_spec in E | exact IH]. Qed.

(** * Memory *)

Lemma set_nth_length {A} i (x : A) l : length (set_nth i x l) = length l.
Proof. revert i. induction l as [|y t IH]; intros [|i]; cbn; auto. Qed.

Lemma set_nth_same {A} i (x d : A) l : i < length l -> nth i (set_nth i x l) d = x.
Proof. revert i. induction l as [|y t IH]; intros [|i] H; cbn in *; try lia; [reflexivity | apply IH; lia]. Qed.

Lemma set_nth_other {A} i j (x d : A) l : i <> j -> nth j (set_nth i x l) d = nth j l d.
Proof.
  revert i j. induction l as [|y t IH]; intros [|i] [|j] H; cbn; try reflexivity; try congruence. apply IH. congruence.
Qed.

Lemma read_alloc h l b : read (fst (alloc h l b)) (snd (alloc h l b)) = l.
Proof.
  unfold alloc, read; cbn [fst snd a_buf a_idx]. unfold read_at.
  assert (E : nth (length h) (h ++ [l]) [] = l) by (rewrite app_nth2 by lia; now rewrite Nat.sub_diag). rewrite E.
  assert (G : forall (pre : list Q) l, map (fun i => nth i (pre ++ l) 0%Q) (seq (length pre) (length l)) = l).
  { intros pre l0. revert pre. induction l0 as [|q t IH]; intros pre; cbn [length seq map]; [reflexivity|].
    rewrite app_nth2 by lia. rewrite Nat.sub_diag. cbn [nth]. f_equal.
    specialize (IH (pre ++ [q])). rewrite app_length in IH. cbn [length] in IH. rewrite Nat.add_1_r in IH.
    rewrite <- app_assoc in IH. cbn [app] in IH. exact IH. }
  exact (G [] l).
Qed.

Lemma read_alloc_old h l b a : InMemory h a -> read (fst (alloc h l b)) a = read h a.
Proof.
  intros [H _]. unfold read, alloc; cbn [fst]. apply map_ext. intros i. unfold read_at. now rewrite app_nth1.
Qed.

Lemma alloc_in_memory h l b a : InMemory h a -> InMemory (fst (alloc h l b)) a.
Proof.
  intros [H1 [H2 H3]]. unfold alloc; cbn [fst]. split; [rewrite app_length; lia|]. split; [exact H2|].
  intros i Hi. rewrite app_nth1 by exact H1. exact (H3 i Hi).
Qed.

Lemma alloc_new_in_memory h l b : InMemory (fst (alloc h l b)) (snd (alloc h l b)).
Proof.
  unfold alloc; cbn [fst snd]. split; cbn [a_buf a_idx]; [rewrite app_length; cbn; lia|]. split; [apply seq_NoDup|].
  intros i Hi. apply in_seq in Hi. rewrite app_nth2 by lia. rewrite Nat.sub_diag. cbn [nth]. lia.
Qed.

(** ** Writing in place *)

Definition wstep (f : Q -> Q) (b : nat) (h : heap) (i : nat) : heap :=
  set_nth b (set_nth i (f (read_at h b i)) (nth b h [])) h.

Lemma write_map_fold f h a : write_map f h a = fold_left (wstep f (a_buf a)) (a_idx a) h.
Proof. reflexivity. Qed.

Lemma wstep_length f b h i : length (wstep f b h i) = length h.
Proof. apply set_nth_length. Qed.

Lemma wstep_buf_length f b h i c : length (nth c (wstep f b h i) []) = length (nth c h []).
Proof.
  unfold wstep. destruct (Nat.eq_dec b c) as [->|N].
  - destruct (lt_dec c (length h)) as [L|L].
    + rewrite set_nth_same by exact L. apply set_nth_length.
    + rewrite !nth_overflow; [reflexivity | lia | rewrite set_nth_length; lia].
  - now rewrite set_nth_other.
Qed.

Lemma wstep_read_same f b h i : b < length h -> i < length (nth b h []) -> read_at (wstep f b h i) b i = f (read_at h b i).
Proof. intros Hb Hi. unfold wstep, read_at at 1. rewrite set_nth_same by exact Hb. now rewrite set_nth_same. Qed.

Lemma wstep_read_other f b h i c j : (b <> c \/ i <> j) -> read_at (wstep f b h i) c j = read_at h c j.
Proof.
  intros H. unfold wstep, read_at at 1. destruct (Nat.eq_dec b c) as [->|N].
  - destruct H as [H|H]; [easy|]. destruct (lt_dec c (length h)) as [L|L].
    + rewrite set_nth_same by exact L. now rewrite set_nth_other.
    + rewrite (nth_overflow (set_nth _ _ _)) by (rewrite set_nth_length; lia). unfold read_at. now rewrite (nth_overflow h) by lia.
  - now rewrite set_nth_other.
Qed.

Lemma wfold_length f b ix h : length (fold_left (wstep f b) ix h) = length h.
Proof. revert h. induction ix as [|i t IH]; intros h; cbn; [reflexivity|]. now rewrite IH, wstep_length. Qed.

Lemma wfold_buf_length f b ix h c : length (nth c (fold_left (wstep f b) ix h) []) = length (nth c h []).
Proof. revert h. induction ix as [|i t IH]; intros h; cbn; [reflexivity|]. now rewrite IH, wstep_buf_length. Qed.

Lemma wfold_read_other f b ix h c j : (b <> c \/ ~ In j ix) -> read_at (fold_left (wstep f b) ix h) c j = read_at h c j.
Proof.
  revert h. induction ix as [|i t IH]; intros h H; [reflexivity|]. cbn [fold_left].
  rewrite IH; [apply wstep_read_other|]; (destruct H as [H|H]; [now left|right]); [intros ->; apply H; now left|].
  intros X. apply H. now right.
Qed.

Lemma wfold_read_same f b ix h j : b < length h -> NoDup ix -> (forall i, In i ix -> i < length (nth b h [])) -> In j ix ->
  read_at (fold_left (wstep f b) ix h) b j = f (read_at h b j).
Proof.
  revert h. induction ix as [|i t IH]; intros h Hb N V I; [easy|]. cbn [fold_left]. inversion N as [|x y N1 N2]; subst.
  destruct I as [->|I].
  - rewrite wfold_read_other by (now right). apply wstep_read_same; [exact Hb | apply V; now left].
  - rewrite IH; [|rewrite wstep_length; exact Hb | exact N2 | intros k Hk; rewrite wstep_buf_length; apply V; now right | exact I].
    f_equal. apply wstep_read_other. right. intros ->. exact (N1 I).
Qed.

Lemma write_map_read f h a : InMemory h a -> read (write_map f h a) a = map f (read h a).
Proof.
  intros [H1 [H2 H3]]. unfold read. rewrite map_map. apply map_ext_in. intros i Hi. rewrite write_map_fold.
  now apply wfold_read_same.
Qed.

Lemma write_map_apart f h a b : Apart a b -> read (write_map f h a) b = read h b.
Proof.
  intros A. unfold read. apply map_ext_in. intros i Hi. rewrite write_map_fold. apply wfold_read_other.
  destruct A as [A|A]; [now left | right; intros X; exact (A i X Hi)].
Qed.

Lemma write_map_in_memory f h a b : InMemory h b -> InMemory (write_map f h a) b.
Proof.
  intros [H1 [H2 H3]]. rewrite write_map_fold. split; [now rewrite wfold_length|]. split; [exact H2|].
  intros i Hi. rewrite wfold_buf_length. exact (H3 i Hi).
Qed.

(** * Conversion *)

Section Conv.
Variable tbl : Z -> option cfu.

(** The result of a conversion: the array [a1] in [h1]; arrays apart from [a] are as
    before, all arrays stay in memory, and arrays apart from [a] are apart from [a1]. *)
Record Step (h : heap) (a : arr) (h1 : heap) (a1 : arr) : Prop := {
  st_mem : forall b, InMemory h b -> InMemory h1 b;
  st_new : InMemory h1 a1;
  st_apart : forall b, InMemory h b -> Apart a b -> Apart a1 b;
  st_read : forall b, InMemory h b -> Apart a b -> read h1 b = read h b }.

Lemma alloc_apart h l b c : InMemory h c -> Apart (snd (alloc h l b)) c.
Proof. intros [H _]. left. cbn. lia. Qed.

Lemma step_alloc h a l b : Step h a (fst (alloc h l b)) (snd (alloc h l b)).
Proof.
  constructor; intros; [now apply alloc_in_memory | apply alloc_new_in_memory | now apply alloc_apart | now apply read_alloc_old].
Qed.

Lemma step_refl h a : InMemory h a -> Step h a h a.
Proof. intros H. now constructor. Qed.

Lemma step_write f h a : InMemory h a -> Step h a (write_map f h a) a.
Proof.
  intros H. constructor; intros; [now apply write_map_in_memory | now apply write_map_in_memory | assumption | now apply write_map_apart].
Qed.

Lemma step_trans h a h1 a1 h2 a2 : Step h a h1 a1 -> Step h1 a1 h2 a2 -> Step h a h2 a2.
Proof.
  intros S1 S2. constructor.
  - intros b B. exact (st_mem _ _ _ _ S2 _ (st_mem _ _ _ _ S1 _ B)).
  - exact (st_new _ _ _ _ S2).
  - intros b B A. exact (st_apart _ _ _ _ S2 _ (st_mem _ _ _ _ S1 _ B) (st_apart _ _ _ _ S1 _ B A)).
  - intros b B A. rewrite (st_read _ _ _ _ S2 _ (st_mem _ _ _ _ S1 _ B) (st_apart _ _ _ _ S1 _ B A)). exact (st_read _ _ _ _ S1 _ B A).
Qed.

Lemma conformed_ok bk h a s t su du : GoodTable tbl -> InMemory h a -> tbl s = Some su -> tbl t = Some du -> u_dim su = u_dim du ->
  exists h1 a1, get_conformed_units tbl bk h a s t = Ok (h1, a1) /\ SameQuantities su du (read h a) (read h1 a1) /\ Step h a h1 a1.
Proof.
  intros G M Es Et D. unfold get_conformed_units. rewrite Es, Et. unfold convertible. rewrite D, Z.eqb_refl.
  pose proof (G t du Et) as N. destruct (cfu_eqb su du) eqn:E.
  - exists h, a. split; [reflexivity|]. split; [now apply same_eq | now apply step_refl].
  - assert (A : exists h1 a1, Ok (alloc h (map (lib_convert su du) (read h a)) false) = Ok (h1, a1) /\
        SameQuantities su du (read h a) (read h1 a1) /\ Step h a h1 a1).
    { do 2 eexists. split; [reflexivity|].
      split; [|apply (step_alloc h a (map (lib_convert su du) (read h a)) false)].
      pose proof (read_alloc h (map (lib_convert su du) (read h a)) false) as R. cbn [alloc fst snd] in R. rewrite R.
      now apply same_map. }
    destruct bk; [exact A|]. destruct (a_int a); [exact A|].
    do 2 eexists. split; [reflexivity|]. split; [rewrite write_map_read by exact M; now apply same_map | now apply step_write].
Qed.

Lemma set_value_ok h v a : InMemory h a -> v_dt v <> DInt ->
  exists h1 v1, set_value h v a = (h1, v1) /\ read h1 (v_arr v1) = read h a /\ v_mask v1 = v_mask v /\ v_units v1 = v_units v /\
    Step h a h1 (v_arr v1).
Proof.
  intros M N. unfold set_value. destruct (v_dt v) eqn:D; [| |easy].
  - do 2 eexists. split; [destruct (a_int a); reflexivity|]. cbn. repeat (split; [reflexivity|]). now apply step_refl.
  - destruct (a_int a).
    + destruct (alloc h (read h a) false) as [h' a'] eqn:E. do 2 eexists. split; [reflexivity|]. cbn [v_arr v_mask v_units].
      pose proof (read_alloc h (read h a) false) as R. pose proof (step_alloc h a (read h a) false) as T. rewrite E in R, T.
      cbn [fst snd] in R, T. auto.
    + do 2 eexists. split; [reflexivity|]. cbn. repeat (split; [reflexivity|]). now apply step_refl.
Qed.

(** A failing conversion changes no array. *)
Lemma conformed_err bk h a s t e : get_conformed_units tbl bk h a s t = Err e -> e = ValueError.
Proof.
  unfold get_conformed_units. destruct (tbl s), (tbl t); try congruence. destruct (convertible _ _); [|congruence].
  destruct (cfu_eqb _ _); [congruence|]. destruct bk; [congruence|]. destruct (a_int a); congruence.
Qed.

Lemma conformed_ok_inv bk h a s t r : get_conformed_units tbl bk h a s t = Ok r ->
  exists su du, tbl s = Some su /\ tbl t = Some du /\ u_dim su = u_dim du.
Proof.
  unfold get_conformed_units. destruct (tbl s) as [su|], (tbl t) as [du|]; try congruence.
  destruct (convertible su du) eqn:E; [|congruence]. intros _. exists su, du. unfold convertible in E. apply Z.eqb_eq in E. auto.
Qed.

Lemma conformed_total bk h a s t su du : tbl s = Some su -> tbl t = Some du -> u_dim su = u_dim du ->
  exists h1 a1, get_conformed_units tbl bk h a s t = Ok (h1, a1).
Proof.
  intros Es Et D. unfold get_conformed_units. rewrite Es, Et. unfold convertible. rewrite D, Z.eqb_refl.
  destruct (cfu_eqb su du); [eauto|]. destruct bk; [do 2 eexists; reflexivity|]. destruct (a_int a); do 2 eexists; reflexivity.
Qed.

(** ** One variable *)

Definition VStep h v h1 v1 := Step h (v_arr v) h1 (v_arr v1).

Lemma conform_bounds_ok bk h v t s su du : GoodTable tbl -> InMemory h (v_arr v) -> v_dt v <> DInt ->
  tbl s = Some su -> tbl t = Some du -> u_dim su = u_dim du ->
  exists h1 v1, conform_bounds tbl bk h v t (Some s) = (h1, v1, Ok tt) /\ SaysTheSame su du t h v h1 v1 /\
    Step h (v_arr v) h1 (v_arr v1).
Proof.
  intros G M N Es Et D. unfold conform_bounds. cbn [source_units].
  destruct (conformed_ok bk h (v_arr v) s t su du G M Es Et D) as [h1 [a1 [E [Sq St]]]]. rewrite E.
  destruct (set_value_ok h1 (with_units v (Some t)) a1 (st_new _ _ _ _ St) N) as [h2 [v2 [Ev [Rv [Mv [Uv St2]]]]]]. rewrite Ev.
  do 2 eexists. split; [reflexivity|]. split; [|cbn [v_arr auto_dtype]; eapply step_trans; eauto].
  split; [cbn [v_arr auto_dtype]; rewrite Rv; exact Sq|]. split; [exact Mv | exact Uv].
Qed.

Lemma conform_bounds_auto bk h v t from h1 v1 : conform_bounds tbl bk h v t from = (h1, v1, Ok tt) -> v_dt v1 <> DInt.
Proof.
  unfold conform_bounds. destruct (source_units tbl v from) as [s|]; [|congruence].
  destruct (get_conformed_units tbl bk h (v_arr v) s t) as [[hh aa]|]; [|congruence].
  destruct (set_value hh (with_units v (Some t)) aa) as [h2 v2]. intros E. injection E as _ <-. cbn. congruence.
Qed.

Lemma source_ok v from s : FromUnits v from s -> (exists u, tbl s = Some u) -> source_units tbl (b_main v) from = Ok s.
Proof.
  intros [->|[-> E]] [u Eu]; unfold source_units; [destruct (v_units (b_main v)); reflexivity|].
  now rewrite E, Eu.
Qed.

Lemma conform_ok bk h v t from s su du : GoodTable tbl -> GoodBvar h v -> NotInt v -> FromUnits v from s ->
  tbl s = Some su -> tbl t = Some du -> u_dim su = u_dim du ->
  exists h' v', cfunits_conform tbl bk h v t from = (h', v', Ok tt) /\ BothSayTheSame su du t h v h' v' /\
    NotInt v' /\ GoodBvar h' v' /\ (forall c, InMemory h c -> InMemory h' c) /\
    (forall c, InMemory h c -> (forall a, In a (arrays_of v) -> Apart a c) ->
       read h' c = read h c /\ forall a, In a (arrays_of v') -> Apart a c).
Proof.
  intros G [Mem Ap] [N1 N2] F Es Et D. unfold cfunits_conform.
  rewrite (source_ok v from s F) by eauto.
  assert (M0 : InMemory h (v_arr (b_main v))) by (apply Mem; now left).
  destruct (conformed_ok bk h (v_arr (b_main v)) s t su du G M0 Es Et D) as [h1 [a1 [E [Sq St]]]]. rewrite E.
  destruct (set_value_ok h1 (b_main (set_units v t)) a1 (st_new _ _ _ _ St) N1) as [h2 [m2 [Em [Rm [Mm [Um St2]]]]]]. rewrite Em.
  pose proof (step_trans _ _ _ _ _ _ St St2) as T2.
  cbn [set_units b_bounds]. destruct (b_bounds v) as [b|] eqn:Eb.
  - assert (Mb : InMemory h (v_arr b)) by (apply Mem; unfold arrays_of; rewrite Eb; right; now left).
    specialize (Ap b eq_refl). specialize (N2 b eq_refl).
    destruct (conform_bounds_ok bk h2 (with_units b (Some t)) t s su du G (st_mem _ _ _ _ T2 _ Mb) N2 Es Et D) as [h3 [b3 [Eb3 [Sb Sb3]]]].
    rewrite Eb3. cbn [with_units v_arr] in Sb3.
    assert (Ap2 : Apart (v_arr b) (v_arr m2)).
    { destruct (st_apart _ _ _ _ T2 _ Mb Ap) as [X|X]; [left; congruence | right; firstorder]. }
    do 2 eexists. split; [reflexivity|]. split; [|split; [|split; [|split]]].
    + split; cbn [b_main b_bounds].
      * split; [|split]; cbn [auto_dtype v_arr v_mask v_units]; [|exact Mm|exact Um].
        rewrite (st_read _ _ _ _ Sb3); [rewrite Rm; exact Sq | exact (st_new _ _ _ _ T2) | exact Ap2].
      * rewrite Eb. destruct Sb as [Q1 [Q2 Q3]]. split; [|split]; [|exact Q2|exact Q3].
        cbn [with_units v_arr] in Q1. rewrite (st_read _ _ _ _ T2) in Q1; [exact Q1|exact Mb|exact Ap].
    + split; cbn [b_main b_bounds]; [cbn; congruence|]. intros b' X. injection X as <-.
      exact (conform_bounds_auto _ _ _ _ _ _ _ Eb3).
    + split.
      * intros a I. cbn [arrays_of b_main b_bounds auto_dtype v_arr] in I. destruct I as [<-|[<-|[]]].
        -- exact (st_mem _ _ _ _ Sb3 _ (st_new _ _ _ _ T2)).
        -- exact (st_new _ _ _ _ Sb3).
      * intros b' X. cbn [b_bounds] in X. injection X as <-. cbn [b_main auto_dtype v_arr].
        destruct (st_apart _ _ _ _ Sb3 _ (st_new _ _ _ _ T2) Ap2) as [X|X]; [left; congruence | right; firstorder].
    + intros c C. exact (st_mem _ _ _ _ Sb3 _ (st_mem _ _ _ _ T2 _ C)).
    + intros c C A. assert (A1 : Apart (v_arr (b_main v)) c) by (apply A; now left).
      assert (A2 : Apart (v_arr b) c) by (apply A; unfold arrays_of; rewrite Eb; right; now left).
      pose proof (st_mem _ _ _ _ T2 _ C) as C2. split.
      * rewrite (st_read _ _ _ _ Sb3 _ C2 A2). exact (st_read _ _ _ _ T2 _ C A1).
      * intros a I. cbn [arrays_of b_main b_bounds auto_dtype v_arr] in I. destruct I as [<-|[<-|[]]].
        -- exact (st_apart _ _ _ _ T2 _ C A1).
        -- exact (st_apart _ _ _ _ Sb3 _ C2 A2).
  - do 2 eexists. split; [reflexivity|]. split; [|split; [|split; [|split]]].
    + split; cbn [b_main b_bounds]; [|now rewrite Eb].
      split; [|split]; cbn [auto_dtype v_arr v_mask v_units]; [rewrite Rm; exact Sq|exact Mm|exact Um].
    + split; cbn; congruence.
    + split; [|cbn; congruence]. intros a I. cbn [arrays_of b_main b_bounds auto_dtype v_arr] in I. destruct I as [<-|[]].
      exact (st_new _ _ _ _ T2).
    + intros c C. exact (st_mem _ _ _ _ T2 _ C).
    + intros c C A. assert (A1 : Apart (v_arr (b_main v)) c) by (apply A; now left). split.
      * exact (st_read _ _ _ _ T2 _ C A1).
      * intros a I. cbn [arrays_of b_main b_bounds auto_dtype v_arr] in I. destruct I as [<-|[]].
        exact (st_apart _ _ _ _ T2 _ C A1).
Qed.

End Conv.
