(** Proofs about time variables. *)
From Coq Require Import QArith Qround Lqa Lia.
From Verif Require Import Py Lib UnitsModel UnitsSpec UnitsProofs.
Local Close Scope Q_scope.
Local Open Scope nat_scope.

Section Time.
Variable tbl : Z -> option cfu.

Lemma picks_map {A B} (f : A -> B) ix l : picks ix (map f l) = map f (picks ix l).
Proof.
  unfold picks. induction ix as [|i t IH]; [reflexivity|]. cbn [flat_map]. rewrite map_app, <- IH. f_equal.
  rewrite nth_error_map. now destruct (nth_error l i).
Qed.

Lemma Forall2_nth_error {A B} (R : A -> B -> Prop) l l' : Forall2 R l l' -> forall i,
  match nth_error l i, nth_error l' i with Some a, Some b => R a b | None, None => True | _, _ => False end.
Proof. intros F. induction F as [|a b l l' X F IH]; intros [|i]; cbn; auto. apply IH. Qed.

Lemma picks_Forall2 {A B} (R : A -> B -> Prop) ix l l' : Forall2 R l l' -> Forall2 R (picks ix l) (picks ix l').
Proof.
  intros F. unfold picks. induction ix as [|i t IH]; [constructor|]. cbn [flat_map]. apply Forall2_app; [|exact IH].
  pose proof (Forall2_nth_error R l l' F i) as X. destruct (nth_error l i), (nth_error l' i); try easy; repeat constructor; exact X.
Qed.

Lemma picks_length {A} ix (l : list A) : (forall i, In i ix -> i < length l) -> length (picks ix l) = length ix.
Proof.
  intros H. unfold picks. induction ix as [|i t IH]; [reflexivity|]. cbn [flat_map]. rewrite app_length, IH by (intros j J; apply H; now right).
  specialize (H i (or_introl eq_refl)). apply nth_error_Some in H. destruct (nth_error l i); [reflexivity|easy].
Qed.

Lemma picks_in {A} ix (l : list A) x : In x (picks ix l) -> In x l.
Proof.
  unfold picks. intros I. apply in_flat_map in I. destruct I as [i [_ I]]. destruct (nth_error l i) eqn:E; [|easy].
  destruct I as [<-|[]]. now apply nth_error_In in E.
Qed.

Lemma uniform_picks ix l : Uniform l -> Uniform (picks ix l).
Proof. intros [H|H]; [left|right]; intros x I; apply H; now apply picks_in in I. Qed.

Lemma allnum_map l : AllNum (map Num l).
Proof. intros x I. apply in_map_iff in I. destruct I as [q [<- _]]. eauto. Qed.

(** ** Reading *)

Lemma is_dates_num l : AllNum l -> is_dates l = false.
Proof. intros H. destruct l as [|x t]; [reflexivity|]. destruct (H x (or_introl eq_refl)) as [q ->]. reflexivity. Qed.

Lemma is_dates_dat l : l <> [] -> AllDat l -> is_dates l = true.
Proof. intros N H. destruct l as [|x t]; [easy|]. destruct (H x (or_introl eq_refl)) as [q ->]. reflexivity. Qed.

Lemma num_of_nums u l : AllNum l -> Forall2 (number_of u) l (map raw l).
Proof.
  intros H. induction l as [|x t IH]; constructor; [|apply IH; intros y Y; apply H; now right].
  destruct (H x (or_introl eq_refl)) as [q ->]. unfold number_of. cbn. reflexivity.
Qed.

Lemma num_of_dates u l : ~ (u_scale u == 0)%Q -> AllDat l -> Forall2 (number_of u) l (map (of_base u) (map raw l)).
Proof.
  intros N H. induction l as [|x t IH]; constructor; [|apply IH; intros y Y; apply H; now right].
  destruct (H x (or_introl eq_refl)) as [q ->]. unfold number_of. cbn. now apply to_of.
Qed.

Lemma dat_of_nums u l : AllNum l -> Forall2 (date_of u) l (map (fun q => inject_Z (Qfloor (to_base u q))) (map raw l)).
Proof.
  intros H. induction l as [|x t IH]; constructor; [|apply IH; intros y Y; apply H; now right].
  destruct (H x (or_introl eq_refl)) as [q ->]. reflexivity.
Qed.

Lemma dat_of_dates u l : AllDat l -> Forall2 (date_of u) l (map raw l).
Proof.
  intros H. induction l as [|x t IH]; constructor; [|apply IH; intros y Y; apply H; now right].
  destruct (H x (or_introl eq_refl)) as [q ->]. reflexivity.
Qed.

(** What has been read agrees with the value, the mask and the units. *)
Definition NumOK (v : tvar) : Prop := forall l m, t_num v = Some (l, m) ->
  m = t_mask v /\ exists u, tbl (t_units v) = Some u /\ Forall2 (number_of u) (t_val v) l.
Definition DatOK (v : tvar) : Prop := forall l m, t_dat v = Some (l, m) ->
  m = t_mask v /\ exists u, tbl (t_units v) = Some u /\ Forall2 (date_of u) (t_val v) l.

Definition Inv (D : Z) (n : nat) (v : tvar) : Prop :=
  n <> 0 /\ length (t_val v) = n /\ length (t_mask v) = n /\ Uniform (t_val v) /\
  (exists u, tbl (t_units v) = Some u /\ u_dim u = D) /\ NumOK v /\ DatOK v.

Definition Unread (v : tvar) : Prop := t_num v = None /\ t_dat v = None.

Lemma numtime_ok D n v : GoodTable tbl -> Inv D n v ->
  exists v1 l, value_numtime tbl v = (v1, Ok (l, t_mask v)) /\ t_num v1 = Some (l, t_mask v) /\
    t_val v1 = t_val v /\ t_units v1 = t_units v /\ t_mask v1 = t_mask v /\ t_dat v1 = t_dat v /\
    exists u, tbl (t_units v) = Some u /\ Forall2 (number_of u) (t_val v) l.
Proof.
  intros G [Nn [L1 [L2 [U [[u [Eu Du]] [NO DO]]]]]]. unfold value_numtime. destruct (t_num v) as [[l m]|] eqn:E.
  - destruct (NO l m E) as [-> X]. exists v, l. auto 10.
  - destruct (t_val v) as [|x t] eqn:Ev; [cbn in L1; congruence|]. destruct U as [U|U].
    + rewrite (is_dates_num _ U). do 2 eexists. split; [reflexivity|]. cbn [with_num t_num t_val t_units t_mask t_dat].
      repeat (split; [auto|]). exists u. split; [exact Eu || reflexivity|]. now apply num_of_nums.
    + rewrite is_dates_dat by (easy || exact U). unfold get_numtime. rewrite Eu. do 2 eexists. split; [reflexivity|].
      cbn [with_num t_num t_val t_units t_mask t_dat]. repeat (split; [auto|]). exists u. split; [exact Eu || reflexivity|].
      apply num_of_dates; [exact (G _ _ Eu) | exact U].
Qed.

Lemma datetime_ok D n v : Inv D n v ->
  exists v1 l, value_datetime tbl v = (v1, Ok (l, t_mask v)) /\ t_dat v1 = Some (l, t_mask v) /\
    t_val v1 = t_val v /\ t_units v1 = t_units v /\ t_mask v1 = t_mask v /\ t_num v1 = t_num v /\
    exists u, tbl (t_units v) = Some u /\ Forall2 (date_of u) (t_val v) l.
Proof.
  intros [Nn [L1 [L2 [U [[u [Eu Du]] [NO DO]]]]]]. unfold value_datetime. destruct (t_dat v) as [[l m]|] eqn:E.
  - destruct (DO l m E) as [-> X]. exists v, l. auto 10.
  - destruct (t_val v) as [|x t] eqn:Ev; [cbn in L1; congruence|]. destruct U as [U|U].
    + rewrite (is_dates_num _ U). unfold get_datetime. rewrite Eu. do 2 eexists. split; [reflexivity|].
      cbn [with_dat t_num t_val t_units t_mask t_dat]. repeat (split; [auto|]). exists u. split; [exact Eu || reflexivity|]. now apply dat_of_nums.
    + rewrite is_dates_dat by (easy || exact U). do 2 eexists. split; [reflexivity|].
      cbn [with_dat t_num t_val t_units t_mask t_dat]. repeat (split; [auto|]). exists u. split; [exact Eu || reflexivity|].
      now apply dat_of_dates.
Qed.

(** ** Conversion *)

Lemma convert_list_ok l s d su du : tbl s = Some su -> tbl d = Some du -> u_dim su = u_dim du ->
  convert_list tbl l s d = Ok (map (lib_convert su du) l).
Proof. intros E1 E2 D. unfold convert_list. rewrite E1, E2. unfold convertible. now rewrite D, Z.eqb_refl. Qed.

Lemma instants_converted u d l l' : ~ (u_scale d == 0)%Q -> Forall2 (number_of u) l l' ->
  Forall2 Qeq (instants d (map Num (map (lib_convert u d) l'))) (instants u l).
Proof.
  intros N F. unfold instants. induction F as [|x q l l' X F IH]; cbn [map]; constructor; [|exact IH].
  cbn [instant]. rewrite <- convert_same by exact N. exact X.
Qed.

Lemma t_conform_ok D n v to : GoodTable tbl -> Inv D n v -> (exists d, tbl to = Some d /\ u_dim d = D) ->
  exists v', t_conform tbl v to = (v', Ok tt) /\ t_units v' = to /\ t_mask v' = t_mask v /\ Inv D n v' /\ Unread v' /\
    exists u d, tbl (t_units v) = Some u /\ tbl to = Some d /\ Forall2 Qeq (instants d (t_val v')) (instants u (t_val v)).
Proof.
  intros G I [d [Ed Dd]]. pose proof I as [Nn [L1 [L2 [U [[u [Eu Du]] _]]]]].
  unfold t_conform, t_conform_from. rewrite Eu.
  destruct (numtime_ok D n v G I) as [v1 [l [E [_ [Ev [Eun [Em [_ [u' [Eu' F]]]]]]]]]]. rewrite E.
  rewrite Eu in Eu'. injection Eu' as <-.
  rewrite (convert_list_ok l (t_units v) to u d Eu Ed) by congruence. eexists. split; [reflexivity|].
  cbn [t_conformed t_set_units t_units t_mask t_val t_num t_dat].
  assert (Ll : length l = length (t_val v)) by (clear - F; induction F; cbn; congruence).
  split; [reflexivity|]. split; [reflexivity|]. split; [|split; [split; reflexivity|]].
  - split; [exact Nn|]. cbn. rewrite !map_length. split; [congruence|]. split; [exact L2|]. split; [left; apply allnum_map|].
    split; [exists d; auto|]. split; intros a b X; discriminate X.
  - exists u, d. split; [exact Eu || reflexivity|]. split; [exact Ed || reflexivity|]. apply instants_converted; [exact (G _ _ Ed) | exact F].
Qed.

Lemma num_ok_set v k : t_num v = None -> forall x, NumOK {| t_units := k; t_val := x; t_mask := t_mask v; t_num := t_num v; t_dat := t_dat v |}.
Proof. intros E x l m H. cbn in H. congruence. Qed.

Lemma run_inv D os : forall v n rd, GoodTable tbl -> Inv D n v -> (rd = false -> Unread v) -> Orderly tbl D rd n os ->
  exists n', Inv D n' (t_run tbl v os).
Proof.
  induction os as [|o os IH]; intros v n rd G I R O; [now exists n|]. unfold t_run. cbn [fold_left]. fold (t_run tbl (t_step tbl v o) os).
  destruct o; cbn [Orderly] in O; cbn [t_step].
  - apply (IH _ n true); auto; [|discriminate]. destruct (numtime_ok D n v G I) as [v1 [l [E [N1 [Ev [Eu [Em [Ed X]]]]]]]]. rewrite E. cbn [fst].
    destruct I as [Nn [L1 [L2 [U [H [NO DO]]]]]]. unfold Inv, NumOK, DatOK in *. rewrite Ev, Em, Eu, N1, Ed.
    repeat (split; [assumption|]). split; [|exact DO]. intros l' m' Y. injection Y as <- <-. split; [reflexivity|]. exact X.
  - apply (IH _ n true); auto; [|discriminate]. destruct (datetime_ok D n v I) as [v1 [l [E [N1 [Ev [Eu [Em [Ed X]]]]]]]]. rewrite E. cbn [fst].
    destruct I as [Nn [L1 [L2 [U [H [NO DO]]]]]]. unfold Inv, NumOK, DatOK in *. rewrite Ev, Em, Eu, N1, Ed.
    repeat (split; [assumption|]). intros l' m' Y. injection Y as <- <-. split; [reflexivity|]. exact X.
  - destruct O as [-> [[u [Eu Du]] O]]. specialize (R eq_refl). destruct R as [R1 R2]. apply (IH _ n false); auto; [|intros _; split; assumption].
    destruct I as [Nn [L1 [L2 [U [H [NO DO]]]]]]. unfold Inv, NumOK, DatOK in *. cbn. rewrite R1, R2.
    repeat (split; [assumption|]). split; [exists u; auto|]. split; intros a b X; discriminate X.
  - destruct O as [-> [Ll [Ul O]]]. specialize (R eq_refl). destruct R as [R1 R2]. apply (IH _ n false); auto; [|intros _; split; assumption].
    destruct I as [Nn [L1 [L2 [U [H [NO DO]]]]]]. unfold Inv, NumOK, DatOK in *. cbn. rewrite R1, R2.
    repeat (split; [assumption|]). split; intros a b X; discriminate X.
  - destruct O as [-> [Lm O]]. specialize (R eq_refl). destruct R as [R1 R2]. apply (IH _ n false); auto; [|intros _; split; assumption].
    destruct I as [Nn [L1 [L2 [U [H [NO DO]]]]]]. unfold Inv, NumOK, DatOK in *. cbn. rewrite R1, R2.
    repeat (split; [assumption|]). split; intros a b X; discriminate X.
  - destruct O as [Nix [Vix O]]. apply (IH _ (length ix) rd); auto.
    + destruct I as [Nn [L1 [L2 [U [H [NO DO]]]]]]. unfold Inv, NumOK, DatOK in *. cbn.
      split; [destruct ix; [easy|cbn; congruence]|]. split; [apply picks_length; now rewrite L1|]. split; [apply picks_length; now rewrite L2|].
      split; [now apply uniform_picks|]. split; [exact H|]. split.
      * destruct (t_num v) as [[l m]|]; cbn; [|discriminate]. intros l' m' Y. injection Y as <- <-. destruct (NO l m eq_refl) as [-> [u [Eu F]]].
        split; [reflexivity|]. exists u. split; [exact Eu || reflexivity|]. now apply picks_Forall2.
      * destruct (t_dat v) as [[l m]|]; cbn; [|discriminate]. intros l' m' Y. injection Y as <- <-. destruct (DO l m eq_refl) as [-> [u [Eu F]]].
        split; [reflexivity|]. exists u. split; [exact Eu || reflexivity|]. now apply picks_Forall2.
    + intros E. destruct (R E) as [R1 R2]. split; cbn; [now rewrite R1 | now rewrite R2].
  - destruct O as [Hk O]. destruct (t_conform_ok D n v to G I Hk) as [v' [E [_ [_ [I' [R' _]]]]]]. rewrite E. cbn [fst].
    apply (IH _ n false); auto.
Qed.

Lemma fresh_inv D v : FreshTime tbl D v -> Inv D (length (t_val v)) v /\ Unread v.
Proof.
  intros [N [L [U [E1 [E2 H]]]]]. split; [|split; assumption]. split; [destruct (t_val v); [easy|cbn; congruence]|].
  split; [reflexivity|]. split; [exact L|]. split; [exact U|]. split; [exact H|]. split; intros a b X; congruence.
Qed.

(** ** With bounds *)

Lemma conform_from_ok D n v to from f d : GoodTable tbl -> Inv D n v -> t_units v = from -> tbl from = Some f -> tbl to = Some d -> u_dim f = u_dim d ->
  exists v', t_conform_from tbl v to from = (v', Ok tt) /\ t_units v' = to /\ t_mask v' = t_mask v /\
    Forall2 Qeq (instants d (t_val v')) (instants f (t_val v)).
Proof.
  intros G I Ef Eft Ed Dm. unfold t_conform_from.
  destruct (numtime_ok D n v G I) as [v1 [l [E [_ [Ev [Eun [Em [_ [u' [Eu' F]]]]]]]]]]. rewrite E.
  rewrite Ef, Eft in Eu'. injection Eu' as <-.
  rewrite (convert_list_ok l from to f d Eft Ed Dm). eexists. split; [reflexivity|].
  split; [reflexivity|]. split; [reflexivity|]. cbn. apply instants_converted; [exact (G _ _ Ed) | exact F].
Qed.

(** Setting the units does not matter to numbers, or once the numbers have been read. *)
Definition Settled (v : tvar) : Prop := AllNum (t_val v) \/ t_num v <> None.

Lemma numtime_set_units v k : Settled v -> t_val v <> [] ->
  exists v1 r, value_numtime tbl v = (v1, Ok r) /\ value_numtime tbl (t_set_units v k) = (t_set_units v1 k, Ok r).
Proof.
  intros H N. unfold value_numtime. cbn [t_set_units t_num t_val t_units t_mask].
  destruct (t_num v) as [c|] eqn:E; [exists v, c; split; [reflexivity|reflexivity]|].
  destruct H as [H|H]; [|easy]. destruct (t_val v) as [|x t] eqn:Ev; [easy|]. rewrite (is_dates_num _ H).
  do 2 eexists. split; [reflexivity|]. unfold with_num, t_set_units. cbn. reflexivity.
Qed.

Lemma tb_conform_ok D n k v b to : GoodTable tbl -> Inv D n v -> Inv D k b -> t_units b = t_units v -> Settled b ->
  (exists d, tbl to = Some d /\ u_dim d = D) ->
  exists v' b' u d, tb_conform tbl v b to = (v', b', Ok tt) /\ tbl (t_units v) = Some u /\ tbl to = Some d /\
    t_units v' = to /\ t_units b' = to /\ t_mask v' = t_mask v /\ t_mask b' = t_mask b /\
    Forall2 Qeq (instants d (t_val v')) (instants u (t_val v)) /\ Forall2 Qeq (instants d (t_val b')) (instants u (t_val b)).
Proof.
  intros G Iv Ib Eb Sb [d [Ed Dd]]. pose proof Iv as [_ [_ [_ [_ [[u [Eu Du]] _]]]]].
  unfold tb_conform. rewrite Eu.
  destruct (numtime_ok D n v G Iv) as [v1 [l [E [_ [Ev [Eun [Em [_ [u' [Eu' F]]]]]]]]]]. rewrite E.
  rewrite Eu in Eu'. injection Eu' as <-.
  rewrite (convert_list_ok l (t_units v) to u d Eu Ed) by congruence.
  assert (Nb : t_val b <> []) by (destruct Ib as [Nk [Lb _]]; destruct (t_val b); [cbn in Lb; congruence|easy]).
  destruct (numtime_set_units b to Sb Nb) as [b1 [r [E1 E2]]].
  destruct (conform_from_ok D k b to (t_units v) u d G Ib Eb Eu Ed) as [b' [Eb' [Ub [Mb Fb]]]]; [congruence|].
  unfold t_conform_from in Eb' |- *. rewrite E1 in Eb'. rewrite E2. destruct r as [lb mb].
  destruct (convert_list tbl lb (t_units v) to) as [lb'|]; [|discriminate]. injection Eb' as <-.
  do 4 eexists. split; [reflexivity|]. split; [reflexivity|]. split; [exact Ed || reflexivity|].
  cbn [t_conformed t_set_units t_units t_mask t_val] in *.
  split; [reflexivity|]. split; [reflexivity|]. split; [reflexivity|]. split; [exact Mb|].
  split; [|exact Fb]. apply instants_converted; [exact (G _ _ Ed) | exact F].
Qed.

(** Bounds that are dates not read before are moved. *)
Lemma tb_conform_dates D n v b to u d : GoodTable tbl -> Inv D n v -> AllDat (t_val b) -> t_val b <> [] -> t_num b = None ->
  tbl (t_units v) = Some u -> tbl to = Some d -> u_dim d = D ->
  exists v' b', tb_conform tbl v b to = (v', b', Ok tt) /\
    Forall2 Qeq (instants d (t_val b')) (map (fun s => to_base u (of_base d s)) (map raw (t_val b))).
Proof.
  intros G Iv Ab Nb Rb Eu Ed Dd. pose proof Iv as [_ [_ [_ [_ [[u0 [Eu0 Du]] _]]]]]. rewrite Eu in Eu0. injection Eu0 as <-.
  unfold tb_conform. rewrite Eu.
  destruct (numtime_ok D n v G Iv) as [v1 [l [E [_ [Ev [Eun [Em [_ [u' [Eu' F]]]]]]]]]]. rewrite E.
  rewrite (convert_list_ok l (t_units v) to u d Eu Ed) by congruence.
  unfold t_conform_from, value_numtime. cbn [t_set_units t_num t_val t_units t_mask]. rewrite Rb.
  destruct (t_val b) as [|x t] eqn:Evb; [easy|]. rewrite (is_dates_dat _ Nb Ab). unfold get_numtime. rewrite Ed.
  rewrite (convert_list_ok _ (t_units v) to u d Eu Ed) by congruence.
  do 2 eexists. split; [reflexivity|]. cbn [t_conformed t_val t_set_units]. unfold instants. rewrite !map_map.
  clear - G Ed. generalize (x :: t). intros l0. induction l0 as [|y s IH]; cbn [map]; constructor; [|exact IH].
  cbn [instant]. rewrite <- convert_same by exact (G _ _ Ed). reflexivity.
Qed.

(** ** Numbers once read *)

Lemma numtime_cached v c : t_num v = Some c -> value_numtime tbl v = (v, Ok c).
Proof. intros E. unfold value_numtime. now rewrite E. Qed.

Lemma plain_keeps o v c : plain o -> t_num v = Some c -> t_num (t_step tbl v o) = Some c.
Proof.
  intros P E. destruct o; cbn in *; try easy; try (rewrite (numtime_cached v c E); exact E).
  unfold value_datetime. destruct (t_dat v); [exact E|]. destruct (t_val v); [exact E|].
  destruct (is_dates _); [exact E|]. destruct (get_datetime tbl (t_units v) _); exact E.
Qed.

Lemma plain_keeps_dat o v c : plain o -> t_dat v = Some c -> t_dat (t_step tbl v o) = Some c.
Proof.
  intros P E. destruct o; cbn in *; try easy.
  - unfold value_numtime. destruct (t_num v); [exact E|]. destruct (t_val v); [exact E|].
    destruct (is_dates _); [|exact E]. destruct (get_numtime tbl (t_units v) _); exact E.
  - unfold value_datetime. now rewrite E.
Qed.

Lemma plain_run os v c : Forall plain os -> t_num v = Some c -> t_num (t_run tbl v os) = Some c.
Proof.
  intros P. revert v. induction P as [|o os Po P IH]; intros v E; [exact E|]. unfold t_run. cbn [fold_left].
  apply IH. now apply plain_keeps.
Qed.

Lemma plain_run_dat os v c : Forall plain os -> t_dat v = Some c -> t_dat (t_run tbl v os) = Some c.
Proof.
  intros P. revert v. induction P as [|o os Po P IH]; intros v E; [exact E|]. unfold t_run. cbn [fold_left].
  apply IH. now apply plain_keeps_dat.
Qed.

Lemma numtime_caches v v1 r : value_numtime tbl v = (v1, Ok r) -> t_num v1 = Some r.
Proof.
  unfold value_numtime. destruct (t_num v) eqn:E; [intros X; injection X as <- <-; exact E|].
  destruct (t_val v); [discriminate|]. destruct (is_dates _).
  - destruct (get_numtime tbl (t_units v) _); [|discriminate]. intros X. injection X as <- <-. reflexivity.
  - intros X. injection X as <- <-. reflexivity.
Qed.

Lemma datetime_caches v v1 r : value_datetime tbl v = (v1, Ok r) -> t_dat v1 = Some r.
Proof.
  unfold value_datetime. destruct (t_dat v) eqn:E; [intros X; injection X as <- <-; exact E|].
  destruct (t_val v); [discriminate|]. destruct (is_dates _).
  - intros X. injection X as <- <-. reflexivity.
  - destruct (get_datetime tbl (t_units v) _); [|discriminate]. intros X. injection X as <- <-. reflexivity.
Qed.

End Time.
