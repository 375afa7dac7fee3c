(** Failing conversions, conversions of several variables, integers, and requests. *)
From Coq Require Import QArith Qround Lqa Lia.
From Verif Require Import Py Lib UnitsModel UnitsSpec UnitsProofs.
Local Close Scope Q_scope.
Local Open Scope nat_scope.

Section More.
Variable tbl : Z -> option cfu.

(** * Failures *)

(** What a failing call leaves: the memory and, but for the units, the variable. *)
Lemma conform_err bk h v t from h' v' e : cfunits_conform tbl bk h v t from = (h', v', Err e) ->
  h' = h /\ (v' = v \/ v' = set_units v t).
Proof.
  unfold cfunits_conform. destruct (source_units tbl (b_main v) from) as [s|] eqn:Es; [|intros E; injection E as <- <- <-; auto].
  destruct (get_conformed_units tbl bk h (v_arr (b_main v)) s t) as [[h1 a1]|] eqn:Ec; [|intros E; injection E as <- <- <-; auto].
  destruct (set_value h1 (b_main (set_units v t)) a1) as [h2 m2]. cbn [set_units b_bounds].
  destruct (b_bounds v) as [b|]; [|congruence].
  destruct (conformed_ok_inv tbl _ _ _ _ _ _ Ec) as [su [du [E1 [E2 D]]]].
  unfold conform_bounds. cbn [source_units].
  destruct (conformed_total tbl bk h2 (v_arr (with_units b (Some t))) s t su du E1 E2 D) as [h3 [a3 E3]]. rewrite E3.
  destruct (set_value h3 _ a3). congruence.
Qed.

Lemma conform_no_source bk h v t from e : source_units tbl (b_main v) from = Err e ->
  cfunits_conform tbl bk h v t from = (h, v, Err e).
Proof. intros E. unfold cfunits_conform. now rewrite E. Qed.

Lemma conform_not_convertible bk h v t from s : FromUnits v from s -> (exists su, tbl s = Some su /\ forall du, tbl t = Some du -> u_dim su <> u_dim du) ->
  cfunits_conform tbl bk h v t from = (h, set_units v t, Err ValueError).
Proof.
  intros F [su [Es H]]. unfold cfunits_conform. rewrite (source_ok tbl v from s F) by eauto.
  unfold get_conformed_units. rewrite Es. destruct (tbl t) as [du|] eqn:Et; [|reflexivity].
  unfold convertible. destruct (u_dim su =? u_dim du)%Z eqn:E; [|reflexivity]. apply Z.eqb_eq in E. now destruct (H du eq_refl).
Qed.

(** * Several variables *)

Lemma says_read s d t h v h' v' h0 h1 : read h0 (v_arr v) = read h (v_arr v) -> read h1 (v_arr v') = read h' (v_arr v') ->
  SaysTheSame s d t h v h' v' -> SaysTheSame s d t h0 v h1 v'.
Proof. intros E1 E2 [Q R]. split; [rewrite E1, E2; exact Q | exact R]. Qed.

Lemma converted_read t h v h' v' h0 h1 : (forall a, In a (arrays_of v) -> read h0 a = read h a) ->
  (forall a, In a (arrays_of v') -> read h1 a = read h' a) -> Converted tbl t h v h' v' -> Converted tbl t h0 v h1 v'.
Proof.
  intros E1 E2 [s [su [du [U [A [B [M X]]]]]]]. exists s, su, du. split; [exact U|]. split; [exact A|]. split; [exact B|].
  unfold arrays_of in E1, E2. split.
  - apply (says_read _ _ _ h _ h'); [apply E1; now left | apply E2; now left | exact M].
  - destruct (b_bounds v), (b_bounds v'); try exact X.
    apply (says_read _ _ _ h _ h'); [apply E1; right; now left | apply E2; right; now left | exact X].
Qed.

Lemma apart_sym a b : Apart a b -> Apart b a.
Proof. intros [H|H]; [left; congruence | right; firstorder]. Qed.

Lemma all_ok bk vs : forall h t, GoodTable tbl -> AllApart vs ->
  (forall v, In v vs -> GoodBvar h v /\ NotInt v /\ CanConform tbl t v) ->
  exists h' vs', conform_all tbl bk h vs t = (h', vs', Ok tt) /\ Forall2 (fun v v' => Converted tbl t h v h' v') vs vs' /\
    (forall c, InMemory h c -> InMemory h' c) /\
    (forall c, InMemory h c -> (forall v a, In v vs -> In a (arrays_of v) -> Apart a c) -> read h' c = read h c).
Proof.
  induction vs as [|v t IH]; intros h k G A H.
  { exists h, []. split; [reflexivity|]. split; [constructor|]. auto. }
  destruct A as [A1 A2]. destruct (H v (or_introl eq_refl)) as [Gv [Nv [s [su [du [Us [Es [Ek D]]]]]]]].
  destruct (conform_ok tbl bk h v k None s su du G Gv Nv (or_intror (conj eq_refl Us)) Es Ek D) as
    [h1 [v1 [E1 [B1 [N1 [G1 [M1 P1]]]]]]].
  cbn [conform_all]. rewrite E1.
  assert (Apv : forall w a, In w t -> In a (arrays_of w) -> forall x, In x (arrays_of v) -> Apart x a) by (intros; eapply A1; eauto).
  assert (Keep : forall w a, In w t -> In a (arrays_of w) -> read h1 a = read h a).
  { intros w a Iw Ia. apply P1; [|exact (Apv w a Iw Ia)]. destruct (H w (or_intror Iw)) as [[Mw _] _]. now apply Mw. }
  destruct (IH h1 k G A2) as [h2 [t2 [E2 [F2 [M2 P2]]]]].
  { intros w Iw. destruct (H w (or_intror Iw)) as [[Mw Aw] [Nw Cw]]. split; [|auto]. split; [|exact Aw].
    intros a Ia. apply M1. now apply Mw. }
  rewrite E2. exists h2, (v1 :: t2). split; [reflexivity|]. split; [|split].
  - constructor.
    + apply (converted_read k h v h1 v1); [reflexivity| |exists s, su, du; auto].
      intros a Ia. apply P2; [destruct G1 as [Mg _]; now apply Mg|].
      intros w b Iw Ib. apply apart_sym.
      destruct (H w (or_intror Iw)) as [[Mw _] _].
      exact (proj2 (P1 b (Mw b Ib) (Apv w b Iw Ib)) a Ia).
    + clear - F2 Keep. revert Keep. induction F2 as [|w w' l l' X F IHF]; intros K; constructor.
      * apply (converted_read k h1 w h2 w'); [|reflexivity|exact X]. intros a Ia. symmetry. apply (K w a); [now left | exact Ia].
      * apply IHF. intros u a Iu. apply K. now right.
  - intros c C. apply M2, M1, C.
  - intros c C X. rewrite P2; [|now apply M1|intros w a Iw Ia; exact (X w a (or_intror Iw) Ia)].
    apply P1; [exact C|]. intros a Ia. exact (X v a (or_introl eq_refl) Ia).
Qed.

(** With [cf_units] no array in memory changes. *)
Lemma conformed_cf h a s t h1 a1 : get_conformed_units tbl CfUnits h a s t = Ok (h1, a1) -> exists l, h1 = h ++ l.
Proof.
  unfold get_conformed_units. destruct (tbl s), (tbl t); try congruence. destruct (convertible _ _); [|congruence].
  destruct (cfu_eqb _ _); intros E; injection E as <- <-; [exists []; now rewrite app_nil_r | now eexists].
Qed.

Lemma set_value_grows h v a : exists l, fst (set_value h v a) = h ++ l.
Proof.
  unfold set_value. destruct (v_dt v), (a_int a); cbn; try (exists []; now rewrite app_nil_r); now eexists.
Qed.

Lemma conform_bounds_cf h v t from : exists l, fst (fst (conform_bounds tbl CfUnits h v t from)) = h ++ l.
Proof.
  unfold conform_bounds. destruct (source_units tbl v from) as [s|]; [|exists []; now rewrite app_nil_r].
  destruct (get_conformed_units tbl CfUnits h (v_arr v) s t) as [[h1 a1]|] eqn:E; [|exists []; now rewrite app_nil_r].
  destruct (conformed_cf _ _ _ _ _ _ E) as [l1 ->]. destruct (set_value_grows (h ++ l1) (with_units v (Some t)) a1) as [l2 E2].
  destruct (set_value (h ++ l1) (with_units v (Some t)) a1) as [h2 v2]. cbn [fst] in *. rewrite E2. exists (l1 ++ l2). now rewrite app_assoc.
Qed.

Lemma conform_cf h v t from : exists l, fst (fst (cfunits_conform tbl CfUnits h v t from)) = h ++ l.
Proof.
  unfold cfunits_conform. destruct (source_units tbl (b_main v) from) as [s|]; [|exists []; now rewrite app_nil_r].
  destruct (get_conformed_units tbl CfUnits h (v_arr (b_main v)) s t) as [[h1 a1]|] eqn:E; [|exists []; now rewrite app_nil_r].
  destruct (conformed_cf _ _ _ _ _ _ E) as [l1 ->]. destruct (set_value_grows (h ++ l1) (b_main (set_units v t)) a1) as [l2 E2].
  destruct (set_value (h ++ l1) (b_main (set_units v t)) a1) as [h2 m2]. cbn [fst] in E2. subst h2.
  destruct (b_bounds (set_units v t)) as [b|]; [|exists (l1 ++ l2); cbn; now rewrite app_assoc].
  destruct (conform_bounds_cf ((h ++ l1) ++ l2) b t (Some s)) as [l3 E3].
  destruct (conform_bounds tbl CfUnits ((h ++ l1) ++ l2) b t (Some s)) as [[h3 b3] r]. cbn [fst] in *. subst h3.
  exists (l1 ++ l2 ++ l3). now rewrite !app_assoc.
Qed.

Lemma grows_read h l a : InMemory h a -> read (h ++ l) a = read h a.
Proof. intros [H _]. unfold read. apply map_ext. intros i. unfold read_at. now rewrite app_nth1. Qed.

Lemma grows_memory h l a : InMemory h a -> InMemory (h ++ l) a.
Proof.
  intros [H1 [H2 H3]]. split; [rewrite app_length; lia|]. split; [exact H2|]. intros i Hi. rewrite app_nth1 by exact H1. exact (H3 i Hi).
Qed.

Lemma all_cf vs : forall h t, exists l, fst (fst (conform_all tbl CfUnits h vs t)) = h ++ l.
Proof.
  induction vs as [|v w IH]; intros h t; cbn [conform_all]; [exists []; now rewrite app_nil_r|].
  destruct (conform_cf h v t None) as [l E]. destruct (cfunits_conform tbl CfUnits h v t None) as [[h1 v1] [u|e]]; cbn [fst] in *; subst h1.
  - destruct (IH (h ++ l) t) as [l2 E2]. destruct (conform_all tbl CfUnits (h ++ l) w t) as [[h2 t2] r]. cbn [fst] in *. subst h2.
    exists (l ++ l2). now rewrite app_assoc.
  - now exists l.
Qed.

(** With [cf_units] the variables may share memory in any way. *)
Lemma all_ok_cf vs : forall h t, GoodTable tbl ->
  (forall v, In v vs -> GoodBvar h v /\ NotInt v /\ CanConform tbl t v) ->
  exists h' vs', conform_all tbl CfUnits h vs t = (h', vs', Ok tt) /\ Forall2 (fun v v' => Converted tbl t h v h' v') vs vs'.
Proof.
  induction vs as [|v w IH]; intros h k G H; [exists h, []; split; [reflexivity | constructor]|].
  destruct (H v (or_introl eq_refl)) as [Gv [Nv [s [su [du [Us [Es [Ek D]]]]]]]].
  destruct (conform_ok tbl CfUnits h v k None s su du G Gv Nv (or_intror (conj eq_refl Us)) Es Ek D) as
    [h1 [v1 [E1 [B1 [N1 [G1 [M1 P1]]]]]]].
  cbn [conform_all]. rewrite E1. destruct (conform_cf h v k None) as [l1 L1]. rewrite E1 in L1. cbn [fst] in L1. subst h1.
  destruct (IH (h ++ l1) k G) as [h2 [t2 [E2 F2]]].
  { intros u Iu. destruct (H u (or_intror Iu)) as [[Mu Au] [Nu Cu]]. split; [|auto]. split; [|exact Au].
    intros a Ia. apply grows_memory. now apply Mu. }
  rewrite E2. destruct (all_cf w (h ++ l1) k) as [l2 L2]. rewrite E2 in L2. cbn [fst] in L2. subst h2.
  exists ((h ++ l1) ++ l2), (v1 :: t2). split; [reflexivity|]. constructor.
  - apply (converted_read k h v (h ++ l1) v1); [reflexivity| |exists s, su, du; auto].
    intros a Ia. apply grows_read. destruct G1 as [Mg _]. now apply Mg.
  - assert (K : forall u a, In u w -> In a (arrays_of u) -> read (h ++ l1) a = read h a).
    { intros u a Iu Ia. destruct (H u (or_intror Iu)) as [[Mu _] _]. apply grows_read. now apply Mu. }
    clear - F2 K. revert K. induction F2 as [|x x' l l' X F IHF]; intros K; constructor.
    + apply (converted_read k (h ++ l1) x ((h ++ l1) ++ l2) x'); [|reflexivity|exact X]. intros a Ia. symmetry. apply (K x a); [now left | exact Ia].
    + apply IHF. intros u a Iu. apply K. now right.
Qed.

(** * Integers *)

Lemma set_value_int h v a : v_dt v = DInt -> a_int a = false ->
  exists h1 v1, set_value h v a = (h1, v1) /\ read h1 (v_arr v1) = map qtrunc (read h a) /\ v_units v1 = v_units v.
Proof.
  intros E F. unfold set_value. rewrite E, F. destruct (alloc h (map qtrunc (read h a)) true) as [h' a'] eqn:A.
  do 2 eexists. split; [reflexivity|]. cbn. split; [|reflexivity].
  pose proof (read_alloc h (map qtrunc (read h a)) true) as R. rewrite A in R. exact R.
Qed.

Lemma conform_int h v t from s su du : GoodTable tbl -> InMemory h (v_arr (b_main v)) -> b_bounds v = None ->
  v_dt (b_main v) = DInt -> FromUnits v from s -> tbl s = Some su -> tbl t = Some du -> u_dim su = u_dim du -> cfu_eqb su du = false ->
  exists h' v' l, cfunits_conform tbl CfUnits h v t from = (h', v', Ok tt) /\
    SameQuantities su du (read h (v_arr (b_main v))) l /\ read h' (v_arr (b_main v')) = map qtrunc l /\ v_units (b_main v') = Some t.
Proof.
  intros G M B I F Es Et D Ne. unfold cfunits_conform. rewrite (source_ok tbl v from s F) by eauto.
  unfold get_conformed_units. rewrite Es, Et, Ne. unfold convertible. rewrite D, Z.eqb_refl.
  destruct (alloc h (map (lib_convert su du) (read h (v_arr (b_main v)))) false) as [h1 a1] eqn:A.
  pose proof (read_alloc h (map (lib_convert su du) (read h (v_arr (b_main v)))) false) as R. rewrite A in R. cbn [fst snd] in R.
  destruct (set_value_int h1 (b_main (set_units v t)) a1) as [h2 [m2 [E2 [R2 U2]]]]; [exact I | unfold alloc in A; now injection A as <- <- |].
  rewrite E2. cbn [set_units b_bounds]. rewrite B. do 3 eexists. split; [reflexivity|]. split; [|split].
  - apply same_map. exact (G t du Et).
  - cbn [b_main auto_dtype v_arr]. rewrite R2. now rewrite R.
  - exact U2.
Qed.

(** * Requests *)

Lemma validate_equiv_ok : forall us l,
  Forall2 (fun u c => exists s d b c' su du, u = Some (s, b) /\ c = Some (d, c') /\ tbl s = Some su /\ tbl d = Some du /\ u_dim su = u_dim du) us l ->
  validate_unit_equivalence tbl us l = Ok tt.
Proof.
  intros us l H. induction H as [|u c us l X H IH]; [reflexivity|].
  destruct X as [s [d [b [c' [su [du [-> [-> [Es [Ed D]]]]]]]]]]. cbn [validate_unit_equivalence].
  unfold obj_of; cbn [option_map fst get_units_object]. rewrite Es, Ed. cbn [bind].
  unfold get_are_units_equivalent. cbn [length pairs flat_map app forallb Nat.ltb Nat.leb convertible_o fst snd].
  unfold convertible. rewrite D, Z.eqb_refl. cbn [bind andb]. exact IH.
Qed.

Lemma validate_units_ok l : (forall x, In x l -> exists k b, x = Some (k, b) /\ tbl k <> None) -> validate_units tbl l = Ok tt.
Proof.
  intros H. unfold validate_units. assert (E : exists r, map_res (obj_of tbl) l = Ok r); [|destruct E as [r ->]; reflexivity].
  induction l as [|x t IH]; [now exists []|]. destruct (H x (or_introl eq_refl)) as [k [b [-> N]]].
  destruct IH as [r E]; [intros y Iy; apply H; now right|]. cbn [map_res]. unfold obj_of at 1; cbn [option_map fst get_units_object].
  destruct (tbl k); [|easy]. cbn [bind]. rewrite E. cbn [bind]. now eexists.
Qed.

Lemma validate_units_bad l x : In x l -> (exists k b, x = Some (k, b) /\ tbl k = None) -> validate_units tbl l = Err AttributeError.
Proof.
  intros I [k [b [E N]]]. unfold validate_units. assert (X : exists e, map_res (obj_of tbl) l = Err e); [|destruct X as [e ->]; reflexivity].
  induction l as [|y t IH]; [easy|]. cbn [map_res]. destruct I as [->|I].
  - subst x. unfold obj_of at 1; cbn [option_map fst get_units_object]. rewrite N. now eexists.
  - destruct (obj_of tbl y); [|now eexists]. destruct (IH I) as [e ->]. now eexists.
Qed.

Lemma set_conform_ok use vs x l : given x l -> Forall2 (AskedFor tbl) vs l ->
  exists vs', set_request_conform tbl use vs x = Ok vs' /\
    Forall2 (fun p r' => r_name r' = r_name (fst p) /\ r_units r' = r_units (fst p) /\ r_conform r' = snd p) (combine vs l) vs'.
Proof.
  intros G F. assert (Gt : get_tuple_uarg x = Ok l) by (destruct x as [|k [|]|l']; cbn in G |- *; [easy|easy|now subst|now subst]).
  assert (Len : length l = length vs) by (clear - F; induction F; cbn; congruence).
  assert (V : validate_units tbl l = Ok tt).
  { apply validate_units_ok. clear - F. induction F as [|r c vs l X F IH]; [easy|]. intros y [<-|I]; [|now apply IH].
    destruct X as [s [d [su [du [_ [-> [_ [Ed _]]]]]]]]. exists d, false. split; [reflexivity | congruence]. }
  assert (Ut : units_tuple vs = Ok (map r_units vs)).
  { unfold units_tuple. destruct F as [|r c vs l X F]; [reflexivity|]. destruct X as [s [d [su [du [Eu _]]]]]. cbn [map]. rewrite Eu.
    destruct (map r_units vs); reflexivity. }
  assert (Eq : validate_unit_equivalence tbl (map r_units vs) l = Ok tt).
  { apply validate_equiv_ok. clear - F. induction F as [|r c vs l X F IH]; [constructor|]. cbn [map]. constructor; [|exact IH].
    destruct X as [s [d [su [du [-> [-> [Es [Ed D]]]]]]]]. exists s, d, false, false, su, du. auto. }
  assert (R : set_request_conform tbl use vs x = Ok (map (fun p => {| r_name := r_name (fst p); r_units := r_units (fst p); r_conform := snd p |}) (combine vs l))).
  { unfold set_request_conform. rewrite Gt. cbn [bind]. rewrite Len, Nat.eqb_refl. cbn [negb].
    rewrite Ut. destruct x as [|k o|l']; [easy| |]; (destruct use; [rewrite V|]; cbn [bind]; rewrite Eq; reflexivity). }
  rewrite R. eexists. split; [reflexivity|]. clear. induction (combine vs l) as [|p t IH]; cbn [map]; constructor; [cbn; auto | exact IH].
Qed.

Lemma set_units_ok use vs x l : given x l -> length l = length vs -> (forall y, In y l -> exists k b, y = Some (k, b) /\ tbl k <> None) ->
  exists vs', set_request_units tbl use vs x = Ok vs' /\
    Forall2 (fun p r' => r_name r' = r_name (fst p) /\ r_units r' = snd p /\ r_conform r' = r_conform (fst p)) (combine vs l) vs'.
Proof.
  intros G Len H. assert (Gt : get_tuple_uarg x = Ok l) by (destruct x as [|k [|]|l']; cbn in G |- *; [easy|easy|now subst|now subst]).
  pose proof (validate_units_ok l H) as V.
  assert (R : set_request_units tbl use vs x = Ok (map (fun p => {| r_name := r_name (fst p); r_units := snd p; r_conform := r_conform (fst p) |}) (combine vs l))).
  { unfold set_request_units. rewrite Gt. cbn [bind]. rewrite Len, Nat.eqb_refl. cbn [negb].
    destruct x as [|k o|l']; [easy| |]; (destruct use; [rewrite V|]; reflexivity). }
  rewrite R. eexists. split; [reflexivity|]. clear. induction (combine vs l) as [|p t IH]; cbn [map]; constructor; [cbn; auto | exact IH].
Qed.

(** Loading a variable. *)
Lemma load_ok bk h r dt a m s d su du : GoodTable tbl -> InMemory h a -> dt <> DInt ->
  r_units r = Some (s, false) -> r_conform r = Some (d, false) -> tbl s = Some su -> tbl d = Some du -> u_dim su = u_dim du ->
  exists h' v', load tbl bk h r dt a m = (h', v', Ok tt) /\ SameQuantities su du (read h a) (read h' (v_arr (b_main v'))) /\
    v_mask (b_main v') = m /\ v_units (b_main v') = Some d.
Proof.
  intros G M N Eu Ec Es Ed D. unfold load. rewrite Eu, Ec.
  set (v := {| b_main := {| v_units := Some d; v_dt := dt; v_arr := a; v_mask := m |}; b_bounds := None |}).
  destruct (conform_ok tbl bk h v d (Some s) s su du G) as [h' [v' [E [[B _] _]]]]; auto.
  - split; [intros c [<-|[]]; exact M | cbn; congruence].
  - split; [exact N | cbn; congruence].
  - now left.
  - exists h', v'. split; [exact E|]. destruct B as [B1 [B2 B3]]. auto.
Qed.

(** Requests that are refused. *)
Lemma conform_length use vs l : length l <> length vs -> set_request_conform tbl use vs (USeq l) = Err RequestValidationError.
Proof. intros N. unfold set_request_conform. cbn [get_tuple_uarg bind]. apply Nat.eqb_neq in N. now rewrite N. Qed.

Lemma units_length use vs l : length l <> length vs -> set_request_units tbl use vs (USeq l) = Err RequestValidationError.
Proof. intros N. unfold set_request_units. cbn [get_tuple_uarg bind]. apply Nat.eqb_neq in N. now rewrite N. Qed.

Lemma equiv_bad : forall us l i s d su du b c,
  nth_error us i = Some (Some (s, b)) -> nth_error l i = Some (Some (d, c)) -> tbl s = Some su -> tbl d = Some du -> u_dim su <> u_dim du ->
  (forall x, In x us \/ In x l -> match x with Some (k, _) => tbl k <> None | None => True end) ->
  validate_unit_equivalence tbl us l = Err RequestValidationError.
Proof.
  induction us as [|u us IH]; intros l i s d su du b c H1 H2 Es Ed D K; [destruct i; discriminate|].
  destruct l as [|y l]; [destruct i; discriminate|]. cbn [validate_unit_equivalence].
  assert (Ku : exists uo, obj_of tbl u = Ok uo).
  { unfold obj_of, get_units_object. destruct u as [[k kb]|]; cbn; [|eauto]. specialize (K (Some (k, kb)) (or_introl (or_introl eq_refl))). cbn in K. destruct (tbl k); [eauto|easy]. }
  assert (Ky : exists yo, obj_of tbl y = Ok yo).
  { unfold obj_of, get_units_object. destruct y as [[k kb]|]; cbn; [|eauto]. specialize (K (Some (k, kb)) (or_intror (or_introl eq_refl))). cbn in K. destruct (tbl k); [eauto|easy]. }
  destruct Ku as [uo Eu], Ky as [yo Ey]. rewrite Eu, Ey. cbn [bind]. destruct i as [|i].
  - cbn in H1, H2. injection H1 as ->. injection H2 as ->. unfold obj_of in Eu, Ey; cbn in Eu, Ey. rewrite Es in Eu. rewrite Ed in Ey.
    injection Eu as <-. injection Ey as <-.
    unfold get_are_units_equivalent. cbn [length pairs flat_map app forallb Nat.ltb Nat.leb convertible_o fst snd].
    unfold convertible. apply Z.eqb_neq in D. rewrite D. reflexivity.
  - cbn in H1, H2. destruct (get_are_units_equivalent [uo; yo]) as [e|e] eqn:Ee; [|unfold get_are_units_equivalent in Ee; cbn in Ee; congruence].
    cbn [bind]. destruct e; [|reflexivity]. eapply IH; eauto. intros x [I|I]; apply K; [left|right]; now right.
Qed.

End More.
