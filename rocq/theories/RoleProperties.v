From Verif Require Import Py Lib RoleModel RoleSpec RoleProofs.
From Coq Require Import String Lia.
Local Open Scope string_scope.

(** ** C158: setting the coordinate variables of a field *)

(** Setting a variable makes it the coordinate variable.  The variable that was one before leaves
    the field with its bounds, the variables of the collection of the new one come with it, and
    everything else stays: other variables, the other entries of the dimension map, and each other
    coordinate whose variable neither leaves nor has the name of one that comes. *)
Theorem C158_set_partial : forall f key x,
  WellFormed f -> Family x -> fa_placed x = true ->
  exists f', set_property f key (Some x) true true = (f', None) /\
    coordinate f' key = Some (fa_var x) /\
    (forall v, In v (fa_family x) -> HasVar f' (fv_name v) = Some v) /\
    (forall n, ~ FamilyName x n -> Leaves f key (Some x) n -> HasVar f' n = None) /\
    (forall n, ~ FamilyName x n -> ~ Leaves f key (Some x) n -> HasVar f' n = HasVar f n) /\
    (forall key' c, key' <> key -> coordinate f key' = Some c ->
       ~ FamilyName x (fv_name c) -> ~ Leaves f key (Some x) (fv_name c) -> coordinate f' key' = Some c) /\
    ff_crs f' = ff_crs f.
Proof.
  intros f key x W [F1 F2] P. destruct (set_ok f key x W P) as [d [E [A B]]]. eexists. split; [exact E|].
  unfold coordinate at 1, HasVar, FamilyName. cbn [ff_vars ff_map ff_crs]. rewrite get_set, String.eqb_refl.
  split; [apply B; assumption|]. split; [intros v Hv; apply B; assumption|].
  split; [intros n H1 H2; rewrite A by exact H1; rewrite (proj2 (leaving_spec _ _ _ _) H2); reflexivity|].
  assert (forall n, ~ In n (map fv_name (fa_family x)) -> ~ Leaves f key (Some x) n -> dget String.eqb d n = dget String.eqb (ff_vars f) n) as K.
  { intros n H1 H2. rewrite A by exact H1. destruct (leaving f key (Some x) n) eqn:L; [apply leaving_spec in L; contradiction|reflexivity]. }
  split; [exact K|]. split; [|reflexivity].
  intros key' c Hk Hc H1 H2. unfold coordinate in *. cbn [ff_vars ff_map]. rewrite get_set.
  destruct (sspec key' key) as [|_]; [contradiction|]. destruct (dget String.eqb (ff_map f) key') as [[n b]|]; [|discriminate].
  destruct W as [_ [_ [W3 _]]]. pose proof (W3 n c Hc) as N. rewrite N in *. rewrite K by assumption. exact Hc.
Qed.
Print Assumptions C158_set_partial.

(** Setting None removes the coordinate variable and its bounds, and nothing else. *)
Theorem C158_none : forall f key force, WellFormed f ->
  exists f', set_property f key None force true = (f', None) /\
    coordinate f' key = None /\
    (forall n, Leaves f key None n -> HasVar f' n = None) /\
    (forall n, ~ Leaves f key None n -> HasVar f' n = HasVar f n) /\
    (forall key' c, key' <> key -> coordinate f key' = Some c -> ~ Leaves f key None (fv_name c) -> coordinate f' key' = Some c) /\
    ff_crs f' = ff_crs f.
Proof.
  intros f key force W. destruct (unset_ok f key force W) as [d [E A]]. eexists. split; [exact E|].
  assert (forall n, ~ Leaves f key None n -> dget String.eqb d n = dget String.eqb (ff_vars f) n) as K.
  { intros n H. rewrite A. destruct (leaving f key None n) eqn:L; [apply leaving_spec in L; contradiction|reflexivity]. }
  destruct W as [_ [W2 [W3 _]]]. split; [|split; [|split; [exact K|split; [|reflexivity]]]].
  - unfold coordinate. cbn [ff_vars ff_map]. rewrite get_removed by exact W2. rewrite String.eqb_refl. reflexivity.
  - intros n H. unfold HasVar. cbn [ff_vars]. rewrite A. rewrite (proj2 (leaving_spec _ _ _ _) H). reflexivity.
  - intros key' c Hk Hc Hl. unfold coordinate in Hc |- *. cbn [ff_vars ff_map]. rewrite get_removed by exact W2.
    destruct (sspec key' key) as [|_]; [contradiction|]. destruct (dget String.eqb (ff_map f) key') as [[n b]|]; [|discriminate].
    pose proof (W3 n c Hc) as N. rewrite N in *. rewrite K by exact Hl. exact Hc.
Qed.
Print Assumptions C158_none.

(** Without adding, no variable changes; the coordinate is whatever has the name. *)
Theorem C158_not_added : forall f key x force, fa_placed x = true ->
  exists f', set_property f key (Some x) force false = (f', None) /\ ff_vars f' = ff_vars f /\
    coordinate f' key = HasVar f (fv_name (fa_var x)).
Proof.
  intros f key x force P. unfold set_property. exists (with_map f (dset String.eqb (ff_map f) key (fv_name (fa_var x), fv_bounds (fa_var x)))).
  split.
  - destruct (dget String.eqb (ff_map f) key) as [[n b]|]; [|cbn [map_variable]; rewrite P; reflexivity].
    destruct (dget String.eqb (ff_vars f) n) as [c|]; cbn [andb map_variable]; rewrite P; reflexivity.
  - split; [reflexivity|]. unfold coordinate, HasVar. cbn [with_map ff_map ff_vars]. rewrite get_set, String.eqb_refl. reflexivity.
Qed.
Print Assumptions C158_not_added.

(** A field with time and its bounds, x, y and a data variable, and a time with bounds from a
    collection with one more variable. *)
Definition example_field : ffield :=
  mkffield [("time", mkfvar 1 "time" (Some "time_bnds")); ("time_bnds", mkfvar 2 "time_bnds" None);
            ("x", mkfvar 3 "x" None); ("y", mkfvar 4 "y" None); ("tas", mkfvar 5 "tas" None); ("crs", mkfvar 6 "crs" None)]
           [("time", ("time", Some "time_bnds")); ("x", ("x", None)); ("y", ("y", None))] (Some "crs").
Definition example_time : farg :=
  mkfarg (mkfvar 11 "t" (Some "tb")) [mkfvar 11 "t" (Some "tb"); mkfvar 12 "tb" None; mkfvar 13 "y" None] true.
Lemma example_field_wf : WellFormed example_field.
Proof.
  split; [cbn; repeat constructor; cbn; intuition discriminate|]. split; [cbn; repeat constructor; cbn; intuition discriminate|].
  split; intros n v; cbn [example_field ff_vars dget];
    repeat (match goal with |- context [String.eqb n ?s] => destruct (sspec n s) as [->|_] end); try discriminate.
  1-6: intros [= <-]; reflexivity.
  all: intros b [= <-] Hb; try discriminate Hb. injection Hb as <-. eexists. reflexivity.
Qed.
Example C158_set_case : WellFormed example_field /\ Family example_time /\
  set_property example_field "time" (Some example_time) true true =
    (mkffield [("x", mkfvar 3 "x" None); ("y", mkfvar 13 "y" None); ("tas", mkfvar 5 "tas" None); ("crs", mkfvar 6 "crs" None);
               ("t", mkfvar 11 "t" (Some "tb")); ("tb", mkfvar 12 "tb" None)]
              [("time", ("t", Some "tb")); ("x", ("x", None)); ("y", ("y", None))] (Some "crs"), None) /\
  Leaves example_field "time" (Some example_time) "time_bnds".
Proof.
  split; [exact example_field_wf|]. split; [split; [cbn; repeat constructor; cbn; intuition discriminate|left; reflexivity]|].
  split; [reflexivity|]. apply leaving_spec. reflexivity.
Qed.

(** A variable of the collection of the new one replaces the coordinate of another entry that has
    its name: setting the time of a field to that of another field replaces x and y too. *)
Theorem C158_family_refuted : forall f key key' x c v,
  WellFormed f -> Family x -> fa_placed x = true -> key' <> key ->
  coordinate f key' = Some c -> In v (fa_family x) -> fv_name v = fv_name c ->
  exists f', set_property f key (Some x) true true = (f', None) /\ coordinate f' key' = Some v.
Proof.
  intros f key key' x c v W [F1 F2] P Hk Hc Hv N. destruct (set_ok f key x W P) as [d [E [A B]]]. eexists. split; [exact E|].
  unfold coordinate in *. cbn [ff_vars ff_map]. rewrite get_set. destruct (sspec key' key) as [|_]; [contradiction|].
  destruct (dget String.eqb (ff_map f) key') as [[n b]|]; [|discriminate].
  destruct W as [_ [_ [W3 _]]]. rewrite <- (W3 n c Hc), <- N. apply B; assumption.
Qed.
Print Assumptions C158_family_refuted.

Example C158_family_case :
  coordinate example_field "y" = Some (mkfvar 4 "y" None) /\
  coordinate (fst (set_property example_field "time" (Some example_time) true true)) "y" = Some (mkfvar 13 "y" None).
Proof. split; reflexivity. Qed.

(** When two entries have the same variable (level and its representation), setting one of them
    to another variable takes the other away. *)
Theorem C158_shared_refuted : forall f key key' x c,
  WellFormed f -> Family x -> fa_placed x = true -> key' <> key ->
  coordinate f key = Some c -> coordinate f key' = Some c ->
  fv_id (fa_var x) <> fv_id c -> ~ FamilyName x (fv_name c) ->
  exists f', set_property f key (Some x) true true = (f', None) /\ coordinate f' key' = None.
Proof.
  intros f key key' x c W [F1 F2] P Hk Hc Hc' Hi Hn. destruct (set_ok f key x W P) as [d [E [A B]]]. eexists. split; [exact E|].
  assert (leaving f key (Some x) (fv_name c) = true) as L.
  { apply leaving_spec. exists c. split; [exact Hc|]. split; [intros y [= <-]; exact Hi|left; reflexivity]. }
  unfold coordinate in Hc' |- *. cbn [ff_vars ff_map]. rewrite get_set. destruct (sspec key' key) as [|_]; [contradiction|].
  destruct (dget String.eqb (ff_map f) key') as [[n b]|]; [|discriminate].
  destruct W as [_ [_ [W3 _]]]. rewrite <- (W3 n c Hc'), A by exact Hn. rewrite L. reflexivity.
Qed.
Print Assumptions C158_shared_refuted.

Example C158_shared_case :
  let f := mkffield [("z", mkfvar 1 "z" None)] [("level", ("z", None)); ("level_repr", ("z", None))] None in
  let x := mkfarg (mkfvar 2 "lev" None) [mkfvar 2 "lev" None] true in
  coordinate f "level_repr" = Some (mkfvar 1 "z" None) /\
  coordinate (fst (set_property f "level" (Some x) true true)) "level_repr" = None.
Proof. split; reflexivity. Qed.

(** A variable that may not be added, as its name is in the field and [force] is off, raises an
    exception after the coordinate before was removed: the field has lost it. *)
Theorem C158_not_forced_refuted : forall f key v c b w,
  WellFormed f -> dget String.eqb (ff_map f) key = Some (fv_name c, b) -> coordinate f key = Some c -> fv_id v <> fv_id c ->
  fv_name v <> fv_name c -> fv_bounds c <> Some (fv_name v) -> HasVar f (fv_name v) = Some w ->
  exists f', set_property f key (Some (mkfarg v [v] true)) false true = (f', Some (Fails VariableInCollectionError)) /\
    coordinate f' key = None /\ HasVar f' (fv_name c) = None.
Proof.
  intros f key v c b w W M Hc Hi Hn Hb Hw. set (x := mkfarg v [v] true).
  destruct (leave_step f key (Some x) W) as [l [E G]]. exists (with_vars f l). unfold set_property. rewrite E.
  assert (leaving f key (Some x) (fv_name c) = true) as L.
  { apply leaving_spec. exists c. split; [exact Hc|]. split; [intros y [= <-]; exact Hi|left; reflexivity]. }
  assert (leaving f key (Some x) (fv_name v) = false) as L'.
  { destruct (leaving f key (Some x) (fv_name v)) eqn:K; [|reflexivity]. apply leaving_spec in K. destruct K as [c' [K1 [_ K2]]].
    rewrite Hc in K1. injection K1 as <-. destruct K2 as [K2|K2]; contradiction. }
  split.
  - cbn [x fa_family add_variables negb andb]. unfold dmem. cbn [with_vars ff_vars]. rewrite G, L'. unfold HasVar in Hw. rewrite Hw. reflexivity.
  - unfold coordinate, HasVar. cbn [with_vars ff_map ff_vars]. rewrite M, G, L. split; reflexivity.
Qed.
Print Assumptions C158_not_forced_refuted.

Example C158_not_forced_case :
  let r := set_property example_field "time" (Some (mkfarg (mkfvar 9 "tas" None) [mkfvar 9 "tas" None] true)) false true in
  snd r = Some (Fails VariableInCollectionError) /\ coordinate (fst r) "time" = None.
Proof. split; reflexivity. Qed.

(** The same for a variable of several dimensions without a dimension: it is added, the one
    before is gone, and the dimension map has the name of the one before. *)
Theorem C158_dimension_refuted : forall f key v c b, WellFormed f ->
  dget String.eqb (ff_map f) key = Some (fv_name c, b) -> coordinate f key = Some c -> fv_id v <> fv_id c -> fv_name v <> fv_name c ->
  exists f', set_property f key (Some (mkfarg v [v] false)) true true = (f', Some (Fails DimensionMapError)) /\
    coordinate f' key = None /\ HasVar f' (fv_name v) = Some v.
Proof.
  intros f key v c b W M Hc Hi Hn. set (x := mkfarg v [v] false).
  destruct (leave_step f key (Some x) W) as [l [E G]]. exists (with_vars f (dset String.eqb l (fv_name v) v)). unfold set_property. rewrite E.
  assert (leaving f key (Some x) (fv_name c) = true) as L.
  { apply leaving_spec. exists c. split; [exact Hc|]. split; [intros y [= <-]; exact Hi|left; reflexivity]. }
  split; [reflexivity|]. unfold coordinate, HasVar. cbn [with_vars ff_map ff_vars]. rewrite M, !get_set, String.eqb_refl, G, L.
  destruct (sspec (fv_name c) (fv_name v)) as [K|_]; [congruence|]. split; reflexivity.
Qed.
Print Assumptions C158_dimension_refuted.

Example C158_dimension_case :
  let r := set_property example_field "time" (Some (mkfarg (mkfvar 9 "t" None) [mkfvar 9 "t" None] false)) true true in
  snd r = Some (Fails DimensionMapError) /\ coordinate (fst r) "time" = None.
Proof. split; reflexivity. Qed.

(** ** C159: setting the coordinate system and the geometry of a field *)

(** Setting a coordinate system makes it that of the field, None removes it; the one before
    leaves, and all other variables stay. *)
Theorem C159_crs_partial : forall f value, WellFormed f -> read_crs f <> CrsRaises ->
  exists f', set_crs f value true true = (f', None) /\
    read_crs f' = match value with Some v => TheCrs v | None => NoCrs end /\
    (forall n, (forall v, value = Some v -> n <> fv_name v) -> (forall v, read_crs f = TheCrs v -> n <> fv_name v) -> HasVar f' n = HasVar f n) /\
    (forall v, read_crs f = TheCrs v -> (forall w, value = Some w -> fv_name w <> fv_name v) -> HasVar f' (fv_name v) = None) /\
    ff_map f' = ff_map f.
Proof.
  intros f value [W1 _] R. unfold set_crs. destruct (read_crs f) as [|old|] eqn:O; [| |contradiction].
  - destruct value as [v|].
    + cbn [add_variables negb andb]. eexists. split; [reflexivity|]. unfold read_crs, HasVar. cbn [with_crs with_vars ff_crs ff_vars ff_map].
      rewrite get_set, String.eqb_refl. split; [reflexivity|]. split; [|split; [discriminate|reflexivity]].
      intros n H1 _. rewrite get_set. destruct (sspec n (fv_name v)) as [->|_]; [exfalso; exact (H1 v eq_refl eq_refl)|reflexivity].
    + eexists. split; [reflexivity|]. split; [reflexivity|]. split; [reflexivity|]. split; [discriminate|reflexivity].
  - destruct value as [v|].
    + cbn [add_variables negb andb]. eexists. split; [reflexivity|]. unfold read_crs, HasVar. cbn [with_crs with_vars ff_crs ff_vars ff_map].
      rewrite get_set, String.eqb_refl. split; [reflexivity|]. split; [|split; [|reflexivity]].
      * intros n H1 H2. rewrite get_set. destruct (sspec n (fv_name v)) as [->|_]; [exfalso; exact (H1 v eq_refl eq_refl)|].
        rewrite get_removed by exact W1. destruct (sspec n (fv_name old)) as [->|_]; [exfalso; exact (H2 old eq_refl eq_refl)|reflexivity].
      * intros w [= <-] H. rewrite get_set. destruct (sspec (fv_name old) (fv_name v)) as [K|_]; [exfalso; exact (H v eq_refl (eq_sym K))|].
        rewrite get_removed by exact W1. rewrite String.eqb_refl. reflexivity.
    + eexists. split; [reflexivity|]. split; [reflexivity|]. unfold HasVar. cbn [with_crs with_vars ff_vars ff_map]. split; [|split; [|reflexivity]].
      * intros n _ H2. rewrite get_removed by exact W1. destruct (sspec n (fv_name old)) as [->|_]; [exfalso; exact (H2 old eq_refl eq_refl)|reflexivity].
      * intros w [= <-] _. rewrite get_removed by exact W1. rewrite String.eqb_refl. reflexivity.
Qed.
Print Assumptions C159_crs_partial.

Example C159_crs_case : read_crs example_field = TheCrs (mkfvar 6 "crs" None) /\
  read_crs (fst (set_crs example_field (Some (mkfvar 7 "sphere" None)) true true)) = TheCrs (mkfvar 7 "sphere" None).
Proof. split; reflexivity. Qed.

(** With [should_add=False], which is to leave the variables of the field alone, the coordinate
    system before is removed, and reading the coordinate system and setting another one raise an
    exception from then on. *)
Theorem C159_not_added_refuted : forall f old v force value should_add, WellFormed f ->
  read_crs f = TheCrs old -> (fv_name v = fv_name old \/ HasVar f (fv_name v) = None) ->
  exists f', set_crs f (Some v) force false = (f', None) /\ HasVar f' (fv_name old) = None /\
    read_crs f' = CrsRaises /\ set_crs f' value force should_add = (f', Some NotInCollection).
Proof.
  intros f old v force value should_add [W1 _] O H. unfold set_crs at 1. rewrite O. eexists. split; [reflexivity|].
  unfold HasVar in *. cbn [with_crs with_vars ff_vars]. rewrite get_removed by exact W1. rewrite String.eqb_refl. split; [reflexivity|].
  match goal with |- read_crs ?g = _ /\ _ => assert (read_crs g = CrsRaises) as R end.
  { unfold read_crs. cbn [with_crs with_vars ff_crs ff_vars]. rewrite get_removed by exact W1. destruct (sspec (fv_name v) (fv_name old)) as [_|N]; [reflexivity|].
    destruct H as [H|H]; [contradiction|]. rewrite H. reflexivity. }
  split; [exact R|]. unfold set_crs. rewrite R. reflexivity.
Qed.
Print Assumptions C159_not_added_refuted.

Example C159_not_added_case : read_crs (fst (set_crs example_field (Some (mkfvar 6 "crs" None)) true false)) = CrsRaises.
Proof. reflexivity. Qed.

(** A geometry that is set without an exception is the geometry of the field, and the name of its
    coordinate system is that of the field; on a field without a geometry before, the coordinate
    system is that of the geometry. *)
Theorem C159_geometry_partial : forall f x crs f', Family x ->
  set_geom f (Some x) crs true true = (f', None) ->
  coordinate f' "geom" = Some (fa_var x) /\ ff_crs f' = option_map fv_name crs /\
  (forall w, crs = Some w -> ~ FamilyName x (fv_name w) -> dget String.eqb (ff_map f) "geom" = None -> read_crs f' = TheCrs w).
Proof.
  intros f x crs f' F H. unfold set_geom in H. destruct (set_crs f crs true true) as [f1 [e|]] eqn:E; [discriminate|].
  destruct (set_crs_done f crs f1 E) as [C1 [C2 C3]]. destruct (set_done f1 "geom" x f' F H) as [A [B K]]. split; [exact A|]. split; [congruence|].
  intros w -> Hw Hg. unfold read_crs. rewrite B, C1. cbn [option_map]. rewrite K; [|exact Hw|rewrite C2; exact Hg]. rewrite (C3 w eq_refl). reflexivity.
Qed.
Print Assumptions C159_geometry_partial.

Example C159_geometry_case :
  let x := mkfarg (mkfvar 21 "shape" None) [mkfvar 21 "shape" None] true in
  let r := set_geom example_field (Some x) (Some (mkfvar 22 "wgs84" None)) true true in
  snd r = None /\ coordinate (fst r) "geom" = Some (mkfvar 21 "shape" None) /\ read_crs (fst r) = TheCrs (mkfvar 22 "wgs84" None).
Proof. repeat split. Qed.

(** A geometry without a coordinate system takes that of the field away, with its variable. *)
Theorem C159_geometry_refuted : forall f x old f', WellFormed f -> read_crs f = TheCrs old -> Family x ->
  ~ FamilyName x (fv_name old) -> set_geom f (Some x) None true true = (f', None) ->
  read_crs f' = NoCrs /\ HasVar f' (fv_name old) = None.
Proof.
  intros f x old f' W O F Hn H. pose proof (C159_geometry_partial f x None f' F H) as [_ [B _]].
  split; [unfold read_crs; rewrite B; reflexivity|].
  destruct (C159_crs_partial f None W) as [f1 [E [_ [_ [K2 _]]]]]; [rewrite O; discriminate|].
  unfold set_geom in H. rewrite E in H. apply (set_absent f1 "geom" x f' (fv_name old) H Hn). apply (K2 old O). discriminate.
Qed.
Print Assumptions C159_geometry_refuted.

Example C159_geometry_refuted_case :
  let x := mkfarg (mkfvar 21 "shape" None) [mkfvar 21 "shape" None] true in
  let r := set_geom example_field (Some x) None true true in
  snd r = None /\ read_crs (fst r) = NoCrs.
Proof. split; reflexivity. Qed.

(** None, which the documentation allows, is refused. *)
Theorem C159_none_refuted : forall f crs force should_add, set_geom f None crs force should_add = (f, Some (Fails AttributeError)).
Proof. reflexivity. Qed.
Print Assumptions C159_none_refuted.
