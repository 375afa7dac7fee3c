(** Stacking variables and collections (C119) and turning groups into a variable (C121). *)
From Verif Require Import Py Lib NdModel Spec RequestNames StackModel StackSpec StackProofs.
Local Open Scope string_scope.
Local Open Scope list_scope.
Local Open Scope Z_scope.

(** ** C119 *)

Theorem C119_values_partial : forall (A : Type) (fill : A) arch t name,
  In name (dim_names arch) -> Forall sound (arch :: t) -> Forall (alike name arch) (arch :: t) ->
  exists r, stack_variables fill (arch :: t) name = Ok r /\
    v_name r = v_name arch /\ dim_names r = dim_names arch /\ map d_unlimited (v_dims r) = map d_unlimited (v_dims arch) /\
    nd_shape (v_value r) = map d_len (v_dims r) /\ along name r = total name (arch :: t) /\ alike name arch r /\
    one_after_other name (arch :: t) r.
Proof.
  intros A fill arch t name N S' L. destruct (stack_ok fill arch t name N S' L) as (r & E & En & _ & _ & Ed & Es & O).
  exists r. split; [exact E|]. split; [exact En|]. split; [exact (proj1 (proj2 (stack_frame fill arch t name r E)))|].
  unfold along, alike. rewrite Ed. unfold dim_names in N.
  split; [|split; [rewrite <- Ed; exact Es|split; [|split; [|exact O]]]]; unfold new_dims.
  - rewrite map_map. apply map_ext. intros d. destruct (String.eqb (d_name d) name); reflexivity.
  - clear E Ed O S' L. induction (v_dims arch) as [|d l IH]; [easy|]. cbn [map fold_right].
    destruct (String.eqb (d_name d) name) eqn:Q; cbn [d_name d_len]; rewrite Q; [reflexivity|]. apply IH.
    apply String.eqb_neq in Q. destruct N as [N|N]; [contradiction|exact N].
  - clear E Ed O S' L N. induction (v_dims arch) as [|d l IH]; [constructor|]. cbn [map]. constructor; [|exact IH].
    destruct (String.eqb_spec (d_name d) name) as [Q|Q]; cbn [d_name d_len]; [split; [reflexivity|contradiction]|now split].
Qed.
Print Assumptions C119_values_partial.

(** Two hours of one place, then one hour. *)
Definition hours (n : Z) (u : string) (first : Z) : var Z :=
  mkvar "tas" [mkdim "time" n true; mkdim "x" 1 false] (mknd [n; 1] (fun i => first + nth 0 i 0)) None (Some u) (Some "tas_bounds").

Lemma hours_sound n u f : 0 <= n -> sound (hours n u f).
Proof.
  intros H. constructor; cbn [hours v_dims dim_names map d_name v_value nd_shape d_len v_mask].
  - constructor; [intros [E|[]]; discriminate|]. constructor; [easy|constructor].
  - constructor; [exact H|]. constructor; [cbn; lia|constructor].
  - reflexivity.
  - discriminate.
Qed.
Lemma hours_alike n m u w f g : alike "time" (hours n u f) (hours m w g).
Proof. constructor; [now split|]. constructor; [now split|constructor]. Qed.

Example C119_case : In "time" (dim_names (hours 2 "hours" 0)) /\ Forall sound [hours 2 "hours" 0; hours 1 "days" 7] /\
  Forall (alike "time" (hours 2 "hours" 0)) [hours 2 "hours" 0; hours 1 "days" 7] /\
  exists r, stack_variables 0 [hours 2 "hours" 0; hours 1 "days" 7] "time" = Ok r /\ map (fun i => nd_at (v_value r) [i; 0]) [0; 1; 2] = [0; 1; 7].
Proof.
  split; [now left|]. split; [constructor; [now apply hours_sound|]; constructor; [now apply hours_sound|constructor]|].
  split; [constructor; [apply hours_alike|]; constructor; [apply hours_alike|constructor]|].
  eexists. split; [reflexivity|]. vm_compute. reflexivity.
Qed.

(** Full statement: variables in different units are converted, or refused.  False: the
    values of the second stand as they are under the units of the first. *)
Theorem C119_units_refuted : forall (A : Type) (fill : A) a b name,
  In name (dim_names a) -> sound a -> sound b -> alike name a b -> v_units a <> v_units b ->
  exists r, stack_variables fill [a; b] name = Ok r /\ v_units r = v_units a /\
    forall idx, IndexOf (map d_len (v_dims b)) idx -> nd_at (v_value r) (shifted name (v_dims b) (along name a) idx) = nd_at (v_value b) idx.
Proof.
  intros A fill a b name N Sa Sb L _.
  assert (La : alike name a a) by (unfold alike; clear; induction (v_dims a) as [|d l IH]; constructor; [now split|exact IH]).
  destruct (stack_ok fill a [b] name N) as (r & E & _ & Eu & _ & _ & _ & O).
  - constructor; [exact Sa|]. now constructor.
  - constructor; [exact La|]. now constructor.
  - exists r. split; [exact E|]. split; [exact Eu|]. intros idx H.
    pose proof (oa_value name [a; b] r O 1%nat b idx eq_refl H) as V. unfold offset in V. cbn [firstn map zsum fold_right] in V. now rewrite Z.add_0_r in V.
Qed.
Print Assumptions C119_units_refuted.

Example C119_units_case : v_units (hours 2 "hours" 0) <> v_units (hours 1 "days" 7).
Proof. discriminate. Qed.

(** Full statement: the stacked variable has the stacked bounds.  False: it has none. *)
Theorem C119_bounds_refuted : forall (A : Type) (fill : A) targets name r,
  stack_variables fill targets name = Ok r -> v_bounds r = None.
Proof.
  intros A fill [|arch t] name r H; [discriminate|]. now apply stack_frame in H.
Qed.
Print Assumptions C119_bounds_refuted.

Example C119_bounds_case : v_bounds (hours 2 "hours" 0) = Some "tas_bounds" /\ exists r, stack_variables 0 [hours 2 "hours" 0; hours 1 "hours" 7] "time" = Ok r.
Proof. split; [reflexivity|]. eexists. reflexivity. Qed.

(** Full statement: variables whose other dimensions differ are refused.  False: a length of
    one is repeated, and dimensions in another order are mixed up. *)
Definition row (name : string) (d e : dim) (f : Z -> Z -> Z) : var Z :=
  mkvar name [d; e] (mknd [d_len d; d_len e] (fun i => f (nth 0 i 0) (nth 1 i 0))) None None None.

Theorem C119_repeated_refuted : exists a b r, sound a /\ sound b /\ ~ alike "time" a b /\ dim_names a = dim_names b /\
  stack_variables 0 [a; b] "time" = Ok r /\
  map (fun x => nd_at (v_value r) [1; x]) [0; 1] = [9; 9] /\ nd_at (v_value b) [0; 0] = 9.
Proof.
  exists (row "a" (mkdim "time" 1 true) (mkdim "x" 2 false) (fun _ x => x)), (row "a" (mkdim "time" 1 true) (mkdim "x" 1 false) (fun _ _ => 9)).
  assert (Sd : forall n, 0 <= n -> sound (row "a" (mkdim "time" 1 true) (mkdim "x" n false) (fun _ x => x)) /\ sound (row "a" (mkdim "time" 1 true) (mkdim "x" n false) (fun _ x => 9))).
  { intros n H. split; (constructor; cbn [row v_dims dim_names map d_name v_value nd_shape d_len v_mask];
      [constructor; [intros [E|[]]; discriminate|constructor; [easy|constructor]]|constructor; [cbn; lia|constructor; [exact H|constructor]]|reflexivity|discriminate]). }
  eexists. split; [now apply Sd|]. split; [now apply Sd|]. split.
  - intros L. inversion L as [|? ? ? ? _ L']; subst. inversion L' as [|? ? ? ? [_ H] _]; subst. cbn in H. assert (2 = 1) by (apply H; discriminate). lia.
  - split; [reflexivity|]. split; [reflexivity|]. split; vm_compute; reflexivity.
Qed.
Print Assumptions C119_repeated_refuted.

Theorem C119_order_refuted : exists a b r, sound a /\ sound b /\ In "time" (dim_names b) /\ dim_names a <> dim_names b /\
  stack_variables 0 [a; b] "time" = Ok r /\
  nd_at (v_value b) [1; 0] = 10 /\ nd_at (v_value r) [3; 0] = 10 /\ nd_at (v_value r) [2; 1] = 1.
Proof.
  exists (row "a" (mkdim "time" 2 true) (mkdim "x" 2 false) (fun _ x => x)), (row "a" (mkdim "x" 2 false) (mkdim "time" 2 true) (fun x t => 10 * x + t)).
  eexists. split; [|split; [|split; [|split; [|split; [reflexivity|vm_compute; repeat split]]]]].
  - constructor; cbn [row v_dims dim_names map d_name v_value nd_shape d_len v_mask];
      [constructor; [intros [E|[]]; discriminate|constructor; [easy|constructor]]|constructor; [cbn; lia|constructor; [cbn; lia|constructor]]|reflexivity|discriminate].
  - constructor; cbn [row v_dims dim_names map d_name v_value nd_shape d_len v_mask];
      [constructor; [intros [E|[]]; discriminate|constructor; [easy|constructor]]|constructor; [cbn; lia|constructor; [cbn; lia|constructor]]|reflexivity|discriminate].
  - right. now left.
  - discriminate.
Qed.
Print Assumptions C119_order_refuted.

(** Collections: a variable with the dimension is the stack of the variables of its name;
    any other is that of the first collection. *)
Theorem C119_collections_partial : forall (A : Type) (fill : A) first rest name r,
  keyed first -> stack_collections fill (first :: rest) name = Ok r ->
  (forall n v, dget String.eqb first n = Some v -> In name (dim_names v) ->
     exists vs s, map_res (fun c => lookup c n) (first :: rest) = Ok vs /\ stack_variables fill vs name = Ok s /\ dget String.eqb r n = Some s) /\
  (forall n v, dget String.eqb first n = Some v -> ~ In name (dim_names v) -> dget String.eqb r n = Some v).
Proof.
  intros A fill first rest name r K H. split.
  - intros n v G I. apply (collections_stacked fill first rest name r K H n v G). now apply has_dim_in.
  - intros n v G I. apply (collections_others fill first rest name r K H n v G). apply not_true_is_false. intros Q. now apply has_dim_in in Q.
Qed.
Print Assumptions C119_collections_partial.

Definition place (f : Z) : var Z := mkvar "x" [mkdim "x" 1 false] (mknd [1] (fun _ => f)) None None None.
Definition part (n f : Z) : coll Z := [("tas", hours n "hours" f); ("x", place f)].

Example C119_collections_case : keyed (part 2 0) /\ exists r, stack_collections 0 [part 2 0; part 1 7] "time" = Ok r.
Proof.
  split; [|eexists; reflexivity]. split.
  - constructor; [intros [E|[]]; discriminate|]. constructor; [easy|constructor].
  - constructor; [reflexivity|]. constructor; [reflexivity|constructor].
Qed.

(** Full statement: the result has the variables of all the collections, and differing
    variables without the dimension are refused.  False on both counts. *)
Theorem C119_lost_refuted : forall (A : Type) (fill : A) first rest name r,
  keyed first -> stack_collections fill (first :: rest) name = Ok r -> map fst r = map fst first.
Proof. intros A fill first rest name r K H. exact (collections_names fill first rest name r K H). Qed.
Print Assumptions C119_lost_refuted.

Theorem C119_differ_refuted : exists c d r v w, keyed c /\ keyed d /\ stack_collections 0 [c; d] "time" = Ok r /\
  dget String.eqb c "x" = Some v /\ dget String.eqb d "x" = Some w /\ nd_at (v_value v) [0] <> nd_at (v_value w) [0] /\ dget String.eqb r "x" = Some v.
Proof.
  exists (part 2 0), (part 1 7). do 3 eexists. split; [exact (proj1 C119_collections_case)|].
  split; [split; [constructor; [intros [E|[]]; discriminate|]; constructor; [easy|constructor]|constructor; [reflexivity|]; constructor; [reflexivity|constructor]]|].
  split; [reflexivity|]. split; [reflexivity|]. split; [reflexivity|]. split; [discriminate|reflexivity].
Qed.
Print Assumptions C119_differ_refuted.

(** A variable that a later collection does not have, or a dimension that a variable does not
    have, is refused, and so is nothing at all. *)
Theorem C119_missing : forall (A : Type) (fill : A) first rest name n v c,
  keyed first -> dget String.eqb first n = Some v -> In name (dim_names v) -> In c rest -> dget String.eqb c n = None ->
  forall r, stack_collections fill (first :: rest) name <> Ok r.
Proof.
  intros A fill first rest name n v c K G I Ic Gc r H.
  destruct (collections_stacked fill first rest name r K H n v G) as (vs & s & M & _); [now apply has_dim_in|].
  apply map_res_Forall2 in M. assert (X : exists w, lookup c n = Ok w).
  { assert (Ic' : In c (first :: rest)) by now right. clear -M Ic'. induction M as [|a b l m H _ IH]; [easy|]. destruct Ic' as [<-|J]; [now exists b|now apply IH]. }
  destruct X as [w X]. unfold lookup in X. rewrite Gc in X. discriminate.
Qed.
Print Assumptions C119_missing.

Theorem C119_refused : forall (A : Type) (fill : A) targets name v,
  In v targets -> ~ In name (dim_names v) -> stack_variables fill targets name = Err KeyError.
Proof.
  intros A fill targets name v I N. destruct targets as [|arch t]; [easy|]. unfold stack_variables.
  assert (X : map_res (len_of name) (arch :: t) = Err KeyError).
  { clear fill. revert I. generalize (arch :: t). induction l as [|w l IH]; intros I; [easy|]. cbn [map_res].
    destruct (len_of name w) as [n|e] eqn:E.
    - destruct I as [->|I].
      + unfold len_of in E. destruct (find (fun d => String.eqb (d_name d) name) (rev (v_dims v))) as [d|] eqn:F; [|discriminate].
        apply find_some in F. destruct F as [F1 F2]. destruct N. apply String.eqb_eq in F2. rewrite <- F2. apply in_map. now apply in_rev.
      + cbn [bind]. now rewrite (IH I).
    - unfold len_of in E. destruct (find (fun d => String.eqb (d_name d) name) (rev (v_dims w))); [discriminate|]. injection E as <-. reflexivity. }
  now rewrite X.
Qed.
Print Assumptions C119_refused.

Theorem C119_nothing : forall (A : Type) (fill : A) name,
  stack_variables fill [] name = Err IndexError /\ stack_collections fill [] name = Err IndexError.
Proof. intros. split; reflexivity. Qed.
Print Assumptions C119_nothing.

Example C119_missing_case : dget String.eqb (part 2 0) "tas" = Some (hours 2 "hours" 0) /\ dget String.eqb [("x", place 0)] "tas" = None /\
  ~ In "level" (dim_names (hours 2 "hours" 0)).
Proof. split; [reflexivity|]. split; [reflexivity|]. intros [E|[E|[]]]; discriminate. Qed.

(** ** C121 *)

Theorem C121_values_partial : forall (A : Type) (fill : A) (encode : string -> A) dims g0 first rest name dname n v ws,
  keyed first -> NoDup (map fst dims) ->
  dget String.eqb first n = Some v -> In dname (dim_names v) ->
  (forall n' v', dget String.eqb first n' = Some v' -> In dname (dim_names v') -> n' = n) ->
  v_bounds v = None ->
  (forall n' v' d, dget String.eqb first n' = Some v' -> In d (v_dims v') -> dget String.eqb dims (d_name d) = Some d) ->
  (forall d, In d (v_dims v) -> d_name d <> dname -> d_unlimited d = false) ->
  dget String.eqb first name = None ->
  map_res (fun g => lookup (snd g) n) ((g0, first) :: rest) = Ok ws ->
  Forall sound ws -> Forall (alike dname v) ws -> Forall (fun w => along dname w = 1 /\ v_mask w = None) ws ->
  exists r new label, groups_to_variable fill encode dims ((g0, first) :: rest) name dname = Ok r /\
    dget String.eqb (gc_vars r) n = Some new /\ dim_names new = dim_names v /\ one_after_other dname ws new /\
    dget String.eqb (gc_vars r) name = Some label /\ v_dims label = [mkdim dname (Z.of_nat (length ((g0, first) :: rest))) false] /\
    (forall k g c, nth_error ((g0, first) :: rest) k = Some (g, c) -> nd_at (v_value label) [Z.of_nat k] = encode g) /\
    (forall n', n' <> n -> n' <> name -> dget String.eqb (gc_vars r) n' = dget String.eqb first n') /\
    dget String.eqb (gc_dims r) dname = Some (mkdim dname (Z.of_nat (length ((g0, first) :: rest))) false).
Proof.
  intros A fill encode dims g0 first rest name dname n v ws K Nd G I U B Dd Fx Nn M S' L F.
  destruct (groups_ok fill encode dims g0 first rest name dname K Nd n v ws G) as (r & new & label & E & H1 & _ & H2 & H3 & H4 & H5 & H6 & H7 & H8); try assumption.
  - now apply has_dim_in.
  - intros n' v' G' H'. apply (U n' v' G'). now apply has_dim_in.
  - exists r, new, label. now repeat (split; [assumption|]).
Qed.
Print Assumptions C121_values_partial.

(** Two models of one place, each under its own name. *)
Definition run (f : Z) : coll Z :=
  [("tas", mkvar "tas" [mkdim "run" 1 true; mkdim "x" 2 false] (mknd [1; 2] (fun i => f + nth 1 i 0)) None (Some "K") None);
   ("x", mkvar "x" [mkdim "x" 2 false] (mknd [2] (fun i => nth 0 i 0)) None None None)].
Definition run_dims : list (string * dim) := [("run", mkdim "run" 1 true); ("x", mkdim "x" 2 false)].

Example C121_case : keyed (run 10) /\ exists r new, groups_to_variable 0 (fun s => Z.of_nat (String.length s)) run_dims [("a", run 10); ("bb", run 20)] "model" "run" = Ok r /\
  dget String.eqb (gc_vars r) "tas" = Some new /\
  map (fun i => nd_at (v_value new) i) [[0; 0]; [0; 1]; [1; 0]; [1; 1]] = [10; 11; 20; 21] /\ map fst (gc_vars r) = ["x"; "tas"; "model"].
Proof.
  split.
  - split; [constructor; [intros [E|[]]; discriminate|]; constructor; [easy|constructor]|]. constructor; [reflexivity|]. constructor; [reflexivity|constructor].
  - do 2 eexists. split; [reflexivity|]. split; [reflexivity|]. split; vm_compute; reflexivity.
Qed.

(** Full statement: all the variables that share the dimension are put together.  False: two
    of them, also a variable and its bounds, are never accepted. *)
Theorem C121_two_refuted : forall (A : Type) (fill : A) (encode : string -> A) dims g0 first rest name dname n1 v1 n2 v2 e,
  keyed first -> NoDup (map fst dims) -> n1 <> n2 ->
  dget String.eqb first n1 = Some v1 -> In dname (dim_names v1) -> dget String.eqb first n2 = Some v2 -> In dname (dim_names v2) ->
  dget String.eqb dims dname = Some e -> d_len e <> Z.of_nat (length ((g0, first) :: rest)) ->
  forall r, groups_to_variable fill encode dims ((g0, first) :: rest) name dname <> Ok r.
Proof.
  intros A fill encode dims g0 first rest name dname n1 v1 n2 v2 e K Nd N G1 I1 G2 I2.
  apply (two_never fill encode dims g0 first rest name dname K Nd n1 v1 n2 v2 e N G1); [now apply has_dim_in|exact G2|now apply has_dim_in].
Qed.
Print Assumptions C121_two_refuted.

Definition two (f : Z) : coll Z :=
  run f ++ [("pr", mkvar "pr" [mkdim "run" 1 true; mkdim "x" 2 false] (mknd [1; 2] (fun i => f - nth 1 i 0)) None (Some "mm") None)].
Example C121_two_case : keyed (two 10) /\
  groups_to_variable 0 (fun s => Z.of_nat (String.length s)) run_dims [("a", two 10); ("bb", two 20)] "model" "run" = Err DimensionMismatchError.
Proof.
  split; [|reflexivity]. split.
  - constructor; [intros [E|[E|[]]]; discriminate|]. constructor; [intros [E|[]]; discriminate|]. constructor; [easy|constructor].
  - constructor; [reflexivity|]. constructor; [reflexivity|]. constructor; [reflexivity|constructor].
Qed.

(** Full statement: masked values stay masked and units are kept.  False of every variable. *)
Theorem C121_masks_refuted : forall (A : Type) (fill : A) groups dname v r,
  group_variable fill groups dname v = Ok r -> v_mask r = None /\ v_units r = None /\ forall idx, is_masked r idx = false.
Proof.
  intros A fill groups dname v r H. unfold group_variable in H. apply bind_Ok in H. destruct H as (x & _ & H). injection H as <-. now repeat split.
Qed.
Print Assumptions C121_masks_refuted.

Example C121_masks_case : exists v r, dget String.eqb (run 10) "tas" = Some v /\ v_units v = Some "K" /\ group_variable 0 [("a", run 10); ("bb", run 20)] "run" v = Ok r.
Proof. do 2 eexists. split; [reflexivity|]. split; reflexivity. Qed.
