From Verif Require Import Py Lib CoordvarsModel CoordvarsSpec.
From Coq Require Import String Lia Permutation.
Local Open Scope string_scope.
Local Open Scope list_scope.
Local Notation length := List.length.

(** ** C169: coordinate variables, bounds and axes of a field *)

(** The coordinates are x, y, level and time, if there. *)
Theorem C169_coordinates_partial : forall f c,
  In c (coordinate_variables f) <-> af_x f = Some c \/ af_y f = Some c \/ af_level f = Some c \/ af_time f = Some c.
Proof.
  intros f c. assert (forall v, In c (present v) <-> v = Some c) as P.
  { intros [x|]; cbn [present In]; [|split; [intros []|discriminate]]. split; [intros [->|[]]; reflexivity|intros [= ->]; left; reflexivity]. }
  unfold coordinate_variables, grid_coordinates.
  destruct (af_x f) as [x|] eqn:Ex; [destruct (af_y f) as [y|] eqn:Ey|]; rewrite ?in_app_iff, ?P; cbn [In]; rewrite ?P;
    split; intros H; intuition (try discriminate; try congruence); subst; auto.
Qed.
Print Assumptions C169_coordinates_partial.

(** Each once, if they are different. *)
Theorem C169_once : forall f, NoDup (present (af_x f) ++ present (af_y f) ++ present (af_level f) ++ present (af_time f)) -> NoDup (coordinate_variables f).
Proof.
  intros f H. unfold coordinate_variables, grid_coordinates. destruct (af_x f) as [x|]; [destruct (af_y f) as [y|]|]; [|exact H|exact H].
  cbn [present app] in H |- *. change (NoDup ((x :: y :: present (af_level f)) ++ present (af_time f))) in H.
  apply (Permutation.Permutation_NoDup (Permutation.Permutation_app_comm _ _) H).
Qed.
Print Assumptions C169_once.

(** The bounds are those of the coordinates. *)
Theorem C169_bounds : forall f b, In b (bounds_variables f) <-> exists c, In c (coordinate_variables f) /\ ax_bounds c = Some b.
Proof.
  intros f b. unfold bounds_variables. rewrite in_flat_map. split; intros [c [H E]]; exists c; (split; [exact H|]).
  - destruct (ax_bounds c) as [b'|]; [|contradiction]. destruct E as [->|[]]. reflexivity.
  - rewrite E. left. reflexivity.
Qed.
Print Assumptions C169_bounds.

Definition example_field : axfield :=
  mkaxfield (Some (mkaxvar "lon" [64; 128] None)) (Some (mkaxvar "lat" [64; 128] None)) (Some (mkaxvar "lev" [] None)) (Some (mkaxvar "time" [365] (Some "time_bnds"))) None.
Example C169_coordinates_case : map ax_name (coordinate_variables example_field) = ["time"; "lon"; "lat"; "lev"] /\ bounds_variables example_field = ["time_bnds"].
Proof. split; reflexivity. Qed.

Example C169_once_case : NoDup (coordinate_variables example_field).
Proof. apply C169_once. cbn. repeat constructor; cbn [In]; intuition discriminate. Qed.

(** Time comes first with a grid and last without. *)
Theorem C169_order_refuted : forall x y t l,
  coordinate_variables (mkaxfield (Some x) (Some y) l (Some t) None) = t :: x :: y :: present l /\
  coordinate_variables (mkaxfield (Some x) None l (Some t) None) = (x :: present l ++ [t])%list.
Proof. intros x y t l. split; reflexivity. Qed.
Print Assumptions C169_order_refuted.

(** The realization is not among the coordinates. *)
Theorem C169_realization_refuted : forall f r, coordinate_variables (mkaxfield (af_x f) (af_y f) (af_level f) (af_time f) r) = coordinate_variables f.
Proof. intros f r. reflexivity. Qed.
Print Assumptions C169_realization_refuted.

(** For coordinates of one dimension each, the shapes of the axes are the lengths of the coordinates. *)
Theorem C169_axes_partial : forall f nr nt nl ny nx,
  let Axis v n none := match v with None => n = none | Some c => ax_shape c = [n] end in
  Axis (af_realization f) nr 1%Z -> Axis (af_time f) nt 0%Z -> Axis (af_level f) nl 0%Z -> Axis (af_y f) ny 0%Z -> Axis (af_x f) nx 0%Z ->
  axes_shapes f = Ok [("R", nr); ("T", nt); ("Z", nl); ("Y", ny); ("X", nx)].
Proof.
  intros f nr nt nl ny nx Axis Hr Ht Hl Hy Hx. unfold Axis in *. unfold axes_shapes.
  assert (forall v n none, match v with None => n = none | Some c => ax_shape c = [n] end -> axis v none = Ok n) as E.
  { intros [c|] n none H; cbn [axis]; [unfold shape0; rewrite H|rewrite H]; reflexivity. }
  rewrite (E _ _ _ Hr), (E _ _ _ Ht), (E _ _ _ Hy), (E _ _ _ Hx). cbn [bind].
  destruct (af_level f) as [l|]; [unfold shape0; rewrite Hl|rewrite Hl]; reflexivity.
Qed.
Print Assumptions C169_axes_partial.
Example C169_axes_case : axes_shapes (mkaxfield (Some (mkaxvar "x" [4%Z] None)) (Some (mkaxvar "y" [3%Z] None)) None (Some (mkaxvar "t" [2%Z] None)) None) =
  Ok [("R", 1); ("T", 2); ("Z", 0); ("Y", 3); ("X", 4)]%Z.
Proof. reflexivity. Qed.

(** With coordinates of rows and columns, the length of the x axis is the number of rows. *)
Theorem C169_columns_refuted : forall f x ny nx shapes, af_x f = Some x -> ax_shape x = [ny; nx] -> nx <> ny ->
  axes_shapes f = Ok shapes -> In ("X", ny) shapes /\ ~ In ("X", nx) shapes.
Proof.
  intros f x ny nx shapes Hx Hs N H. unfold axes_shapes in H.
  destruct (axis (af_realization f) 1) as [r|]; [|discriminate]. cbn [bind] in H. destruct (axis (af_time f) 0) as [t|]; [|discriminate]. cbn [bind] in H.
  match type of H with (do _ <- ?e; _) = _ => destruct e as [l|]; [|discriminate] end. cbn [bind] in H.
  destruct (axis (af_y f) 0) as [y|]; [|discriminate]. cbn [bind] in H. rewrite Hx in H. cbn [axis] in H. unfold shape0 in H. rewrite Hs in H. cbn [bind] in H.
  injection H as <-. split; [cbn [In]; auto 10|]. cbn [In]. intuition congruence.
Qed.
Print Assumptions C169_columns_refuted.
Example C169_columns_case : axes_shapes example_field = Ok [("R", 1); ("T", 365); ("Z", 0); ("Y", 64); ("X", 64)]%Z.
Proof. reflexivity. Qed.

(** A time of no dimension, which a level may have, fails. *)
Theorem C169_scalar_refuted : forall f t nr, af_time f = Some t -> ax_shape t = [] -> axis (af_realization f) 1 = Ok nr -> axes_shapes f = Err IndexError.
Proof. intros f t nr Ht Hs Hr. unfold axes_shapes. rewrite Hr. cbn [bind]. rewrite Ht. cbn [axis]. unfold shape0. rewrite Hs. reflexivity. Qed.
Print Assumptions C169_scalar_refuted.
Example C169_scalar_case : axes_shapes (mkaxfield None None None (Some (mkaxvar "t" [] None)) None) = Err IndexError.
Proof. reflexivity. Qed.

(** ** C170: unstructured grids *)

Lemma unstructured_all : forall geoms, unstructured_coordinates geoms = flat_map ag_coordinates geoms.
Proof.
  intros geoms. unfold unstructured_coordinates.
  assert (forall (l r : list axvar), fold_left (fun r c => r ++ [c])%list l r = (r ++ l)%list) as A1.
  { intros l. induction l as [|c t IH]; intros r; cbn [fold_left]; [rewrite app_nil_r; reflexivity|]. rewrite IH, <- app_assoc. reflexivity. }
  assert (forall (l : list axgeom) (r : list axvar), fold_left (fun ret g => fold_left (fun r c => r ++ [c])%list (ag_coordinates g) ret) l r = (r ++ flat_map ag_coordinates l)%list) as A2.
  { intros l. induction l as [|g t IH]; intros r; cbn [fold_left flat_map]; [rewrite app_nil_r; reflexivity|]. rewrite IH, A1, <- app_assoc. reflexivity. }
  apply (A2 geoms []).
Qed.

(** The coordinates are those of the geometries. *)
Theorem C170_coordinates_partial : forall geoms c, In c (unstructured_coordinates geoms) <-> exists g, In g geoms /\ In c (ag_coordinates g).
Proof. intros geoms c. rewrite unstructured_all. apply in_flat_map. Qed.
Print Assumptions C170_coordinates_partial.

(** A coordinate that two geometries share is there twice. *)
Theorem C170_shared_refuted : forall a b l1 l2 l3 c, In c (ag_coordinates a) -> In c (ag_coordinates b) ->
  ~ NoDup (unstructured_coordinates (l1 ++ a :: l2 ++ b :: l3)).
Proof.
  intros a b l1 l2 l3 c Ha Hb. rewrite unstructured_all, flat_map_app. cbn [flat_map]. rewrite flat_map_app. cbn [flat_map]. intros N.
  apply in_split in Ha as [p [q Ea]]. rewrite Ea in N.
  replace (flat_map ag_coordinates l1 ++ (p ++ c :: q) ++ flat_map ag_coordinates l2 ++ ag_coordinates b ++ flat_map ag_coordinates l3)
    with ((flat_map ag_coordinates l1 ++ p) ++ c :: (q ++ flat_map ag_coordinates l2 ++ ag_coordinates b ++ flat_map ag_coordinates l3)) in N
    by (rewrite <- !app_assoc; reflexivity).
  apply NoDup_remove_2 in N. apply N. rewrite !in_app_iff. tauto.
Qed.
Print Assumptions C170_shared_refuted.
Definition example_geoms : list axgeom :=
  let x := mkaxvar "node_x" [9%Z] None in let y := mkaxvar "node_y" [9%Z] None in
  [mkaxgeom "point" [x; y]; mkaxgeom "polygon" [x; y]].
Example C170_shared_case : map ax_name (unstructured_coordinates example_geoms) = ["node_x"; "node_y"; "node_x"; "node_y"].
Proof. reflexivity. Qed.

Lemma last_with_some : forall a geoms, (exists g, In g geoms /\ ag_abstraction g = a) <-> exists g, last_with a geoms = Some g /\ In g geoms /\ ag_abstraction g = a.
Proof.
  intros a geoms. split; [|intros [g [_ H]]; exists g; exact H]. unfold last_with.
  induction geoms as [|g t IH] using rev_ind; intros [h [H E]]; [destruct H|]. rewrite fold_left_app. cbn [fold_left].
  destruct (String.eqb_spec (ag_abstraction g) a) as [Eg|Ng].
  - exists g. split; [reflexivity|]. split; [apply in_or_app; right; left; reflexivity|exact Eg].
  - apply in_app_or in H as [H|[->|[]]]; [|congruence]. destruct (IH (ex_intro _ h (conj H E))) as [k [K1 [K2 K3]]].
    exists k. split; [exact K1|]. split; [apply in_or_app; left; exact K2|exact K3].
Qed.
Lemma last_with_in : forall a geoms g, last_with a geoms = Some g -> In g geoms /\ ag_abstraction g = a.
Proof.
  intros a geoms. unfold last_with. induction geoms as [|g t IH] using rev_ind; intros h H; [discriminate|]. rewrite fold_left_app in H. cbn [fold_left] in H.
  destruct (String.eqb_spec (ag_abstraction g) a) as [Eg|Ng].
  - injection H as <-. split; [apply in_or_app; right; left; reflexivity|exact Eg].
  - destruct (IH h H) as [K1 K2]. split; [apply in_or_app; left; exact K1|exact K2].
Qed.

(** The abstractions that are available are those of the geometries. *)
Theorem C170_available : forall geoms a, (exists g, In (a, g) (available geoms)) <-> Known a /\ exists g, In g geoms /\ ag_abstraction g = a.
Proof.
  intros geoms a. unfold available. split.
  - intros [g H]. apply in_flat_map in H as [h [Hh Hg]]. destruct (last_with h geoms) as [k|] eqn:E; [|contradiction]. destruct Hg as [[= <- <-]|[]].
    split; [unfold Known; cbn [In] in Hh; intuition|]. exists k. apply last_with_in. exact E.
  - intros [K H]. apply last_with_some in H as [g [E _]]. exists g. apply in_flat_map. exists a. split; [unfold Known in K; cbn [In]; intuition|]. rewrite E. left. reflexivity.
Qed.
Print Assumptions C170_available.

(** Each comes with a geometry of the grid that has it. *)
Theorem C170_geometry : forall geoms a g, In (a, g) (available geoms) -> In g geoms /\ ag_abstraction g = a.
Proof.
  intros geoms a g H. unfold available in H. apply in_flat_map in H as [h [_ Hg]].
  destruct (last_with h geoms) as [k|] eqn:E; [|contradiction]. destruct Hg as [[= <- <-]|[]]. apply last_with_in. exact E.
Qed.
Print Assumptions C170_geometry.
Example C170_geometry_case : map (fun p => ag_abstraction (snd p)) (available example_geoms) = ["polygon"; "point"].
Proof. reflexivity. Qed.

(** The abstraction chosen is the one of the highest order. *)
Theorem C170_auto : forall geoms a, auto_abstraction geoms = Ok a ->
  (exists g, In g geoms /\ ag_abstraction g = a) /\ forall g, In g geoms -> Known (ag_abstraction g) -> (rank a <= rank (ag_abstraction g))%nat.
Proof.
  intros geoms a H.
  assert (forall g, In g geoms -> last_with (ag_abstraction g) geoms <> None) as N.
  { intros g Hg C. assert (exists k, In k geoms /\ ag_abstraction k = ag_abstraction g) as Ex by (exists g; auto). apply last_with_some in Ex as [k [E _]]. congruence. }
  unfold auto_abstraction, available in H. cbn [flat_map] in H.
  destruct (last_with "polygon" geoms) as [p|] eqn:Ep; [cbn [app] in H; injection H as <-; split; [exists p; apply last_with_in; exact Ep|intros; cbn; lia]|].
  destruct (last_with "line" geoms) as [l|] eqn:El; [cbn [app] in H; injection H as <-; split; [exists l; apply last_with_in; exact El|]|].
  - intros g Hg [E|[E|E]]; rewrite E; cbn; try lia. exfalso. apply (N g Hg). rewrite E. exact Ep.
  - destruct (last_with "point" geoms) as [t|] eqn:Et; [cbn [app] in H; injection H as <-; split; [exists t; apply last_with_in; exact Et|]|discriminate].
    intros g Hg [E|[E|E]]; rewrite E; cbn; try lia; exfalso; apply (N g Hg); rewrite E; assumption.
Qed.
Print Assumptions C170_auto.
Example C170_auto_case : auto_abstraction example_geoms = Ok "polygon" /\ map fst (available example_geoms) = ["polygon"; "point"].
Proof. split; reflexivity. Qed.

(** A grid without a geometry of a known abstraction has none to choose. *)
Theorem C170_none : forall geoms, (forall g, In g geoms -> ~ Known (ag_abstraction g)) -> auto_abstraction geoms = Err IndexError.
Proof.
  intros geoms H. unfold auto_abstraction. destruct (available geoms) as [|[a g] t] eqn:E; [reflexivity|]. exfalso.
  assert (exists k, In (a, k) (available geoms)) as A by (exists g; rewrite E; left; reflexivity).
  apply C170_available in A as [K [k [Hk Ek]]]. apply (H k Hk). rewrite Ek. exact K.
Qed.
Print Assumptions C170_none.
Example C170_none_case : auto_abstraction [mkaxgeom "ring" []] = Err IndexError.
Proof. reflexivity. Qed.
