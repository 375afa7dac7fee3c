From Verif Require Import Py Lib Spec NdModel NdSpec CoordModel RegridModel EsmfModel EsmfSpec.
Local Close Scope Q_scope.
Local Open Scope Z_scope.
Local Open Scope string_scope.
Local Open Scope Z_scope.

(** Two rows and three columns with bounds, and a square grid with a mask. *)
Definition grid23 (key : option string) (masks : list (string * mvar)) : cgrid Z :=
  mkcgrid ("lat", 2) ("lon", 3) (Vectors [1; 3] [60; 180; 300] (Some ([(0, 2); (2, 4)], [(0, 120); (120, 240); (240, 360)]))) key masks.
Definition mask23 : nd bool := mknd [2; 3] (fun idx => listZ_eqb idx [0; 2]).
Definition mask22 : nd bool := mknd [2; 2] (fun idx => listZ_eqb idx [0; 1]).
Definition grid22 : cgrid Z :=
  mkcgrid ("lat", 2) ("lon", 2) (Vectors [1; 3] [10; 30] None) (Some SPATIAL_MASK) [(SPATIAL_MASK, mkmvar [("lat", 2); ("lon", 2)] mask22)].

Lemma grid23_good key masks : GoodGrid (grid23 key masks) /\ Touching 0 (grid23 key masks).
Proof.
  split; [cbn; repeat split; (lia || discriminate)|].
  split; intros i j r r' [Hi Hj] [Hi' Hj'] H H'; cbn [grid23 cg_yd cg_xd snd] in Hi, Hj, Hi', Hj'.
  - assert (Ej : j = 0 \/ j = 1) by lia. assert (Ei : i = 0 \/ i = 1) by lia.
    destruct Ej as [-> | ->], Ei as [-> | ->]; vm_compute in H, H'; injection H as <-; injection H' as <-; split; reflexivity.
  - assert (Ej : j = 0 \/ j = 1 \/ j = 2) by lia. assert (Ei : i = 0) by lia. subst i.
    destruct Ej as [-> | [-> | ->]]; vm_compute in H, H'; injection H as <-; injection H' as <-; split; reflexivity.
Qed.

(** Converting twice: the nodes on the outer edges move. *)
Definition node (c : option (nd Z * nd Z)) : option (Z * Z) :=
  match c with Some (cy, cx) => Some (nd_at cy [3; 0], nd_at cx [3; 0]) | None => None end.
Definition twice (g : cgrid Z) : option (option (Z * Z) * option (Z * Z)) :=
  match to_esmf 0 g Auto None false with
  | Ok (e, _) => match from_esmf 0 e with
    | Ok h => match to_esmf 0 h Auto None false with Ok (e', _) => Some (node (ce_corners e), node (ce_corners e')) | Err _ => None end
    | Err _ => None end
  | Err _ => None end.
Lemma twice_case : twice (grid23 None []) = Some (Some (0, 360), Some (2, 240)).
Proof. vm_compute. reflexivity. Qed.
Lemma converted_twice : exists (g g' h h' : cgrid Z) e e' cy cx cy' cx', GoodGrid g /\ Touching 0 g /\
  to_esmf 0 g Auto None false = Ok (e, g') /\ from_esmf 0 e = Ok h /\ to_esmf 0 h Auto None false = Ok (e', h') /\
  ce_corners e = Some (cy, cx) /\ ce_corners e' = Some (cy', cx') /\ (nd_at cy [3; 0], nd_at cx [3; 0]) = (0, 360) /\ (nd_at cy' [3; 0], nd_at cx' [3; 0]) = (2, 240).
Proof.
  pose proof twice_case as H. pose proof (grid23_good None []) as [HG HT]. remember (grid23 None []) as g eqn:Eg. clear Eg. unfold twice in H.
  destruct (to_esmf 0 g Auto None false) as [[e g']|] eqn:E1; [|discriminate]. destruct (from_esmf 0 e) as [h|] eqn:E2; [|discriminate].
  destruct (to_esmf 0 h Auto None false) as [[e' h']|] eqn:E3; [|discriminate]. unfold node in H.
  destruct (ce_corners e) as [[cy cx]|] eqn:E4; [|discriminate]. destruct (ce_corners e') as [[cy' cx']|] eqn:E5; [|discriminate].
  injection H as H1 H2 H3 H4. exists g, g', h, h', e, e', cy, cx, cy', cx'. rewrite H1, H2, H3, H4. auto 12.
Qed.

(** A square grid: another cell is masked. *)
Definition masks_of (g : cgrid Z) : option (list Z * list Z * bool * bool * bool) :=
  match get_mask g, to_esmf 0 g Auto None false with
  | Ok (Some a), Ok (e, _) => match from_esmf 0 e with
    | Ok h => match get_mask h with Ok (Some b) => Some (nd_shape a, nd_shape b, nd_at a [0; 1], nd_at b [0; 1], nd_at b [1; 0]) | _ => None end
    | Err _ => None end
  | _, _ => None end.
Lemma masks_case : masks_of grid22 = Some ([2; 2], [2; 2], true, false, true).
Proof. vm_compute. reflexivity. Qed.
Lemma grid22_good : GoodGrid grid22.
Proof. cbn; repeat split; (lia || discriminate). Qed.
Lemma square_mask : exists (g g' h : cgrid Z) e a b, GoodGrid g /\ get_mask g = Ok (Some a) /\ to_esmf 0 g Auto None false = Ok (e, g') /\ from_esmf 0 e = Ok h /\
  get_mask h = Ok (Some b) /\ nd_shape b = nd_shape a /\ nd_at a [0; 1] = true /\ nd_at b [0; 1] = false /\ nd_at b [1; 0] = true.
Proof.
  pose proof masks_case as H. pose proof grid22_good as HG. remember grid22 as g eqn:Eg. clear Eg. unfold masks_of in H.
  destruct (get_mask g) as [[a|]|] eqn:E0; [|discriminate|discriminate]. destruct (to_esmf 0 g Auto None false) as [[e g']|] eqn:E1; [|discriminate].
  destruct (from_esmf 0 e) as [h|] eqn:E2; [|discriminate]. destruct (get_mask h) as [[b|]|] eqn:E3; [|discriminate|discriminate].
  injection H as H1 H2 H3 H4 H5. exists g, g', h, e, a, b. rewrite H1, H2. auto 12.
Qed.

(** A variable with time first on a grid with a mask. *)
Definition cells22 : rgrid := mkrgrid ("lat", 2) ("lon", 2) (Some mask22) false.
Definition var_t22 : nvar Z := mknvar [("time", 3); ("lat", 2); ("lon", 2)] (mknd [3; 2; 2] (fun idx => ravel [3; 2; 2] idx))
  (Some (mknd [3; 2; 2] (fun idx => listZ_eqb idx [0; 1; 1]))).
Definition dvar_t22 : dvar Z := mkdvar "tas" var_t22 true.
Definition field_t22 : dfield Z := mkdfield cells22 (Some [("time", 3)]) [dvar_t22].
Lemma field_t22_ok : Convertible field_t22 dvar_t22 /\ GoodCells cells22.
Proof.
  split.
  - split; [reflexivity|]. split; [|split; [reflexivity|split; [cbn; auto|split; [cbn; auto|]]]].
    + split; [cbn; repeat constructor; cbn; intuition discriminate|]. split; [cbn; repeat constructor; lia|]. split; reflexivity.
    + cbn. exists ("time", 3), []. split; [reflexivity|]. split; [auto|]. split; discriminate.
  - unfold GoodCells. cbn. split; [discriminate|]. split; [discriminate|]. split; [discriminate|]. reflexivity.
Qed.

(** What the variable hides. *)
Definition hidden (f : dfield Z) : option (bool * bool) :=
  match to_efield f None Auto None with
  | Ok (e, _) => match from_efield 0 e with Ok w => Some (masked (dv_var w) [0; 1; 1], masked (dv_var w) [2; 0; 1]) | Err _ => None end
  | Err _ => None end.
Lemma hidden_case : hidden field_t22 = Some (false, true).
Proof. vm_compute. reflexivity. Qed.
Lemma shown_again : exists (f : dfield Z) v e v' w, Convertible f v /\ GoodCells (df_grid f) /\ to_efield f None Auto None = Ok (e, v') /\ from_efield 0 e = Ok w /\
  masked (dv_var v) [0; 1; 1] = true /\ masked (dv_var w) [0; 1; 1] = false /\ masked (dv_var w) [2; 0; 1] = true.
Proof.
  pose proof hidden_case as H. pose proof field_t22_ok as [H1 H2]. assert (H3 : masked (dv_var dvar_t22) [0; 1; 1] = true) by reflexivity.
  change cells22 with (df_grid field_t22) in H2. remember dvar_t22 as v eqn:Ev. clear Ev. remember field_t22 as f eqn:Ef. clear Ef. unfold hidden in H.
  destruct (to_efield f None Auto None) as [[e v']|] eqn:E1; [|discriminate]. destruct (from_efield 0 e) as [w|] eqn:E2; [|discriminate].
  injection H as H4 H5. exists f, v, e, v', w. auto 10.
Qed.

(** Coordinate systems 0 (spherical) and 1; transforming shifts, regridding keeps the
    destination. *)
Definition shift (a b : Z) (x : Z) : res Z := Ok (x + b - a).
Definition same_subset (f : ofield Z Z) : res (ofield Z Z) := Ok f.
Definition take_dst (a b : ofield Z Z) : res (option (ofield Z Z)) := Ok (Some (mkofield (of_crs b) (of_rest a * 100 + of_rest b))).
Definition run := execute Z.eqb 0 shift same_subset take_dst.
Lemma run_case : run false true (mkofield (Some 1) 5) (mkofield (Some 1) 7) =
  (Ok (Some (mkofield (Some 1) 407)), mkofield (Some 0) 4, mkofield (Some 1) 7).
Proof. reflexivity. Qed.
