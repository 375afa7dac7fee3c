(** Vocabulary of C30, C48, C58 and C61. *)
From Verif Require Import Py Spec NdModel NdSpec CalcModel CalcSpec AggModel.
From Coq Require Sorted.
Local Open Scope string_scope.
Local Open Scope Z_scope.

(** ** C58 *)
(** A position is a coordinate for every name; [with_coord c n v] moves it to [v]
    along [n]. *)
Definition with_coord (c : string -> Z) (n : string) (v : Z) : string -> Z := fun m => if String.eqb m n then v else c m.
(** Positions of an array with the given names and sizes. *)
Definition InSizes (names : list string) (sz c : string -> Z) : Prop := forall n, In n names -> 0 <= c n < sz n.
(** The coordinate along a dimension the array may not have. *)
Definition coord_or_zero (names : list string) (c : string -> Z) (n : string) : Z := if str_mem n names then c n else 0.

(** [block] holds the planes of exactly the steps of the group, in order, with all
    other coordinates as in [c]. *)
Definition GroupBlock {A} (names : list string) (sz : string -> Z) (arr : nd A) (c : string -> Z) (group : list bool) (block : nd A) : Prop :=
  exists steps, Sorted.StronglySorted Z.lt steps /\ (forall t, In t steps <-> HoldsAt group t) /\
    nd_shape block = [zlen steps; size_after names sz "y"; size_after names sz "x"] /\
    forall k t j i, nth_error steps k = Some t -> 0 <= j < size_after names sz "y" -> 0 <= i < size_after names sz "x" ->
      nd_at block [Z.of_nat k; j; i] = nd_at arr (map (with_coord (with_coord (with_coord c "time" t) "y" j) "x" i) names).

(** [block] is the array in the standard order of dimensions, at the coordinates of
    [c] along the other dimensions. *)
Definition StandardBlock {A} (names : list string) (sz : string -> Z) (arr : nd A) (c : string -> Z) (block : nd A) : Prop :=
  nd_shape block = map (size_after names sz) STANDARD /\
  forall d, InSizes STANDARD (size_after names sz) d -> (forall n, In n names -> ~ In n STANDARD -> d n = c n) ->
    nd_at block (map d STANDARD) = nd_at arr (map d names).

(** ** C48 *)
(** Running the functions one after the other, each on what the previous left. *)
Inductive RunAll {Fn VC : Type} (run : Fn -> VC -> res VC) : list Fn -> VC -> VC -> Prop :=
| RunNil vc : RunAll run [] vc vc
| RunCons fn fns vc vc' vc'' : run fn vc = Ok vc' -> RunAll run fns vc' vc'' -> RunAll run (fn :: fns) vc vc''.

(** The function object of a definition: an ordinary function, or, for a definition
    without a name, the evaluation of its own expression. *)
Definition Own {Def Field Group Fn : Type} (construct : Def -> Field -> option Group -> res Fn) (eval_function : Def -> Field -> Fn)
  (field : Field) (tgd : option Group) (d : Def) (fn : Fn) : Prop :=
  construct d field tgd = Ok fn \/ (construct d field tgd = Err KeyError /\ fn = eval_function d field).

(** ** C30 *)
Definition InTile (row col : Z) (tile : Z * ((Z * Z) * (Z * Z))) : Prop :=
  InIval row (fst (snd tile)) /\ InIval col (snd (snd tile)).
