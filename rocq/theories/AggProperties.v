(** C30, C48, C58, C61: tile schemas, the calculation engine, aggregation by group. *)
From Verif Require Import Py Spec NdModel NdSpec CalcModel CalcSpec AggModel AggSpec AggProofs.
From Coq Require Import Sorted.
Local Open Scope string_scope.
Local Open Scope Z_scope.

(** C58.  Dimensions have any names in any order; those that are not standard are
    extra dimensions.  The value at a position is the function of the planes of
    exactly its group's steps, at the same extra, realization and level coordinates.
    Partial: an extra dimension of size zero raises. *)
Theorem C58_aggregation_partial : forall A B (f : nd (mcell A) -> res (nd (mcell B))) names (arr : nd (mcell A)) (sz : string -> Z) groups fill,
  NoDup names -> In "time" names -> nd_shape arr = map sz names ->
  (forall n, In n names -> ~ In n STANDARD -> 1 <= sz n) ->
  (forall g, In g groups -> zlen g = sz "time") ->
  (forall block nt ny nx, nd_shape block = [nt; ny; nx] -> exists r, f block = Ok r /\ nd_shape r = [ny; nx]) ->
  exists out, temporal_agg f names arr groups fill = Ok out /\
    nd_shape out = map (with_coord sz "time" (zlen groups)) names /\
    forall c, InSizes names (with_coord sz "time" (zlen groups)) c ->
      exists group block r, nth_error groups (Z.to_nat (c "time")) = Some group /\ GroupBlock names sz arr c group block /\
        f block = Ok r /\ nd_at out (map c names) = nd_at r [coord_or_zero names c "y"; coord_or_zero names c "x"].
Proof. exact temporal_agg_spec. Qed.
Print Assumptions C58_aggregation_partial.

(** Functions without groups: every value comes from the function of the array in
    standard order, at its own position. *)
Theorem C58_transform_partial : forall A B (f : nd (mcell A) -> res (nd (mcell B))) names (arr : nd (mcell A)) (sz : string -> Z) fill,
  NoDup names -> nd_shape arr = map sz names ->
  (forall n, In n names -> ~ In n STANDARD -> 1 <= sz n) ->
  (forall block, exists r, f block = Ok r /\ nd_shape r = nd_shape block) ->
  exists out, transform f names arr fill = Ok out /\ nd_shape out = nd_shape arr /\
    forall c, InSizes names sz c ->
      exists block r, StandardBlock names sz arr c block /\ f block = Ok r /\
        nd_at out (map c names) = nd_at r (map (coord_or_zero names c) STANDARD).
Proof. exact transform_spec. Qed.
Print Assumptions C58_transform_partial.

(** The sum along the first axis, masked iff all elements are. *)
Definition sum_steps (block : nd (mcell Z)) : res (nd (mcell Z)) :=
  match nd_shape block with
  | nt :: plane => Ok (mknd plane (fun yx => let col := map (fun k => nd_at block (k :: yx)) (zrange 0 nt) in
      (forallb fst col, zsum (map (fun c : mcell Z => if fst c then 0 else snd c) col))))
  | [] => Err ValueError
  end.
Definition digits_arr (shape : list Z) : nd (mcell Z) := mknd shape (fun idx => (false, fold_left (fun a d => 10 * a + d) idx 0)).
Definition all_values {A} (a : nd A) : list A := map (nd_at a) (indices (nd_shape a)).
Example C58_case :
  (forall block nt ny nx, nd_shape block = [nt; ny; nx] -> exists r, sum_steps block = Ok r /\ nd_shape r = [ny; nx]) /\
  match temporal_agg sum_steps ["x"; "member"; "time"] (digits_arr [2; 2; 3]) [[true; false; true]; [false; true; false]] (fun _ => (true, 7)) with
  | Ok out => nd_shape out = [2; 2; 2] /\ all_values out = map (pair false) [0+2; 1; 10+12; 11; 100+102; 101; 110+112; 111]
  | Err _ => False
  end.
Proof. split; [|vm_compute; auto]. intros block nt ny nx H. unfold sum_steps. rewrite H. eauto. Qed.
Theorem C58_empty_extra_refuted :
  temporal_agg sum_steps ["x"; "member"; "time"] (digits_arr [2; 0; 3]) [[true; false; true]] (fun _ => (true, 7)) = Err IndexError.
Proof. vm_compute. reflexivity. Qed.
Print Assumptions C58_empty_extra_refuted.

(** C48.  One field: the calculation succeeds exactly if the functions of all
    definitions, each its own, run one after the other.  Partial: only the first
    definition may be an expression. *)
Theorem C48_field_partial : forall (Def Field Group Fn Var : Type) (construct : Def -> Field -> option Group -> res Fn)
  (eval_function : Def -> Field -> Fn) (run : Fn -> list (string * Var) -> res (list (string * Var))) d ds field tgd marks vc marks',
  (forall d', In d' ds -> construct d' field tgd <> Err KeyError) ->
  calculate_field construct eval_function run (d :: ds) field tgd marks = Ok (vc, marks') <->
  (exists fns, Forall2 (Own construct eval_function field tgd) (d :: ds) fns /\ RunAll run fns [] vc) /\ marks' = marks + zlen (d :: ds).
Proof. intros until run. exact (calculate_field_spec construct eval_function run). Qed.
Print Assumptions C48_field_partial.

(** All fields, and one progress mark per function and field. *)
Theorem C48_execute_partial : forall (Def Field Group Fn Var : Type) (field_name : Field -> string) (get_grouping : Field -> res Group)
  (construct : Def -> Field -> option Group -> res Fn) (eval_function : Def -> Field -> Fn)
  (run : Fn -> list (string * Var) -> res (list (string * Var))) grouped d ds fields tgds marks outs tgds' marks',
  (forall d' field tgd, In d' ds -> construct d' field tgd <> Err KeyError) ->
  execute field_name get_grouping construct eval_function run grouped (d :: ds) fields tgds marks = Ok (outs, tgds', marks') ->
  Forall2 (fun field vc => exists fns,
    Forall2 (Own construct eval_function field (dget String.eqb tgds' (field_name field))) (d :: ds) fns /\ RunAll run fns [] vc) fields outs /\
  marks' = marks + zlen fields * zlen (d :: ds).
Proof. intros until run. exact (execute_spec field_name get_grouping construct eval_function run). Qed.
Print Assumptions C48_execute_partial.

(** A definition is its text and whether it has a name; running a function records
    its text, the field and the group it was given. *)
Definition case_construct (d : string * bool) (field : string * Z) (tgd : option Z) : res (string * Z * option Z) :=
  if snd d then Ok (fst d, snd field, tgd) else Err KeyError.
Definition case_eval (d : string * bool) (field : string * Z) : string * Z * option Z := (fst d, snd field, None).
Definition case_run (fn : string * Z * option Z) (vc : list (string * (Z * option Z))) : res (list (string * (Z * option Z))) :=
  Ok (vc ++ [(fst (fst fn), (snd (fst fn), snd fn))])%list.
Theorem C48_second_expression_refuted :
  calculate_field case_construct case_eval case_run [("a=tas+1", false); ("b=tas*2", false)] ("tas", 5) None 0 =
    Ok ([("a=tas+1", (5, None)); ("a=tas+1", (5, None))], 2).
Proof. vm_compute. reflexivity. Qed.
Print Assumptions C48_second_expression_refuted.
Example C48_case :
  execute (fst : string * Z -> string) (fun f => Ok (snd f)) case_construct case_eval case_run true
    [("a=tas+1", false); ("mean", true)] [("tas", 5); ("pr", 6)] [] 0 =
  Ok ([[("a=tas+1", (5, None)); ("mean", (5, Some 5))]; [("a=tas+1", (6, None)); ("mean", (6, Some 6))]], [("tas", 5); ("pr", 6)], 4).
Proof. vm_compute. reflexivity. Qed.

(** C61.  Every field is grouped by its own time.  Partial: fields of the same name
    must have the same grouping. *)
Theorem C61_own_groups_partial : forall (Def Field Group Fn Var : Type) (field_name : Field -> string) (get_grouping : Field -> res Group)
  (construct : Def -> Field -> option Group -> res Fn) (eval_function : Def -> Field -> Fn)
  (run : Fn -> list (string * Var) -> res (list (string * Var))) funcs fields marks outs tgds' marks',
  (forall f f', In f fields -> In f' fields -> field_name f = field_name f' -> get_grouping f = get_grouping f') ->
  execute field_name get_grouping construct eval_function run true funcs fields [] marks = Ok (outs, tgds', marks') ->
  forall field, In field fields -> exists g, dget String.eqb tgds' (field_name field) = Some g /\ get_grouping field = Ok g.
Proof. intros until run. exact (execute_groups_spec field_name get_grouping construct eval_function run). Qed.
Print Assumptions C61_own_groups_partial.
Theorem C61_same_name_refuted :
  execute (fst : string * Z -> string) (fun f => Ok (snd f)) case_construct case_eval case_run true
    [("mean", true)] [("tas", 5); ("tas", 6)] [] 0 =
  Ok ([[("mean", (5, Some 5))]; [("mean", (6, Some 5))]], [("tas", 5)], 2).
Proof. vm_compute. reflexivity. Qed.
Print Assumptions C61_same_name_refuted.

(** C30. *)
Theorem C30_tiles : forall nrow ncol tdim, 0 <= nrow -> 0 <= ncol -> 1 <= tdim ->
  exists tiles, get_tile_schema nrow ncol tdim 0 = Ok tiles /\ map fst tiles = zrange 0 (zlen tiles) /\
    (forall row col, 0 <= row < nrow -> 0 <= col < ncol -> ExactlyOne (InTile row col) tiles) /\
    (forall id r0 r1 c0 c1, In (id, ((r0, r1), (c0, c1))) tiles ->
       0 <= r0 < r1 /\ r1 <= nrow /\ r1 - r0 <= tdim /\ 0 <= c0 < c1 /\ c1 <= ncol /\ c1 - c0 <= tdim).
Proof. exact tile_schema_spec. Qed.
Print Assumptions C30_tiles.
Example C30_case : get_tile_schema 5 4 2 0 =
  Ok [(0, ((0, 2), (0, 2))); (1, ((0, 2), (2, 4))); (2, ((2, 4), (0, 2))); (3, ((2, 4), (2, 4))); (4, ((4, 5), (0, 2))); (5, ((4, 5), (2, 4)))].
Proof. vm_compute. reflexivity. Qed.
