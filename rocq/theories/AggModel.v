(** Model of the execution of calculations: conformed arrays and temporal
    aggregation (src/ocgis/calc/base.py), the calculation engine
    (src/ocgis/calc/engine.py) and tile schemas (src/ocgis/calc/tile.py). *)
From Verif Require Import Py PartitionModel NdModel CalcModel.
Local Open Scope string_scope.
Local Open Scope Z_scope.

(** calc/base.py:22-23 with constants.py [DimensionMapKey]. *)
Definition STANDARD : list string := ["realization"; "time"; "level"; "y"; "x"].

(** [arr[slc]] where [slc] has an index or [slice(None)] for every axis. *)
Fixpoint take_shape (slc : list (option Z)) (shape : list Z) : list Z :=
  match slc, shape with
  | None :: s, n :: t => n :: take_shape s t
  | Some _ :: s, _ :: t => take_shape s t
  | _, _ => []
  end.
Fixpoint take_index (slc : list (option Z)) (idx : list Z) : list Z :=
  match slc with
  | [] => []
  | Some i :: s => i :: take_index s idx
  | None :: s => match idx with i :: t => i :: take_index s t | [] => [] end
  end.
Definition np_take {A} (arr : nd A) (slc : list (option Z)) : res (nd A) :=
  if forallb (fun p => match fst p with Some i => (- snd p <=? i) && (i <? snd p) | None => true end)
       (combine slc (nd_shape arr))
  then Ok (mknd (take_shape slc (nd_shape arr)) (fun idx => nd_at arr (take_index slc idx)))
  else Err IndexError.

(** [zip_longest([index], range(size), fillvalue=index)]. *)
Definition zip_extra (index : nat) (size : Z) : list (nat * Z) :=
  match zrange 0 size with
  | [] => [(index, Z.of_nat index)]
  | l => map (pair index) l
  end.

(** calc/base.py:427-442 [_get_extra_indices_itr_and_src_names_]: the indices of the
    extra dimensions, and the names of the others. *)
Definition extra_indices (crosswalk : list string) (shape : list Z) : res (list (list (nat * Z)) * list string) :=
  let extra := filter (fun dn => negb (str_mem dn STANDARD)) crosswalk in                    (* 428 *)
  do izl <- map_res (fun e => do i <- str_index crosswalk e;                                 (* 429 *)
                              do n <- match nth_error shape i with Some n => Ok n | None => Err IndexError end;
                              Ok (zip_extra i n)) extra;                                     (* 430-431, 436-437 *)
  Ok (list_product izl, filter (fun dn => negb (str_mem dn extra)) crosswalk).               (* 434, 438 *)

(** A view of an array gives the base index behind every index. *)
Definition base_view (shape : list Z) : nd (list Z) := mknd shape (fun idx => idx).

(** calc/base.py:525-562 [_iter_conformed_arrays_]: for every index of the extra
    dimensions the array in standard order, and the view of the output array to be
    written to.  The generator is a list here.  The sample size array (541-542, 548-551)
    is treated like the output array and left out. *)
Definition conformed {A} (crosswalk : list string) (arr : nd A) (fill_shape : list Z) : res (list (nd A * nd (list Z))) :=
  do e <- extra_indices crosswalk (nd_shape arr);
  let '(itr, src_names) := e in
  map_res (fun indices =>
    let slc := fold_left (fun s (ii : nat * Z) => set_nth s (fst ii) (Some (snd ii))) indices
                 (repeat None (List.length (nd_shape arr))) in                               (* 536-538 *)
    do extras_removed <- np_take arr slc;                                                    (* 539 *)
    do extras_removed_fill <- np_take (base_view fill_shape) slc;                            (* 540 *)
    do carr <- broadcast_array extras_removed src_names STANDARD;                            (* 546-547 *)
    do carr_fill <- broadcast_array extras_removed_fill src_names STANDARD;
    Ok (carr, carr_fill)) itr.

(** Assignment of one element of the base array. *)
Definition upd {B} (fill : list Z -> B) (b : list Z) (v : B) : list Z -> B := fun idx => if listZ_eqb idx b then v else fill idx.

(** [carr_fill.data[ir, it, il, :, :] = res.data] together with the mask.  The result
    must have the shape of the plane: NumPy broadcasting of other results, and the
    ValueError that is swallowed for incompatible ones (506-508), are not modelled. *)
Definition write_plane {B} (view : nd (list Z)) (prefix : list Z) (plane : list Z) (r : nd B) (fill : list Z -> B)
  : res (list Z -> B) :=
  do _ <- check_shape r plane ValueError;
  Ok (fold_left (fun fill yx => upd fill (nd_at view (app prefix yx)) (nd_at r yx)) (indices plane) fill).

(** The steps selected by the boolean array of a group. *)
Definition members (group : list bool) : list Z := bool_select group (zrange 0 (zlen group)).

(** [carr[ir, group, il, :, :]]: IndexError unless the group has an entry for every
    time step. *)
Definition group_block {A} (carr : nd A) (ir il : Z) (group : list bool) : res (nd A) :=
  match nd_shape carr with
  | [_; nt; _; ny; nx] =>
    if zlen group =? nt
    then Ok (mknd [zlen (members group); ny; nx]
           (fun idx => match idx with
                       | k :: yx => nd_at carr (ir :: nth (Z.to_nat k) (members group) 0 :: il :: yx)
                       | [] => nd_at carr []
                       end))
    else Err IndexError
  | _ => Err IndexError
  end.

(** calc/base.py:480-516, the loops over one pair of conformed arrays, without
    spatial aggregation and sample size. *)
Definition agg_loop {A B} (f : nd (mcell A) -> res (nd (mcell B))) (groups : list (list bool))
  (pair : nd (mcell A) * nd (list Z)) (fill : list Z -> mcell B) : res (list Z -> mcell B) :=
  let '(carr, carr_fill) := pair in
  match nd_shape carr with
  | [nr; _; nl; ny; nx] =>
    fold_res (fun fill rlt =>
        match rlt with
        | [ir; il; it] =>
          do group <- py_index groups it;                                                    (* 495 *)
          do block <- group_block carr ir il group;                                          (* 496 *)
          do r <- f block;                                                                   (* 498 *)
          write_plane carr_fill [ir; it; il] [ny; nx] r fill                                 (* 505-510 *)
        | _ => Err IndexError
        end)
      (list_product [zrange 0 nr; zrange 0 nl; zrange 0 (zlen groups)]) fill                 (* 489-494 *)
  | _ => Err IndexError
  end.

(** calc/base.py:447-523 [_get_temporal_agg_fill_] for a variable whose dimensions are
    called [crosswalk] in standard names; [fill] is the allocated output array. *)
Definition temporal_agg {A B} (f : nd (mcell A) -> res (nd (mcell B))) (crosswalk : list string) (arr : nd (mcell A))
  (groups : list (list bool)) (fill : list Z -> mcell B) : res (nd (mcell B)) :=
  do time_axis <- str_index crosswalk "time";                                                (* 460 *)
  let fill_shape := set_nth (nd_shape arr) time_axis (zlen groups) in                        (* 461-464 *)
  do pairs <- conformed crosswalk arr fill_shape;
  do fill' <- fold_res (fun fill p => agg_loop f groups p fill) pairs fill;
  Ok (mknd fill_shape fill').

(** calc/base.py:702-738 [AbstractUnivariateFunction._execute_] without groups: the
    function gets the conformed arrays, its results are written in place. *)
Definition transform {A B} (f : nd (mcell A) -> res (nd (mcell B))) (crosswalk : list string) (arr : nd (mcell A))
  (fill : list Z -> mcell B) : res (nd (mcell B)) :=
  do pairs <- conformed crosswalk arr (nd_shape arr);
  do fill' <- fold_res (fun fill (p : nd (mcell A) * nd (list Z)) =>
                 do r <- f (fst p);
                 write_plane (snd p) [] (nd_shape (fst p)) r fill) pairs fill;
  Ok (mknd (nd_shape arr) fill').

(** ** The engine *)

(** calc/engine.py:47-155 [CalculationEngine.execute].  [construct d field tgd] is
    [f['ref'](alias=f['name'], ...)]: a KeyError if the definition has no name.
    [eval_function d field] is [EvalFunction(expr=d['func'], ...)].  [run] executes a
    function on the variable collection built so far. *)
Section Engine.
  Context {Def Field Group Fn Var : Type}.
  Context (field_name : Field -> string) (get_grouping : Field -> res Group).
  Context (construct : Def -> Field -> option Group -> res Fn) (eval_function : Def -> Field -> Fn).
  Context (run : Fn -> list (string * Var) -> res (list (string * Var))).

  (** 65-73: groups are kept by field name.  [tgds] is the store of the engine. *)
  Definition collect_groups (fields : list Field) (tgds : list (string * Group)) : res (list (string * Group)) :=
    fold_res (fun tgds field =>
      if dmem String.eqb tgds (field_name field) then Ok tgds
      else do g <- get_grouping field; Ok (dset String.eqb tgds (field_name field) g)) fields tgds.

  (** 93-109: the function object for one definition. *)
  Definition make_function (funcs : list Def) (f : Def) (field : Field) (tgd : option Group) : res Fn :=
    match construct f field tgd with
    | Ok fn => Ok fn
    | Err KeyError => match funcs with d :: _ => Ok (eval_function d field) | [] => Err IndexError end
    | Err e => Err e
    end.

  (** 90-130: all functions on one field.  The result is the variable collection and
      the number of progress marks.  An empty list of functions makes [function]
      unbound at 132. *)
  Definition calculate_field (funcs : list Def) (field : Field) (tgd : option Group) (marks : Z)
    : res (list (string * Var) * Z) :=
    match funcs with
    | [] => Err NameError
    | _ => fold_res (fun st f =>
             let '(vc, marks) := st in
             do fn <- make_function funcs f field tgd;
             do vc' <- run fn vc;
             Ok (vc', marks + 1)) funcs ([], marks)
    end.

  (** The fields of a collection in the order of its containers; [grouped] says
      whether the engine has a grouping.  The checks of groups passed in (68-69, 81-88)
      are not modelled: the groups come from the engine's own store. *)
  Definition execute (grouped : bool) (funcs : list Def) (fields : list Field) (tgds : list (string * Group)) (marks : Z)
    : res (list (list (string * Var)) * list (string * Group) * Z) :=
    do tgds' <- (if grouped then collect_groups fields tgds else Ok tgds);
    do st <- fold_res (fun st field =>
               let '(out, marks) := st in
               do r <- calculate_field funcs field (dget String.eqb tgds' (field_name field)) marks;
               Ok (app out [fst r], snd r)) fields ([], marks);
    Ok (fst st, tgds', snd st).
End Engine.

(** ** Tiles *)

(** [np.arange(start, stop, step=step)] for a positive step. *)
Definition np_arange (start stop step : Z) : list Z :=
  map (fun k => start + k * step) (zrange 0 ((stop - start + step - 1) / step)).

(** calc/tile.py:25-34 [get_slices]. *)
Definition get_slices (arr : list Z) : list (Z * Z) := adjacent pair arr.

(** calc/tile.py:8-13 for one axis; [row_idx[-1]] of an empty array raises. *)
Definition tile_slices (n tdim origin : Z) : res (list (Z * Z)) :=
  let idx := np_arange origin (n + tdim) tdim in
  do last <- py_index idx (-1);
  Ok (get_slices (if n <? last then set_nth idx (List.length idx - 1) n else idx)).

(** calc/tile.py:6-22 [get_tile_schema]. *)
Definition get_tile_schema (nrow ncol tdim origin : Z) : res (list (Z * ((Z * Z) * (Z * Z)))) :=
  do rows <- tile_slices nrow tdim origin;
  do cols <- tile_slices ncol tdim origin;
  let tiles := flat_map (fun r => map (pair r) cols) rows in
  Ok (fold_left (fun ret it => dset Z.eqb ret (fst it) (snd it)) (combine (zrange 0 (zlen tiles)) tiles) []).
