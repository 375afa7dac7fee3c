(** Model of dictionary slicing of collections and variables:
    [VariableCollection.__getitem__] and [Variable.__getitem__] of
    src/ocgis/variable/base.py. *)
From Verif Require Import Py PartitionModel DimensionModel NdModel.

(** A variable with its dimension names, values and mask (either may be absent),
    and a collection with its dimensions and variables. *)
Record svar (A : Type) := mksvar { sv_dims : list string; sv_value : option (nd A); sv_mask : option (nd bool) }.
Arguments mksvar {A}. Arguments sv_dims {A}. Arguments sv_value {A}. Arguments sv_mask {A}.
Record scoll (A : Type) := mkscoll { sc_dims : list (string * dim); sc_vars : list (string * svar A) }.
Arguments mkscoll {A}. Arguments sc_dims {A}. Arguments sc_vars {A}.

(** What a slice is given as.  Integer and boolean sequences are NumPy arrays
    ([Given]) or Python lists ([Listed]). *)
Inductive item := Given (r : rawslc) | Listed (r : rawslc).
Definition item_raw (i : item) : rawslc := match i with Given r | Listed r => r end.

(** What comes out of formatting the slices of a variable: one entry per axis, or
    an integer array of shape (1, n) for the only axis. *)
Inductive fslc := FAxes (l : list slc) | FRow (l : list Z).

(** util/helpers.py:435-490 [get_formatted_slice] of a list of slices.  With one
    dimension the list itself goes to [_format_singleton_] (475): 454-458 unpack
    a slice or array; an integer becomes an array of one element (460); a list
    becomes an array of shape (1, n) (460), which as a boolean array does not
    index a one-dimensional array; [None] has no minimum (631). *)
Definition format_items (items : list item) : res fslc :=
  match items with
  | [] => Err NotImplementedError                                               (* 481-482 *)
  | [Given RNone] | [Listed RNone] => Err TypeError
  | [Given r] => do s <- format_singleton r; Ok (FAxes [s])
  | [Listed (RInts l)] =>
    if any_diff_gt1 l then Ok (FRow l)
    else do a <- list_min l; do b <- list_max l; Ok (FAxes [SSlice (slice_of a (b + 1))])
  | [Listed (RBools _)] => Err IndexError
  | [Listed r] => do s <- format_singleton r; Ok (FAxes [s])
  | _ => do ss <- map_res (fun i => format_singleton (item_raw i)) items; Ok (FAxes ss)   (* 476-480 *)
  end.

(** NumPy indexing [arr[tuple]] with one slice or one-dimensional array per axis.
    With at most one array every axis is selected on its own.  With several they
    are broadcast against each other (IndexError unless the lengths are equal or
    one) and give a single axis: in the place of the first one if they are next to
    each other, otherwise in front. *)
Definition is_array (s : slc) : bool := match s with SSlice _ => false | _ => true end.
Definition axis_positions (shape : list Z) (ss : list slc) : res (list (list Z)) :=
  map_res (fun p : Z * slc => fancy_getitem (zrange 0 (fst p)) (snd p)) (combine shape ss).
Fixpoint pick_axes (ps : list (list Z)) (idx : list Z) : list Z :=
  match ps, idx with
  | p :: ps', i :: t => nth (Z.to_nat i) p 0 :: pick_axes ps' t
  | _, _ => []
  end.
Fixpoint pick_joint (arrays : list bool) (ps : list (list Z)) (j : Z) (rest : list Z) : list Z :=
  match arrays, ps with
  | true :: a, p :: ps' => nth (Z.to_nat (if zlen p =? 1 then 0 else j)) p 0 :: pick_joint a ps' j rest
  | false :: a, p :: ps' =>
    match rest with
    | i :: t => nth (Z.to_nat i) p 0 :: pick_joint a ps' j t
    | [] => []
    end
  | _, _ => []
  end.
Fixpoint joint_length (l : list Z) (acc : Z) : res Z :=
  match l with
  | [] => Ok acc
  | n :: t => if (n =? acc) || (n =? 1) then joint_length t acc
              else if acc =? 1 then joint_length t n else Err IndexError
  end.
Fixpoint leading (b : bool) (l : list bool) : nat :=
  match l with [] => O | x :: t => if Bool.eqb x b then S (leading b t) else O end.
Definition np_getitem {A} (a : nd A) (ss : list slc) : res (nd A) :=
  if zlen (nd_shape a) =? zlen ss then
    do ps <- axis_positions (nd_shape a) ss;
    let arrays := map is_array ss in
    if (2 <=? zlen (filter (fun b => b) arrays)) then
      do n <- joint_length (map zlen (bool_select arrays ps)) 1;
      let slices := map zlen (bool_select (map negb arrays) ps) in
      let before := leading false arrays in
      let run := leading true (skipn before arrays) in
      let adjacent := negb (existsb (fun b => b) (skipn (before + run) arrays)) in
      let at_ := if adjacent then before else O in
      Ok (mknd (firstn at_ slices ++ n :: skipn at_ slices)
               (fun idx => nd_at a (pick_joint arrays ps (nth at_ idx 0) (firstn at_ idx ++ skipn (S at_) idx))))
    else Ok (mknd (map zlen ps) (fun idx => nd_at a (pick_axes ps idx)))
  else Err IndexError.
(** The same with an array of shape (1, n). *)
Definition np_getrow {A} (a : nd A) (l : list Z) : res (nd A) :=
  match nd_shape a with
  | [n] => do p <- map_res (py_index (zrange 0 n)) l;
           Ok (mknd [1; zlen p] (fun idx => nd_at a [nth (Z.to_nat (nth 1 idx 0)) p 0]))
  | _ => Err IndexError
  end.
Definition np_get {A} (a : nd A) (f : fslc) : res (nd A) :=
  match f with FAxes ss => np_getitem a ss | FRow l => np_getrow a l end.

(** variable/base.py:322-334 [_getitem_main_]. *)
Definition opt_res {A B} (f : A -> res B) (o : option A) : res (option B) :=
  match o with None => Ok None | Some a => do b <- f a; Ok (Some b) end.
Definition slice_main {A} (v : svar A) (f : fslc) : res (svar A) :=
  do value <- opt_res (fun a => np_get a f) (sv_value v);
  do mask <- opt_res (fun a => np_get a f) (sv_mask v);
  Ok (mksvar (sv_dims v) value mask).

(** variable/base.py:1779-1791, one variable of the collection: sliced in place
    while it has no parent (53-60), if it has a dimension that is sliced. *)
Definition mapped_slice (dslice : list (string * item)) (names : list string) : list item :=
  map (fun n => match dget String.eqb dslice n with Some i => i | None => Given (RSlice slice_none) end) names.   (* 1785-1787 *)
Definition slice_member {A} (dslice : list (string * item)) (v : svar A) : res (svar A) :=
  if existsb (fun n => dmem String.eqb dslice n) (sv_dims v)                    (* 1781-1784 *)
  then do f <- format_items (mapped_slice dslice (sv_dims v)); slice_main v f   (* 1788 *)
  else Ok v.                                                                    (* 1790-1792 *)

(** variable/base.py:1762-1794 [VariableCollection.__getitem__] with a dictionary.
    The copy (1775) shares nothing that is assigned to below. *)
Definition slice_dims (dims : list (string * dim)) (dslice : list (string * item)) : res (list (string * dim)) :=
  fold_res (fun acc p =>
    match dget String.eqb dims (fst p) with
    | None => Err KeyError
    | Some d => do d' <- dim_getitem d (item_raw (snd p)); Ok (dset String.eqb acc (fst p) d')   (* 1777 *)
    end) dslice dims.
Definition slice_collection {A} (c : scoll A) (dslice : list (string * item)) : res (scoll A) :=
  match sc_dims c with
  | [] => Err DimensionsRequiredError                                           (* 1772-1773 *)
  | _ =>
    do dims <- slice_dims (sc_dims c) dslice;
    do vars <- map_res (fun p => do v <- slice_member dslice (snd p); Ok (fst p, v)) (sc_vars c);
    Ok (mkscoll dims vars)
  end.

(** variable/base.py:53-67 [AbstractContainer.__getitem__] of a variable of the
    collection, given one slice per dimension (for one dimension the slice itself):
    the slices are formatted (176-188) and the whole collection is sliced (63-66).
    A variable without dimensions is not sliced (helpers.py:481-482). *)
Definition slc_raw (s : slc) : rawslc := match s with SSlice s => RSlice s | SInts l => RInts l | SBools m => RBools m end.
Definition slice_variable {A} (c : scoll A) (name : string) (raws : list item) : res (scoll A * svar A) :=
  match dget String.eqb (sc_vars c) name with
  | None => Err KeyError
  | Some v =>
    if zlen (sv_dims v) =? 0 then Err NotImplementedError
    else if zlen raws =? zlen (sv_dims v) then
      do ss <- map_res (fun i => format_singleton (item_raw i)) raws;
      do c' <- slice_collection c (fold_left (fun d p => dset String.eqb d (fst p) (snd p))
                                     (combine (sv_dims v) (map (fun s => Given (slc_raw s)) ss)) []);   (* 2402-2403 *)
      match dget String.eqb (sc_vars c') name with None => Err KeyError | Some v' => Ok (c', v') end
    else Err IndexError
  end.
