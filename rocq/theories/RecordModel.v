(** Model of record iteration: src/ocgis/variable/iterator.py,
    src/ocgis/variable/base.py 1314-1363 ([Variable.get_iter]) and 2053-2138
    ([VariableCollection.iter]). *)
From Verif Require Import Py PartitionModel NdModel.

(** What a record holds under a name: a value of the variable's array, the
    [None] put in place of a masked value, or a text. *)
Inductive fld (A : Type) := FVal (v : A) | FNone | FText (s : string).
Arguments FVal {A}. Arguments FNone {A}. Arguments FText {A}.
Definition entry (A : Type) := (string * fld A)%type.

(** A variable: name, dimensions with values and mask, and its
    [repeat_record] (base.py:283). *)
Record rvar (A : Type) := mkrvar { r_name : string; r_var : nvar A; r_repeat : option (list (entry A)) }.
Arguments mkrvar {A}. Arguments r_name {A}. Arguments r_var {A}. Arguments r_repeat {A}.

(** An [Iterator] without its followers (iterator.py:13-66). *)
Record iter (A : Type) := mkiter {
  i_name : string; i_dims : list string; i_value : nd A; i_mask : option (nd bool); i_shape : list Z;
  i_allow : bool; i_primary : string; i_remap : option (list nat); i_rep : option (list (entry A));
  i_fmt : option (string -> fld A -> bool -> list (entry A)); i_clobber : bool }.
Arguments mkiter {A}. Arguments i_name {A}. Arguments i_dims {A}. Arguments i_value {A}. Arguments i_mask {A}.
Arguments i_shape {A}. Arguments i_allow {A}. Arguments i_primary {A}. Arguments i_remap {A}. Arguments i_rep {A}.
Arguments i_fmt {A}. Arguments i_clobber {A}.

(** iterator.py:24-29: the variable's [repeat_record] is added to the
    [repeaters] given. *)
Definition add_repeaters {A} (repeaters repeat : option (list (entry A))) : option (list (entry A)) :=
  match repeat with
  | None => repeaters
  | Some r => match repeaters with None => Some r | Some l => Some (l ++ r) end
  end.

(** iterator.py:13-66, with the default [slice_remap], [shape], [value] and [mask]. *)
Definition new_iter {A} (v : rvar A) (allow : bool) (primary : option string) (repeaters : option (list (entry A)))
    (fmt : option (string -> fld A -> bool -> list (entry A))) (clobber : bool) : iter A :=
  mkiter (r_name v) (nv_names (r_var v)) (nv_value (r_var v)) (nv_mask (r_var v)) (nv_shape (r_var v))
    allow (match primary with None => r_name v | Some p => p end) None (add_repeaters repeaters (r_repeat v)) fmt clobber.

(** Followers are variables or iterators, which may have followers of their own
    (already linked to them). *)
Inductive follower (A : Type) := FVar (v : rvar A) | FIter (i : iter A) (sub : list (iter A)).
Arguments FVar {A}. Arguments FIter {A}.

(** iterator.py:218-231 [get_followers] flattens; 71-76 makes iterators of the
    variables. *)
Definition follower_iters {A} (lead : iter A) (f : follower A) : list (iter A) :=
  match f with
  | FVar v => [new_iter v (i_allow lead) (Some (i_primary lead)) None None true]
  | FIter i sub => i :: sub
  end.

(** iterator.py:78-93: checking and mapping the dimensions of one follower. *)
Definition link {A} (lead f : iter A) : res (iter A) :=
  if forallb (fun d => str_mem d (i_dims lead)) (i_dims f) then
    if strs_eqb (i_dims f) (i_dims lead) then Ok f
    else do remap <- map_res (str_index (i_dims lead)) (i_dims f);
      Ok (mkiter (i_name f) (i_dims f) (i_value f) (i_mask f) (i_shape lead) (i_allow f) (i_primary f)
            (Some remap) (i_rep f) (i_fmt f) (i_clobber f))
  else Err ValueError.

(** [value.__getitem__(idx)] with a tuple of non-negative integers. *)
Fixpoint inside (shape idx : list Z) : bool :=
  match shape, idx with
  | [], [] => true
  | n :: s, i :: t => (0 <=? i) && (i <? n) && inside s t
  | _, _ => false
  end.
Definition np_get {A} (a : nd A) (idx : list Z) : res A :=
  if inside (nd_shape a) idx then Ok (nd_at a idx) else Err IndexError.

(** [idx[ii]]. *)
Definition tuple_get (idx : list Z) (ii : nat) : res Z :=
  match nth_error idx ii with Some x => Ok x | None => Err IndexError end.

(** iterator.py:143-166: what one iterator gives for one index of its shape;
    [None] is the skip flag.  [get_record] is iterator.py:199-215. *)
Definition one {A} (it : iter A) (idx : list Z) : res (option (list (entry A))) :=
  do idx <- match i_remap it with None => Ok idx | Some l => map_res (tuple_get idx) l end;
  do m <- match i_mask it with None => Ok false | Some a => np_get a idx end;
  do v <- np_get (i_value it) idx;
  let val := if m && i_clobber it then FNone else FVal v in
  if negb (i_allow it) && m && String.eqb (i_primary it) (i_name it) then Ok None
  else
    let y := match i_fmt it with None => [(i_name it, val)] | Some f => f (i_name it) val m end in
    Ok (Some (match i_rep it with None => y | Some r => r ++ y end)).

(** iterator.py:142-166: all an iterator gives. *)
Definition stream {A} (it : iter A) : res (list (option (list (entry A)))) :=
  map_res (one it) (indices (i_shape it)).

(** [zip] over the iterators: stops with the shortest. *)
Fixpoint uncons_all {X} (l : list (list X)) : option (list X * list (list X)) :=
  match l with
  | [] => Some ([], [])
  | [] :: _ => None
  | (x :: t) :: l' => match uncons_all l' with Some (hs, ts) => Some (x :: hs, t :: ts) | None => None end
  end.
Fixpoint zip_all {X} (first : list X) (rest : list (list X)) : list (list X) :=
  match first with
  | [] => []
  | x :: t => match uncons_all rest with Some (hs, ts) => (x :: hs) :: zip_all t ts | None => [] end
  end.

(** iterator.py:175-178: the ordered dictionary of all entries. *)
Definition put {A} (d : list (entry A)) (e : entry A) : list (entry A) := dset String.eqb d (fst e) (snd e).
Definition collect {A} (l : list (entry A)) : list (entry A) := fold_left put l [].

(** iterator.py:180-192: the melted values are taken out of the record, which is
    then completed once for each melted variable and copied. *)
Definition pop {A} (d : list (entry A)) (k : string) : res (list (entry A) * fld A) :=
  match dget String.eqb d k with Some v => Ok (dremove String.eqb d k, v) | None => Err KeyError end.
Fixpoint pop_all {A} (d : list (entry A)) (ks : list string) : res (list (entry A) * list (fld A)) :=
  match ks with
  | [] => Ok (d, [])
  | k :: t => do r <- pop d k; do s <- pop_all (fst r) t; Ok (fst s, snd r :: snd s)
  end.
Fixpoint emit {A} (d : list (entry A)) (reps : list (string * list (entry A))) (ms : list string) (vals : list (fld A))
    : list (list (entry A)) :=
  match ms, vals with
  | m :: ms', v :: vals' =>
    let d := match dget String.eqb reps m with None => d | Some r => fold_left put r d end in
    let d := put (put d ("VARIABLE"%string, FText m)) ("VALUE"%string, v) in
    d :: emit d reps ms' vals'
  | _, _ => []
  end.

(** iterator.py:171-194: what the outer iteration yields for one tuple of
    streams.  A skip flag that is not skipped is an integer that cannot be
    iterated. *)
Definition step {A} (allow has_followers : bool) (melted : option (list string)) (reps : list (string * list (entry A)))
    (record : list (option (list (entry A)))) : res (list (list (entry A))) :=
  if negb allow && existsb (fun r => match r with None => true | Some _ => false end) record then Ok []
  else
    do entries <- map_res (fun r => match r with Some l => Ok l | None => Err TypeError end) record;
    let d := collect (List.concat entries) in
    match melted with
    | None => Ok [d]
    | Some ms =>
      if has_followers then do r <- pop_all d ms; Ok (emit (fst r) reps ms (snd r)) else Ok []
    end.

(** iterator.py:33-48: names and [repeat_record]s of the melted variables. *)
Definition melted_repeaters {A} (ms : list (rvar A)) : list (string * list (entry A)) :=
  flat_map (fun m => match r_repeat m with None => [] | Some r => [(r_name m, r)] end) ms.

(** [list(Iterator(variable, followers=followers, melted=melted, ...))]: an
    exception replaces the whole list, the records yielded before it are not
    recorded. *)
Definition iterate {A} (lead : iter A) (followers : option (list (follower A))) (melted : option (list (rvar A)))
    : res (list (list (entry A))) :=
  match melted, followers with
  | Some _, None => Err ValueError
  | _, _ =>
    let fs := match followers with None => [] | Some l => flat_map (follower_iters lead) l end in
    do fs <- map_res (link lead) fs;
    do first <- stream lead;
    do rest <- map_res stream fs;
    do outs <- map_res (step (i_allow lead) (negb (match fs with [] => true | _ => false end))
                          (match melted with None => None | Some ms => Some (map r_name ms) end)
                          (match melted with None => [] | Some ms => melted_repeaters ms end))
                 (zip_all first rest);
    Ok (List.concat outs)
  end.

(** base.py:1314-1363 [Variable.get_iter] of a variable without bounds or whose
    one-dimensional bounds are not asked for.  The list stored on the variable is
    handed to the iterator, which extends it in place (iterator.py:24-28): the
    variable afterwards is returned with the iterator. *)
Definition get_iter {A} (v : rvar A) (has_bounds : bool) (allow : bool) (primary : option string)
    (repeaters : option (list (entry A))) (fmt : option (string -> fld A -> bool -> list (entry A))) (clobber : bool)
    : rvar A * res (iter A) :=
  let given := match repeaters, r_repeat v with
               | None, Some r => Some r
               | Some l, Some r => Some (l ++ r)
               | l, None => l
               end in
  let v' := match repeaters, r_repeat v with
            | None, Some r => mkrvar (r_name v) (r_var v) (Some (r ++ r))
            | _, _ => v
            end in
  let it := mkiter (r_name v) (nv_names (r_var v)) (nv_value (r_var v)) (nv_mask (r_var v)) (nv_shape (r_var v))
    allow (match primary with None => r_name v | Some p => p end) None (add_repeaters given (r_repeat v)) fmt clobber in
  (v', if has_bounds then Err TypeError else Ok it).

(** base.py:2102-2133: what [VariableCollection.iter] does to one record.
    [header_map] is an ordered dictionary. *)
Fixpoint take_mapped {A} (strict : bool) (yld : list (entry A)) (header_map : list (string * string)) (new : list (entry A))
    : res (list (entry A)) :=
  match header_map with
  | [] => Ok new
  | (k, v) :: t =>
    match dget String.eqb yld k with
    | Some x => take_mapped strict yld t (put new (v, x))
    | None => if strict then Err KeyError else take_mapped strict yld t new
    end
  end.
Definition getitem {A} (d : list (entry A)) (k : string) : res (fld A) :=
  match dget String.eqb d k with Some x => Ok x | None => Err KeyError end.
Definition calc_key : string := "CALC_KEY".
Definition conform {A} (geom : option string) (header_map : option (list (string * string))) (strict has_melted : bool)
    (yld : list (entry A)) : res (option (fld A) * list (entry A)) :=
  do g <- match geom with
          | None => Ok (yld, None)
          | Some n => do r <- pop yld n; Ok (fst r, Some (snd r))
          end;
  let yld := fst g in
  do yld <- match header_map with
            | None => Ok yld
            | Some hm =>
              do new <- take_mapped strict yld hm [];
              do new <- (if has_melted then
                           do a <- getitem yld "VARIABLE";
                           let new := put new ("VARIABLE"%string, a) in
                           do b <- getitem yld "VALUE";
                           Ok (put new ("VALUE"%string, b))
                         else Ok new);
              Ok (if strict then new
                  else fold_left put (filter (fun e => negb (str_mem (fst e) (map fst hm))) yld) new)
            end;
  Ok (snd g, if has_melted then yld else dremove String.eqb yld calc_key).

(** base.py:2083-2138 [VariableCollection.iter] without the [geom], [variable] and
    [followers] keywords, of a collection with at least one variable: the first
    variable leads, the others follow. *)
Definition collection_iter {A} (v : rvar A) (others : list (rvar A)) (melted : option (list (rvar A)))
    (allow : bool) (header_map : option (list (string * string))) (strict : bool) : res (list (list (entry A))) :=
  do recs <- iterate (new_iter v allow None None None true) (Some (map FVar others)) melted;
  do outs <- map_res (conform None header_map strict (match melted with None => false | _ => true end)) recs;
  Ok (map snd outs).
