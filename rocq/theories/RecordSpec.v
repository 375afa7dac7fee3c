(** Vocabulary of C41, C63 and C64. *)
From Verif Require Import Py Spec NdModel NdSpec RecordModel.
From Coq Require Import Sorted.

(** Row-major order: the first differing coordinate decides. *)
Fixpoint before (a b : list Z) : Prop :=
  match a, b with
  | x :: a', y :: b' => x < y \/ (x = y /\ before a' b')
  | _, _ => False
  end.

(** [l] lists the indices of the shape that satisfy [P], each once, in row-major
    order. *)
Definition RowMajor (shape : list Z) (P : list Z -> Prop) (l : list (list Z)) : Prop :=
  StronglySorted before l /\ forall idx, In idx l <-> IndexOf shape idx /\ P idx.

(** An iterator made for one variable and not yet linked to another. *)
Definition Fresh {A} (w : iter A) : Prop :=
  i_remap w = None /\ NoDup (i_dims w) /\ List.length (i_dims w) = List.length (i_shape w) /\
  nd_shape (i_value w) = i_shape w /\
  match i_mask w with None => True | Some m => nd_shape m = i_shape w end.

(** Every dimension of the follower is a dimension of the lead, with the same
    size, and both skip masked elements of the same variable or none. *)
Definition Follows {A} (lead f : iter A) : Prop :=
  Fresh f /\ incl (i_dims f) (i_dims lead) /\ Agree (i_dims f) (i_dims lead) (i_shape f) (i_shape lead) /\
  i_allow f = i_allow lead /\ i_primary f = i_primary lead.

(** [idxw] is the element of [w] at the coordinates of the element [idx] of the
    lead. *)
Definition At {A} (lead w : iter A) (idx idxw : list Z) : Prop :=
  IndexOf (nd_shape (i_value w)) idxw /\ Agree (i_dims w) (i_dims lead) idxw idx.

(** Is the element masked? *)
Definition hidden {A} (w : iter A) (idxw : list Z) : bool :=
  match i_mask w with None => false | Some m => nd_at m idxw end.

(** What a variable contributes to a record: its repeated entries, then its
    value under its name, or what its formatter makes of it; a masked value is
    [None] unless masked values are to be kept. *)
Definition cells {A} (w : iter A) (idxw : list Z) : list (entry A) :=
  let val := if hidden w idxw && i_clobber w then FNone else FVal (nd_at (i_value w) idxw) in
  (match i_rep w with None => [] | Some r => r end ++
   match i_fmt w with None => [(i_name w, val)] | Some f => f (i_name w) val (hidden w idxw) end)%list.

(** The entries of all variables at the coordinates of [idx]. *)
Definition Row {A} (ws : list (iter A)) (lead : iter A) (idx : list Z) (es : list (entry A)) : Prop :=
  exists ess, es = List.concat ess /\
    Forall2 (fun w e => exists idxw, At lead w idx idxw /\ e = cells w idxw) ws ess.

(** The element is left out: masked elements are not allowed and the variable
    whose mask decides is masked there. *)
Definition LeftOut {A} (ws : list (iter A)) (lead : iter A) (idx : list Z) : Prop :=
  i_allow lead = false /\
  exists w idxw, In w ws /\ i_name w = i_primary lead /\ At lead w idx idxw /\ hidden w idxw = true.

(** The last entry with a given name. *)
Definition LastOf {A} (l : list (entry A)) (k : string) (x : fld A) : Prop :=
  exists a b, l = (a ++ (k, x) :: b)%list /\ ~ In k (map fst b).

(** A record made of a list of entries: one entry for each name, with the last
    value; the list itself when no name occurs twice. *)
Definition DictOf {A} (l d : list (entry A)) : Prop :=
  NoDup (map fst d) /\ (forall k x, In (k, x) d <-> LastOf l k x) /\ (NoDup (map fst l) -> d = l).

(** The record of the melted variable [m]: its name and value, the entries it
    repeats, and the entries of the row that are not melted variables. *)
Definition MeltedRecord {A} (ms : list (rvar A)) (row : list (entry A)) (m : rvar A) (d : list (entry A)) : Prop :=
  NoDup (map fst d) /\
  forall k x, In (k, x) d <->
    (k = "VALUE"%string /\ LastOf row (r_name m) x) \/
    (k = "VARIABLE"%string /\ x = FText (r_name m)) \/
    (k <> "VALUE"%string /\ k <> "VARIABLE"%string /\
     match r_repeat m with
     | Some r => LastOf r k x \/ (~ In k (map fst r) /\ ~ In k (map r_name ms) /\ LastOf row k x)
     | None => ~ In k (map r_name ms) /\ LastOf row k x
     end).

(** The names a variable repeats. *)
Definition repeats {A} (m : rvar A) (k : string) : Prop :=
  match r_repeat m with None => False | Some r => In k (map fst r) end.

(** The same for plain variables: what [w] contributes to the record of the
    element [idx] of [v]. *)
Definition VarCells {A} (v w : rvar A) (idx : list Z) (e : list (entry A)) : Prop :=
  exists idxw, IndexOf (nv_shape (r_var w)) idxw /\ Agree (nv_names (r_var w)) (nv_names (r_var v)) idxw idx /\
    e = (match r_repeat w with None => [] | Some r => r end ++
         [(r_name w, if masked (r_var w) idxw then FNone else FVal (nd_at (nv_value (r_var w)) idxw))])%list.

(** Every dimension of [w] is a dimension of [v] (name and size). *)
Definition SharesDims {A} (v w : rvar A) : Prop := GoodVar (r_var w) /\ incl (nv_dims (r_var w)) (nv_dims (r_var v)).

(** Calling [get_iter] again and again. *)
Fixpoint after_iters {A} (n : nat) (v : rvar A) : rvar A :=
  match n with O => v | S n => after_iters n (fst (get_iter v false true None None None true)) end.
