(** Model of [Variable.get_between], src/ocgis/variable/base.py:1150-1237, for
    variables of one dimension.  Values and bounds are rational numbers; only
    comparisons of them are used. *)
From Verif Require Import Py.
From Coq Require Export QArith.
Global Open Scope Z_scope.

(** NumPy comparisons. *)
Definition qge (x y : Q) : bool := Qle_bool y x.
Definition qle (x y : Q) : bool := Qle_bool x y.
Definition qgt (x y : Q) : bool := negb (Qle_bool x y).
Definition qlt (x y : Q) : bool := negb (Qle_bool y x).

(** 1166-1177: the first two rows of the bounds share a value. *)
Definition is_contiguous (bounds : list (Q * Q)) : res bool :=
  match bounds with
  | (a, b) :: (c, d) :: _ => Ok (Qeq_bool a c || Qeq_bool a d || Qeq_bool b c || Qeq_bool b d)
  | [_] => Ok false
  | [] => Err IndexError
  end.

(** 1192-1200: minimum and maximum column, decided by the first row. *)
Definition orient (bounds : list (Q * Q)) : list (Q * Q) :=
  match bounds with
  | (a, b) :: _ => if qle a b then bounds else map (fun r => (snd r, fst r)) bounds
  | [] => []
  end.

(** 1180-1216. *)
Definition between_select (values : list Q) (bounds : option (list (Q * Q))) (lower upper : Q) (closed use_bounds : bool)
  : res (list bool) :=
  do contiguous <- match bounds with Some b => is_contiguous b | None => Ok false end;
  match bounds with
  | Some b =>
    if use_bounds then
      Ok (map (fun r =>
        let '(bounds_min, bounds_max) := r in
        let '(select_lower, select_upper) :=
          if closed then (qgt bounds_min lower || qgt bounds_max lower, qlt bounds_min upper || qlt bounds_max upper)
          else if contiguous then (qge bounds_min lower || qgt bounds_max lower, qle bounds_min upper || qlt bounds_max upper)
          else (qge bounds_min lower || qge bounds_max lower, qle bounds_min upper || qle bounds_max upper) in
        select_lower && select_upper) (orient b))
    else Ok (map (fun v => if closed then qgt v lower && qlt v upper else qge v lower && qle v upper) values)
  | None => Ok (map (fun v => if closed then qgt v lower && qlt v upper else qge v lower && qle v upper) values)
  end.

(** [np.ma.clump_masked]: the maximal runs of selected elements. *)
Fixpoint clumps (k : Z) (l : list bool) : list (Z * Z) :=
  match l with
  | [] => []
  | false :: t => clumps (k + 1) t
  | true :: t =>
    match clumps (k + 1) t with
    | (a, b) :: r => if a =? k + 1 then (k, b) :: r else (k, k + 1) :: (a, b) :: r
    | [] => [(k, k + 1)]
    end
  end.

(** The index object used for slicing. *)
Inductive selector := SelSlice (s : pyslice) | SelBools (l : list bool).

(** [self[select]] on the elements of the variable (value, mask, bounds and source
    position all go the same way). *)
Definition var_getitem {A} (items : list A) (s : selector) : list A :=
  match s with SelSlice sl => py_slice items sl | SelBools m => bool_select m items end.

(** 1162, 1218-1237.  [items] are the elements of the variable; the second part of
    the result is there with [return_indices]. *)
Definition get_between {A} (items : list A) (values : list Q) (bounds : option (list (Q * Q))) (lower upper : Q)
  (return_indices closed use_bounds : bool) : res (list A * option (list Z)) :=
  if negb (qle lower upper) then Err AssertionError                                                   (* 1162 *)
  else
    do select <- between_select values bounds lower upper closed use_bounds;
    if negb (existsb (fun b => b) select) then Err EmptySubsetError                                   (* 1218-1219 *)
    else
      let sel := match clumps 0 select with
                 | [(a, b)] => SelSlice (slice_of a b)                                                (* 1229-1230 *)
                 | _ => SelBools select
                 end in
      let ret := var_getitem items sel in
      if return_indices then
        match sel with
        | SelSlice _ => Err AttributeError                      (* 1234: a slice has no attribute shape *)
        | SelBools m => Ok (ret, Some (bool_select m (zrange 0 (zlen m))))
        end
      else Ok (ret, None).
