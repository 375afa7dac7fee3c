(** Python values and conventions shared by all model files.

    Nothing in this file models an ocgis function: it fixes how Python
    exceptions, slices, sequences and integer arithmetic are written in
    Gallina.  Integers are unbounded [Z] as in Python; [Z.div]/[Z.modulo] are
    floor division and modulo exactly as [//] and [%] for non-zero divisors. *)

From Coq Require Export String.
From Coq Require Export List ZArith Lia Bool.
Export ListNotations.
Global Open Scope Z_scope.

(** Exceptions as values.  [OutOfFuel] is the value of a loop whose explicit
    bound ran out (never a normal looking result); [Deadlock] is a blocking
    call that never returns. *)
Inductive exc :=
| ValueError | TypeError | IndexError | KeyError | AssertionError
| NotImplementedError | NameError | AttributeError | ZeroDivisionError
| RuntimeError | EmptySubsetError | AllElementsMaskedError
| DimensionNotFound | EmptyObjectError
| SubcommAlreadyCreated | SubcommNotFound | MPIError
| DefinitionValidationError | BodyError
| VariableInCollectionError | DimensionMapError | DimensionMismatchError
| BoundsAlreadyAvailableError | VariableShapeMismatch | NoUnitsError
| PayloadProtectedError | SampleSizeNotImplemented | NotEnoughCriteria
| DimensionsRequiredError | VariableNotFoundError | NoDataVariablesFound
| RequestValidationError | GridDeficientError | RegriddingError
| CornersInconsistentError | VariableMissingMetadataError
| UnitsValidationError | EmptyIterationError | CRSNotEquivalenError
| StopIteration | UnicodeError | ExtentError | MaskedDataError
| NoTouching | IOError | SingleElementError | ShapeError | OverflowError
| SelfIntersectsRemovalError | NoInteriorsError
| ProjectionCoordinateNotFound | CRSDepthNotImplemented
| Deadlock | OutOfFuel.

Inductive res (A : Type) :=
| Ok (a : A)
| Err (e : exc).
Arguments Ok {A} a.
Arguments Err {A} e.

Definition bind {A B} (x : res A) (f : A -> res B) : res B :=
  match x with Ok a => f a | Err e => Err e end.

Notation "'do' x <- e ; k" := (bind e (fun x => k))
  (at level 200, x pattern, e at level 100, k at level 200).

Definition is_ok {A} (x : res A) : bool := match x with Ok _ => true | Err _ => false end.

(** A loop body that may raise, run over a list from left to right. *)
Fixpoint map_res {A B} (f : A -> res B) (l : list A) : res (list B) :=
  match l with
  | [] => Ok []
  | x :: t => do y <- f x; do ys <- map_res f t; Ok (y :: ys)
  end.

Fixpoint fold_res {A S} (f : S -> A -> res S) (l : list A) (s : S) : res S :=
  match l with
  | [] => Ok s
  | x :: t => do s' <- f s x; fold_res f t s'
  end.

(** [range(lo, hi)] / [numpy.arange(lo, hi)]. *)
Definition zrange (lo hi : Z) : list Z :=
  map (fun k => lo + Z.of_nat k) (seq 0 (Z.to_nat (hi - lo))).

(** [len(l)]. *)
Definition zlen {A} (l : list A) : Z := Z.of_nat (List.length l).

(** [l[i]] for a Python index: negative indices count from the end, an index
    out of range raises IndexError. *)
Definition py_index {A} (l : list A) (i : Z) : res A :=
  let j := if i <? 0 then i + zlen l else i in
  if (j <? 0) || (zlen l <=? j) then Err IndexError
  else match nth_error l (Z.to_nat j) with Some x => Ok x | None => Err IndexError end.

(** A Python [slice(start, stop)]; the step is always [None] in the modelled code. *)
Record pyslice := mkslice { sl_start : option Z; sl_stop : option Z }.

Definition slice_none : pyslice := mkslice None None.
Definition slice_of (a b : Z) : pyslice := mkslice (Some a) (Some b).

Definition optZ_eqb (a b : option Z) : bool :=
  match a, b with
  | None, None => true
  | Some x, Some y => x =? y
  | _, _ => false
  end.

Definition pyslice_eqb (a b : pyslice) : bool :=
  optZ_eqb (sl_start a) (sl_start b) && optZ_eqb (sl_stop a) (sl_stop b).

(** [slice.indices(n)] for step 1: clipping of one end. *)
Definition clip_end (n : Z) (dflt : Z) (x : option Z) : Z :=
  match x with
  | None => dflt
  | Some i => if i <? 0 then Z.max 0 (i + n) else Z.min i n
  end.

Definition slice_bounds (n : Z) (s : pyslice) : Z * Z :=
  (clip_end n 0 (sl_start s), clip_end n n (sl_stop s)).

(** The index positions a slice selects from a sequence of length [n]. *)
Definition slice_positions (n : Z) (s : pyslice) : list Z :=
  let '(a, b) := slice_bounds n s in zrange a b.

(** [l[slice]] for lists and one-dimensional arrays. *)
Definition py_slice {A} (l : list A) (s : pyslice) : list A :=
  let '(a, b) := slice_bounds (zlen l) s in
  firstn (Z.to_nat (b - a)) (skipn (Z.to_nat a) l).

(** [l[array_of_bool]]: boolean selection of a list. *)
Fixpoint bool_select {A} (m : list bool) (l : list A) : list A :=
  match m, l with
  | b :: m', x :: l' => if b then x :: bool_select m' l' else bool_select m' l'
  | _, _ => []
  end.

(** Association lists as insertion-ordered Python dictionaries. *)
Section Dict.
  Context {K V : Type} (eqk : K -> K -> bool).

  Fixpoint dget (d : list (K * V)) (k : K) : option V :=
    match d with
    | [] => None
    | (k', v) :: t => if eqk k k' then Some v else dget t k
    end.

  Definition dmem (d : list (K * V)) (k : K) : bool :=
    match dget d k with Some _ => true | None => false end.

  (** [d[k] = v]: an existing key keeps its place, a new key goes last. *)
  Fixpoint dset (d : list (K * V)) (k : K) (v : V) : list (K * V) :=
    match d with
    | [] => [(k, v)]
    | (k', v') :: t => if eqk k k' then (k', v) :: t else (k', v') :: dset t k v
    end.

  (** [del d[k]] / [d.pop(k)] on a dictionary (keys are unique). *)
  Fixpoint dremove (d : list (K * V)) (k : K) : list (K * V) :=
    match d with
    | [] => []
    | (k', v) :: t => if eqk k k' then t else (k', v) :: dremove t k
    end.
End Dict.

Definition zsum (l : list Z) : Z := fold_right Z.add 0 l.
