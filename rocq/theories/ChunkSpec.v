(** What tiled computation, regridding by chunks and spatial decomposition should
    do (C31, C38, C39, C40, C64). *)
From Verif Require Import Py Spec ChunkModel.
From Coq Require Import QArith.

Open Scope Z_scope.

(** Row [y] and column [x] are in a box of half-open intervals. *)
Definition InBox (y x : Z) (b : (Z * Z) * (Z * Z)) : Prop := InIval y (fst b) /\ InIval x (snd b).

(** A block holds the values of a field from row [r0] and column [c0] on. *)
Definition Holds {V} (b : block V) (cell : Z -> Z -> V) (row col : Z * Z) : Prop :=
  b_rows b = snd row - fst row /\ b_cols b = snd col - fst col /\
  forall i j, 0 <= i < b_rows b -> 0 <= j < b_cols b -> b_at b i j = cell (fst row + i) (fst col + j).

(** A calculation is cell-wise: whenever it succeeds on a box, it gives each cell
    its own value, whatever the box. *)
Definition CellWise {V} (exec : Z * Z -> Z * Z -> res (block V)) (cell : Z -> Z -> V) : Prop :=
  forall row col b, exec row col = Ok b -> Holds b cell row col.

(** What the output should hold at row [y] and column [x]: the value of the cell
    at the offset, masked where the spatial mask is set. *)
Definition Wanted {V} (cell : Z -> Z -> V) (hide : V -> V) (ro co : Z) (mask : option (Z -> Z -> bool)) (y x : Z) : V :=
  match mask with
  | Some m => if m y x then hide (cell (y + ro) (x + co)) else cell (y + ro) (x + co)
  | None => cell (y + ro) (x + co)
  end.

(** At most one position of a list holds an element satisfying [P]. *)
Definition AtMostOne {A} (P : A -> Prop) (l : list A) : Prop :=
  forall k k' x x', nth_error l k = Some x -> nth_error l k' = Some x' -> P x -> P x' -> k = k'.

(** The [i]-th cell (counted from one, row by row) of one side of a chunk is
    the global cell number [g] (from one, row by row) of a grid with [nx]
    columns.  For an unstructured side the identifiers are listed. *)
Definition GlobalOf (nx : Z) (s : side) (i g : Z) : Prop :=
  match s with
  | Box (y0, y1) (x0, x1) => exists ly lx, 0 <= ly < y1 - y0 /\ 0 <= lx < x1 - x0 /\
      i = ly * (x1 - x0) + lx + 1 /\ g = (y0 + ly) * nx + (x0 + lx) + 1
  | Guids ids => 1 <= i /\ nth_error ids (Z.to_nat (i - 1)) = Some g
  end.

(** A side fits a grid. *)
Definition SideOf (shape : Z * Z) (s : side) : Prop :=
  match s with
  | Box (y0, y1) (x0, x1) => 0 <= y0 <= y1 /\ y1 <= fst shape /\ 0 <= x0 <= x1 /\ x1 <= snd shape
  | Guids ids => NoDup ids
  end.

(** The size of a side. *)
Definition side_size (s : side) : Z :=
  match s with Box (y0, y1) (x0, x1) => (y1 - y0) * (x1 - x0) | Guids ids => zlen ids end.

(** A weight file for a chunk: three lists of the same length, indices from one up
    to the sizes of the two sides, and the dimension size either that length or,
    without weights, possibly absent. *)
Definition GoodWeights {F} (d s : side) (w : weights F) : Prop :=
  zlen (w_row w) = zlen (w_S w) /\ zlen (w_col w) = zlen (w_S w) /\
  (w_size w = Some (zlen (w_S w)) \/ w_size w = None /\ w_S w = []) /\
  Forall (fun i => 1 <= i <= side_size d) (w_row w) /\ Forall (fun i => 1 <= i <= side_size s) (w_col w).

(** The chunks whose file exists. *)
Fixpoint present {F} (sides : list (side * side)) (files : list (option (weights F))) : list (side * side * weights F) :=
  match sides, files with
  | ds :: t, Some w :: u => (ds, w) :: present t u
  | _ :: t, None :: u => present t u
  | _, _ => []
  end.

(** What is asked of each chunk: both sides fit their grids and the weights fit the
    sides; or the file does not exist, which is allowed unless [strict]. *)
Definition FileOk {F} (dshape sshape : Z * Z) (strict : bool) (ds : side * side) (f : option (weights F)) : Prop :=
  match f with
  | None => strict = false
  | Some w => SideOf dshape (fst ds) /\ SideOf sshape (snd ds) /\ GoodWeights (fst ds) (snd ds) w
  end.

Section Apply.
  Context {F X : Type} (add : X -> X -> X) (zero : X) (mul : F -> X -> X).
  (** Sparse matrix times vector: the sum, in order, of factor times source value
      over the entries of one row. *)
  Fixpoint apply_row (rows cols : list Z) (S : list F) (src : Z -> X) (r : Z) : X :=
    match rows, cols, S with
    | r' :: rt, c :: ct, s :: st =>
      if r' =? r then add (mul s (src c)) (apply_row rt ct st src r) else apply_row rt ct st src r
    | _, _, _ => zero
    end.
  Definition total (l : list X) : X := fold_right add zero l.

  (** What one chunk gives for the global destination cell [g]: the value of its
      own matrix at its own number for the cell, applied to its own part [part] of
      the source; nothing if the cell is not in the chunk. *)
  Definition Contribution (dnx snx g : Z) (src : Z -> X) (chunk : side * side * weights F) (v : X) : Prop :=
    let '(d, s, w) := chunk in
    (exists i part, GlobalOf dnx d i g /\ (forall c gc, GlobalOf snx s c gc -> part c = src gc) /\
       v = apply_row (w_row w) (w_col w) (w_S w) part i) \/
    ((forall i, ~ GlobalOf dnx d i g) /\ v = zero).
End Apply.

(** A point is in a box that contains its lower but not its upper edges. *)
Definition InQBox (px py : Q) (b : qbox) : Prop :=
  let '(minx, miny, maxx, maxy) := b in (minx <= px < maxx /\ miny <= py < maxy)%Q.

(** A point is in a closed extent. *)
Definition InExtent (px py : Q) (b : qbox) : Prop :=
  let '(minx, miny, maxx, maxy) := b in (minx <= px <= maxx /\ miny <= py <= maxy)%Q.
