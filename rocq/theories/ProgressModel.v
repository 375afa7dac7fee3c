(** Model of the progress that is reported to the callback of operations:
    src/ocgis/util/logging_ocgis.py, ops/engine.py, calc/engine.py, ops/interpreter.py and
    util/large_array.py.  Percentages are exact fractions. *)
From Verif Require Import Py.
From Coq Require Import QArith.
Local Open Scope nat_scope.

(** ** One execution *)

(** logging_ocgis.py:39-46 [ProgressOcgOperations.n_operations]. *)
Definition n_operations (subsettables geometries calculations : nat) : nat :=
  subsettables * geometries * (if Nat.eqb calculations 0 then 1 else calculations).

(** logging_ocgis.py:48-50 [percent_complete]. *)
Definition percent (total done : nat) : Q := (100 * (inject_Z (Z.of_nat done) / inject_Z (Z.of_nat total)))%Q.

(** A message of the level of the callback (logging_ocgis.py:78-84 calls the progress object,
    35-37 the callback with the percentage), or a completed operation (52-53 [mark]). *)
Inductive event := Message | Mark.

(** The percentages that are reported for events, [done] operations being completed before. *)
Fixpoint reports (total done : nat) (l : list event) : list Q :=
  match l with
  | [] => []
  | Message :: t => percent total done :: reports total done t
  | Mark :: t => reports total (S done) t
  end.

(** A collection that [_process_subsettables_] yields: the number of messages before it
    (subsetting, regridding, and so on), and whether the rank is not in the communicator then. *)
Record yielded := mkyielded { y_messages : nat; y_null : bool }.

(** ops/engine.py:125-149 and calc/engine.py:67-131: the messages and marks for a collection,
    which has one field.  [calculations] is None without calculations. *)
Definition collection_events (calculations : option nat) (grouping : bool) (y : yielded) : list event :=
  repeat Message (y_messages y) ++
  match calculations, y_null y with
  | Some k, false =>
      Message :: (if grouping then [Message] else []) ++ concat (repeat [Message; Mark] k)        (* 128; 68, 96, 128 *)
  | _, _ => [Mark]                                                                               (* 147-149 *)
  end.

(** ops/engine.py:107-156: the datasets one after the other, each with a message. *)
Definition dataset_events (calculations : option nat) (grouping : bool) (ys : list yielded) : list event :=
  Message :: flat_map (collection_events calculations grouping) ys.

(** ops/interpreter.py:105, ops/engine.py:91-105, 107-156 and ops/interpreter.py:140: the events
    of a successful execution.  The first message is sent before the numbers are known, as one
    operation of which nothing is done. *)
Definition execution_events (calculations : option nat) (grouping : bool) (ds : list (list yielded)) : list event :=
  [Message; Message; Message] ++ flat_map (dataset_events calculations grouping) ds ++ [Message].
Definition execution_reports (geometries : nat) (calculations : option nat) (grouping : bool) (ds : list (list yielded)) : list Q :=
  let total := n_operations (length ds) geometries (match calculations with Some k => k | None => 0 end) in  (* 86-89 *)
  percent 1 0 :: reports total 0 (execution_events calculations grouping ds).

(** ** Tiled computation *)

(** The callback of operations: none, a function of the user, and what [compute] puts in its
    place. *)
Inductive callback :=
| NoCallback
| User
| Zeroed (c : callback)
| Scaled (tiles : nat) (done : Q) (c : callback).

(** What the user's function is called with when the callback is called with [p]
    (large_array.py:46-47 and 159-161). *)
Fixpoint reported (c : callback) (p : Q) : option Q :=
  match c with
  | NoCallback => None
  | User => Some p
  | Zeroed c' => reported c' 0
  | Scaled tiles done c' => reported c' (p / inject_Z (Z.of_nat tiles) + done)%Q
  end.
Definition reported_all (c : callback) (l : list Q) : list (option Q) := map (reported c) l.

(** The share of the tiles completed (large_array.py:216). *)
Definition tiles_done (tiles ctr : nat) : Q := (inject_Z (Z.of_nat ctr) / inject_Z (Z.of_nat tiles) * 100)%Q.

(** large_array.py:173-216: the tiles, after [ctr] of them; each element holds the
    percentages that the execution for the tile reports to its callback. *)
Fixpoint tile_reports (c : callback) (total ctr : nat) (l : list (list Q)) : list (option Q) :=
  match l with
  | [] => []
  | t :: r => reported_all (Scaled total (tiles_done total ctr) c) t ++ tile_reports c total (S ctr) r
  end.

(** large_array.py:42-49, 80-95, 156-163, 173-216 [compute]: what the user's function is called
    with, for the executions for the empty file and the offset and for the tiles, and the
    callback of the operations afterwards. *)
Definition compute_reports (c : callback) (before : list Q) (tiles : list (list Q)) : list (option Q) * callback :=
  match c with
  | NoCallback => ([], NoCallback)
  | _ =>
      let n := length tiles in
      (reported_all (Zeroed c) before ++ [reported (Zeroed c) 0] ++ tile_reports c n 0 tiles,
       Scaled n (if Nat.eqb n 0 then 0%Q else tiles_done n n) c)
  end.

(** large_array.py:42-53: the callback of the operations when the size of the tiles is refused,
    which is after the callback was replaced. *)
Definition compute_refused (c : callback) : callback :=
  match c with NoCallback => NoCallback | _ => Zeroed c end.
