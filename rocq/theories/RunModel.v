(** Model of the files and directories of a run of operations: the interpreter
    (ops/interpreter.py) and the check of the converters (conv/base.py), for any
    number of ranks, as steps that may be interleaved and interrupted anywhere. *)
From Verif Require Import Py.
Local Open Scope string_scope.

(** What the directory for output ([ops.dir_output]) holds: files with a content,
    and directories of files.  Directories within the directory of a run ("logs",
    "shp") are entries as files are. *)
Inductive node := File (c : string) | Dir (entries : list (string * string)).
Definition fs := list (string * node).

Fixpoint without {A} (l : list (string * A)) (k : string) : list (string * A) :=
  match l with
  | [] => []
  | (n, x) :: t => if String.eqb n k then without t k else (n, x) :: without t k
  end.

(** What a rank does inside the [try] (ops/interpreter.py:94-140): the check of a
    converter when it is made, the writing of a file, a synchronization of all
    ranks, an exception.  Which of these a request does, on which rank and in
    which order, is given. *)
Inductive act := Check (name : string) | Write (name content : string) | Sync | Fail.

(** ops/interpreter.py:71-92: files are written to a directory of the run (with
    auxiliary files), or to the directory for output (without).  Formats without
    files are left out. *)
Inductive place := Own | Shared.
Record cfg := mkcfg {
  c_place : place;
  c_prefix : string;
  c_overwrite : bool;   (* env.OVERWRITE *)
  c_logs : bool;        (* env.ENABLE_FILE_LOGGING *)
  c_barrier : bool;     (* env.ADD_OPS_MPI_BARRIER *)
  c_works : list (list act) }.

Definition size (c : cfg) : nat := length (c_works c).

(** ops/interpreter.py:181-190: the directory of the logs. *)
Definition acts (c : cfg) (r : nat) : list act :=
  ((match c_place c with
    | Own => if c_logs c then (if Nat.eqb r 0 then [Write "logs" ""] else []) ++ [Sync] else []
    | Shared => []
    end) ++ nth r (c_works c) [])%list.

(** Where a rank is.  [Removing] and [Cleaning] are in the middle of
    [shutil.rmtree], with the entries left of those it found; [Left] has returned
    or raised. *)
Inductive pstate :=
| Start
| Removing (l : list string)
| Making
| Entry
| Work (l : list act)
| Cleanup
| Cleaning (l : list string)
| AtEnd (ok : bool)
| Left (ok : bool).

Definition unlink (f : fs) (dir x : string) : fs :=
  match dget String.eqb f dir with
  | Some (Dir es) => dset String.eqb f dir (Dir (without es x))
  | _ => f
  end.

(** An exception inside the [try] (141-147): rank zero removes the directory it made. *)
Definition raised (c : cfg) (r : nat) : pstate :=
  match c_place c with
  | Own => if Nat.eqb r 0 then Cleanup else AtEnd false
  | Shared => AtEnd false
  end.

(** Does a path of the run exist? *)
Definition target_exists (c : cfg) (f : fs) (name : string) : bool :=
  match c_place c with
  | Own => match dget String.eqb f (c_prefix c) with Some (Dir es) => dmem String.eqb es name | _ => false end
  | Shared => dmem String.eqb f name
  end.

(** Writing a file: [None] if its directory is missing or it is a directory. *)
Definition written (c : cfg) (f : fs) (name content : string) : option fs :=
  match c_place c with
  | Own => match dget String.eqb f (c_prefix c) with
           | Some (Dir es) => Some (dset String.eqb f (c_prefix c) (Dir (dset String.eqb es name content)))
           | _ => None
           end
  | Shared => match dget String.eqb f name with
              | Some (Dir _) => None
              | _ => Some (dset String.eqb f name (File content))
              end
  end.

(** One step of the rank [r]; [None] if it waits or has left. *)
Definition solo (c : cfg) (r : nat) (f : fs) (p : pstate) : option (fs * pstate) :=
  let dir := c_prefix c in
  match p with
  (* ops/interpreter.py:77-83: outside of the [try].  [rmtree] of a file raises. *)
  | Start => match dget String.eqb f dir with
             | None => Some (f, Making)
             | Some (File _) => Some (f, Left false)
             | Some (Dir es) => Some (f, if c_overwrite c then Removing (map fst es) else Left false)
             end
  | Removing (x :: l) => Some (unlink f dir x, Removing l)
  | Removing [] => match dget String.eqb f dir with
                   | Some (Dir []) => Some (without f dir, Making)
                   | _ => Some (f, Left false)
                   end
  (* 84 *)
  | Making => match dget String.eqb f dir with
              | None => Some (dset String.eqb f dir (Dir []), Entry)
              | Some _ => Some (f, Left false)
              end
  (* 87 *)
  | Entry => None
  | Work [] => Some (f, AtEnd true)
  | Work (Sync :: _) => None
  | Work (Fail :: _) => Some (f, raised c r)
  (* conv/base.py:78-82 *)
  | Work (Check n :: l) => Some (f, if target_exists c f n && negb (c_overwrite c) then raised c r else Work l)
  | Work (Write n x :: l) => match written c f n x with Some f' => Some (f', Work l) | None => Some (f, raised c r) end
  (* 145-146 *)
  | Cleanup => match dget String.eqb f dir with
               | Some (Dir es) => Some (f, Cleaning (map fst es))
               | _ => Some (f, AtEnd false)
               end
  | Cleaning (x :: l) => Some (unlink f dir x, Cleaning l)
  | Cleaning [] => match dget String.eqb f dir with
                   | Some (Dir []) => Some (without f dir, AtEnd false)
                   | _ => Some (f, AtEnd false)
                   end
  (* 148-152 *)
  | AtEnd ok => if c_barrier c then None else Some (f, Left ok)
  | Left _ => None
  end.

(** A barrier: a rank that waits at one, and where it is after it.  Barriers are
    those of one communicator, so that any two match. *)
Definition waiting (c : cfg) (p : pstate) : bool :=
  match p with Entry => true | Work (Sync :: _) => true | AtEnd _ => c_barrier c | _ => false end.
Definition onward (c : cfg) (r : nat) (p : pstate) : pstate :=
  match p with
  | Entry => Work (acts c r)
  | Work (Sync :: l) => Work l
  | AtEnd ok => Left ok
  | _ => p
  end.

Record sys := mksys { s_files : fs; s_rank : nat -> pstate }.

Definition start (c : cfg) (f : fs) : sys :=
  mksys f (fun r => match c_place c with Own => if Nat.eqb r 0 then Start else Entry | Shared => Work (acts c r) end).

(** An event: the turn of a rank, or a barrier; those that are not possible do nothing. *)
Inductive event := Turn (r : nat) | Together.
Definition happen (c : cfg) (s : sys) (e : event) : sys :=
  match e with
  | Turn r =>
      if Nat.ltb r (size c) then
        match solo c r (s_files s) (s_rank s r) with
        | Some (f, p) => mksys f (fun i => if Nat.eqb i r then p else s_rank s i)
        | None => s
        end
      else s
  | Together =>
      if forallb (fun r => waiting c (s_rank s r)) (seq 0 (size c))
      then mksys (s_files s) (fun r => onward c r (s_rank s r))
      else s
  end.

(** A run of any length with any schedule; where it stops is where it is interrupted. *)
Definition run (c : cfg) (f : fs) (es : list event) : sys := fold_left (happen c) es (start c f).
