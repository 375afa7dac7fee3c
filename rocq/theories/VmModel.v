(** Model of the virtual machine of communicators (src/ocgis/vmachine/core.py)
    and of the serial communicator (src/ocgis/vmachine/mpi.py). *)
From Verif Require Import Py.

(** A communicator as one rank sees it: null, or the world ranks in it. *)
Inductive comm := CNull | CRanks (members : list Z).

(** vmachine/core.py:19-32, the state of [OcgVM]: the named sub-communicators and
    the name of the current one ([None] for the default communicator [vm_default]);
    [vm_me] is the world rank of the process. *)
Record vmstate := mkvm {
  vm_me : Z; vm_dummy : bool; vm_default : comm;
  vm_subs : list (string * comm); vm_current : option string
}.

Definition with_subs (s : vmstate) (subs : list (string * comm)) : vmstate :=
  mkvm (vm_me s) (vm_dummy s) (vm_default s) subs (vm_current s).

(** vmachine/core.py:175-176 [set_comm]. *)
Definition set_comm (s : vmstate) (name : option string) : vmstate :=
  mkvm (vm_me s) (vm_dummy s) (vm_default s) (vm_subs s) name.

(** vmachine/core.py:156-160 [get_subcomm] and 40-46 [comm]. *)
Definition get_subcomm (s : vmstate) (name : string) : res comm :=
  match dget String.eqb (vm_subs s) name with Some c => Ok c | None => Err SubcommNotFound end.
Definition vm_comm (s : vmstate) : res comm :=
  match vm_current s with None => Ok (vm_default s) | Some n => get_subcomm s n end.

(** MPI: [Group.Incl(ranks)] picks members by their rank in the group (out of
    range raises), [Comm.Create] gives the new communicator to its members and
    COMM_NULL to the others; both raise on COMM_NULL. *)
Definition mpi_create (me : Z) (c : comm) (ranks : list Z) : res comm :=
  match c with
  | CNull => Err MPIError
  | CRanks g =>
    do sub <- map_res (fun r => if (0 <=? r) && (r <? zlen g) then py_index g r else Err MPIError) ranks;
    Ok (if existsb (Z.eqb me) sub then CRanks sub else CNull)
  end.

(** vmachine/core.py:101-121 [create_subcomm] with [clobber=False]. *)
Definition create_subcomm (s : vmstate) (name : string) (ranks : list Z) (is_current : bool) : res vmstate :=
  do s1 <- (if vm_dummy s then Ok (with_subs s (dset String.eqb (vm_subs s) name (vm_default s)))
            else if zlen ranks =? 0 then Ok (with_subs s (dset String.eqb (vm_subs s) name CNull))   (* 105-106 *)
            else
              do c <- vm_comm s;
              do ret <- mpi_create (vm_me s) c ranks;
              if dmem String.eqb (vm_subs s) name then Err SubcommAlreadyCreated                     (* 112-116 *)
              else Ok (with_subs s (dset String.eqb (vm_subs s) name ret)));
  Ok (if is_current then set_comm s1 (Some name) else s1).

(** vmachine/core.py:128-135 [free_subcomm] with a name; freeing the MPI object
    itself has no other effect on the state. *)
Definition free_subcomm (s : vmstate) (name : string) : res vmstate :=
  if vm_dummy s then Ok s
  else if dmem String.eqb (vm_subs s) name then Ok (with_subs s (dremove String.eqb (vm_subs s) name))
  else Err SubcommNotFound.

(** vmachine/core.py:137-142 [finalize]. *)
Definition finalize (s : vmstate) : vmstate := mkvm (vm_me s) (vm_dummy s) (vm_default s) [] None.

(** Programs that use the scopes.  [PObserve] stands for any use of [vm.comm]:
    it raises if there is no such communicator and is recorded otherwise.
    [PIfLive] is the usual [if not vm.is_null: ...]; [PTry] catches. *)
Inductive prog :=
| PSkip | PRaise (e : exc) | PSeq (p q : prog) | PTry (p q : prog)
| PObserve
| PIfLive (p : prog)
| PScoped (name : string) (ranks : list Z) (body : prog)
| PScopedByName (name : option string) (body : prog).

(** Outcome of a statement: [None] if it finishes, the exception otherwise. *)
Definition outcome := option exc.

Definition is_live (c : comm) : bool := match c with CNull => false | CRanks _ => true end.

(** One rank runs a program.  [PScoped] is vmachine/core.py:204-212 [vm_scope]:
    the sub-communicator is made before the [try]; [finally] frees it and puts
    the name back.  An exception of the [finally] block replaces that of the
    body.  [PScopedByName] is 215-222. *)
Fixpoint run (p : prog) (s : vmstate) : outcome * vmstate * list comm :=
  match p with
  | PSkip => (None, s, [])
  | PRaise e => (Some e, s, [])
  | PSeq p q =>
    match run p s with
    | (None, s1, t1) => let '(o, s2, t2) := run q s1 in (o, s2, t1 ++ t2)
    | r => r
    end
  | PTry p q =>
    match run p s with
    | (Some _, s1, t1) => let '(o, s2, t2) := run q s1 in (o, s2, t1 ++ t2)
    | r => r
    end
  | PObserve => match vm_comm s with Ok c => (None, s, [c]) | Err e => (Some e, s, []) end
  | PIfLive p =>
    match vm_comm s with
    | Ok c => if is_live c then run p s else (None, s, [])
    | Err e => (Some e, s, [])
    end
  | PScoped name ranks body =>
    let original := vm_current s in
    match create_subcomm s name ranks true with
    | Err e => (Some e, s, [])
    | Ok s1 =>
      let '(o, s2, t) := run body s1 in
      match free_subcomm s2 name with
      | Err e => (Some e, s2, t)
      | Ok s3 => (o, set_comm s3 original, t)
      end
    end
  | PScopedByName name body =>
    let original := vm_current s in
    let '(o, s2, t) := run body (set_comm s name) in (o, set_comm s2 original, t)
  end.

(** vmachine/mpi.py:32-103 [DummyMPIComm]: the messages sent and not yet
    received, by destination and tag. *)
Definition key := (Z * Z)%type.
Definition key_eqb (a b : key) : bool := (fst a =? fst b) && (snd a =? snd b).
Definition mailbox (A : Type) := list (key * A).

(** 95-97 [Isend]. *)
Definition isend {A} (m : mailbox A) (dest tag : Z) (payload : A) : mailbox A := dset key_eqb m (dest, tag) payload.

(** 73-92 [Irecv] with 118-138 [DummyRequest.wait]: wait until a message for
    (source, tag) is there, then take it out.  In serial nobody else can send, so
    waiting for a missing message never ends. *)
Definition irecv_test {A} (m : mailbox A) (source tag : Z) : bool := dmem key_eqb m (source, tag).
Definition irecv_wait {A} (m : mailbox A) (source tag : Z) : res (A * mailbox A) :=
  if irecv_test m source tag then
    match dget key_eqb m (source, tag) with
    | Some p => Ok (p, dremove key_eqb m (source, tag))
    | None => Err KeyError
    end
  else Err Deadlock.

Inductive msgop (A : Type) := MSend (dest tag : Z) (payload : A) | MRecv (source tag : Z).
Arguments MSend {A}. Arguments MRecv {A}.

(** A history of sends and receives: the received payloads with their keys. *)
Fixpoint run_msgs {A} (ops : list (msgop A)) (m : mailbox A) : res (list (key * A) * mailbox A) :=
  match ops with
  | [] => Ok ([], m)
  | MSend dest tag p :: t => run_msgs t (isend m dest tag p)
  | MRecv source tag :: t =>
    do r <- irecv_wait m source tag;
    do q <- run_msgs t (snd r);
    Ok (((source, tag), fst r) :: fst q, snd q)
  end.

(** The collective calls of the dummy communicator, 41-71: one process. *)
Definition dummy_gather {A} (x : A) : list A := [x].
Definition dummy_bcast {A} (x : A) : A := x.
Definition dummy_scatter {A} (xs : list A) : res A := match xs with [] => Err IndexError | x :: _ => Ok x end.
