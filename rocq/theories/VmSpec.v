(** What communicator scopes should mean (C11), without any state: the body of a
    scope sees the communicator made of the requested ranks, code outside sees
    what it saw before. *)
From Verif Require Import Py VmModel.

(** Meaning of a program on rank [me], with the open named communicators [env]
    (innermost first) and the current one [cur]: how it ends and which
    communicators its uses of [vm.comm] see. *)
Definition env_find (env : list (string * comm)) (n : string) : option comm :=
  option_map snd (find (fun p => String.eqb n (fst p)) env).

Fixpoint meaning (me : Z) (default : comm) (p : prog) (env : list (string * comm)) (cur : res comm) : outcome * list comm :=
  match p with
  | PSkip => (None, [])
  | PRaise e => (Some e, [])
  | PSeq p q =>
    match meaning me default p env cur with
    | (None, t1) => let '(o, t2) := meaning me default q env cur in (o, t1 ++ t2)
    | r => r
    end
  | PTry p q =>
    match meaning me default p env cur with
    | (Some _, t1) => let '(o, t2) := meaning me default q env cur in (o, t1 ++ t2)
    | r => r
    end
  | PObserve => match cur with Ok c => (None, [c]) | Err e => (Some e, []) end
  | PIfLive p =>
    match cur with
    | Ok (CRanks _) => meaning me default p env cur
    | Ok CNull => (None, [])
    | Err e => (Some e, [])
    end
  | PScoped name ranks body =>
    match ranks with
    | [] => meaning me default body ((name, CNull) :: env) (Ok CNull)
    | _ =>
      match cur with
      | Err e => (Some e, [])
      | Ok c =>
        match mpi_create me c ranks with
        | Err e => (Some e, [])
        | Ok sub =>
          match env_find env name with
          | Some _ => (Some SubcommAlreadyCreated, [])
          | None => meaning me default body ((name, sub) :: env) (Ok sub)
          end
        end
      end
    end
  | PScopedByName name body =>
    meaning me default body env
      (match name with
       | None => Ok default
       | Some n => match env_find env n with Some c => Ok c | None => Err SubcommNotFound end
       end)
  end.

(** No scope over an empty set of ranks reuses a name that is open. *)
Fixpoint EmptyScopesFresh (open : list string) (p : prog) : Prop :=
  match p with
  | PSkip | PRaise _ | PObserve => True
  | PSeq p q | PTry p q => EmptyScopesFresh open p /\ EmptyScopesFresh open q
  | PIfLive p => EmptyScopesFresh open p
  | PScoped name ranks body =>
    (ranks = [] -> ~ In name open) /\ EmptyScopesFresh (name :: open) body
  | PScopedByName _ body => EmptyScopesFresh open body
  end.

(** The messages of a history sent / received under a key, in order (C54). *)
Fixpoint sent_on {A} (k : key) (ops : list (msgop A)) : list A :=
  match ops with
  | [] => []
  | MSend d t p :: r => if key_eqb k (d, t) then p :: sent_on k r else sent_on k r
  | MRecv _ _ :: r => sent_on k r
  end.

Fixpoint recv_count {A} (k : key) (ops : list (msgop A)) : nat :=
  match ops with
  | [] => O
  | MRecv s t :: r => if key_eqb k (s, t) then S (recv_count k r) else recv_count k r
  | MSend _ _ _ :: r => recv_count k r
  end.

Fixpoint received_on {A} (k : key) (out : list (key * A)) : list A :=
  match out with
  | [] => []
  | (k', p) :: r => if key_eqb k k' then p :: received_on k r else received_on k r
  end.

(** At every point of the history, and for every key, there are at least as many
    sends as receives and at most one send is outstanding. *)
Definition OneOutstanding {A} (ops : list (msgop A)) : Prop :=
  forall pre post k, ops = pre ++ post ->
    (recv_count k pre <= List.length (sent_on k pre) <= S (recv_count k pre))%nat.

(** What is waiting under a key. *)
Definition boxed {A} (m : mailbox A) (k : key) : list A := match dget key_eqb m k with Some v => [v] | None => [] end.
