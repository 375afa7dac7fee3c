(** Model of [reduce_reindex_coordinate_index] (src/ocgis/spatial/geomc.py 868-1118):
    the ranks exchange messages to map old coordinate indices to new ones. *)
From Verif Require Import Py PartitionModel DimensionModel DistModel.
Open Scope Z_scope.

(** constants.py:44 [MPI_EMPTY_VALUE]. *)
Definition empty_value : Z := -999.

(** * Before the exchange *)

(** What the collective part gives every rank: its part of the old index, its
    dictionary from old to new, the ranks it asks and the ranks that ask it. *)
Record setup := mksetup {
  u_cindex : list (list Z);
  u_unique : list (list Z);
  u_uidx : list (list (Z * Z));
  u_overlaps : list (list nat);
  u_destinations : list (list nat)
}.

(** util/helpers.py:106-147 [arange_from_dimension]: each rank passes the next
    start on. *)
Fixpoint arange_distributed (start : Z) (sizes : list Z) : list (list Z) :=
  match sizes with
  | [] => []
  | n :: t => zrange start (start + n) :: arange_distributed (start + n) t
  end.

(** geomc.py:942-945. *)
Definition local_bounds (u : list Z) : option (Z * Z) :=
  match list_min u, list_max u with Ok a, Ok b => Some (a, b) | _, _ => None end.

(** geomc.py:950-959: the other ranks with unique values whose bounds contain one
    of the old indices. *)
Definition find_overlaps (bounds : list (option (Z * Z))) (lrank : nat) (cindex : list Z) : list nat :=
  filter (fun rank =>
    negb (Nat.eqb rank lrank) &&
    match nth_error bounds rank with
    | Some (Some lb) => existsb (fun x => (fst lb <=? x) && (x <=? snd lb)) cindex
    | _ => false
    end) (seq 0 (List.length bounds)).

(** geomc.py:904-973.  The old index is flat; the shape is put back at the end. *)
Definition prepare (arrs : list (list Z)) (start_index : Z) : res setup :=
  do us <- match arrs with
           | [a] => Ok [np_unique a]                                            (* 913-914 *)
           | _ => create_unique_global_array arrs
           end;
  let uidx := map (fun p : list Z * list Z => combine (fst p) (snd p)) (combine us (arange_distributed start_index (map zlen us))) in
  let bounds := map local_bounds us in
  let overlaps := map (fun p : nat * list Z => find_overlaps bounds (fst p) (snd p)) (combine (seq 0 (List.length arrs)) arrs) in
  let destinations := map (fun r => filter (fun ii => match nth_error overlaps ii with Some l => existsb (Nat.eqb r) l | None => false end)
                                      (seq 0 (List.length arrs))) (seq 0 (List.length arrs)) in
  Ok (mksetup arrs us uidx overlaps destinations).

(** * The exchange *)

(** Where a rank is in its program.
    - [Fill k]: about to fill element [k] (geomc.py:996, 1069);
    - [Poll k ds]: has asked for element [k], still has to look for questions from
      [ds] (1020);
    - [Wait k os acc]: waits for the answers of [os] (1029-1034);
    - [Serve ds]: a child has finished and answers others until told to stop; [ds]
      are left of the current round, the stop signal is tested between rounds
      (1054-1057);
    - [RootServe ds fin] and [RootCheck cs fin]: the root answers (1078), then looks
      whether the children [cs] have finished (1083-1087); [fin] have;
    - [Stopped]: has left the exchange;
    - [Crashed e]: an exception was raised. *)
Inductive phase :=
| Fill (k : nat) | Poll (k : nat) (ds : list nat) | Wait (k : nat) (os : list nat) (acc : option Z)
| Serve (ds : list nat) | RootServe (ds fin : list nat) | RootCheck (cs fin : list nat)
| Stopped | Crashed (e : exc).

(** Messages on their way, by sender and receiver, oldest first (MPI does not
    reorder messages with the same sender, receiver and tag), and what each rank
    has filled so far. *)
Record state := mkstate {
  s_phase : nat -> phase;
  s_new : nat -> list Z;
  s_search : nat -> nat -> list Z;
  s_found : nat -> nat -> list Z;
  s_finished : nat -> bool;
  s_success : nat -> bool
}.

Definition upd {A} (f : nat -> A) (r : nat) (v : A) : nat -> A := fun x => if Nat.eqb x r then v else f x.
Definition upd2 {A} (f : nat -> nat -> A) (a b : nat) (v : A) : nat -> nat -> A := upd f a (upd (f a) b v).

Definition set_phase (s : state) (r : nat) (p : phase) : state :=
  mkstate (upd (s_phase s) r p) (s_new s) (s_search s) (s_found s) (s_finished s) (s_success s).
Definition put_new (s : state) (r : nat) (v : Z) : state :=
  mkstate (s_phase s) (upd (s_new s) r (s_new s r ++ [v])%list) (s_search s) (s_found s) (s_finished s) (s_success s).
Definition put_search (s : state) (a b : nat) (l : list Z) : state :=
  mkstate (s_phase s) (s_new s) (upd2 (s_search s) a b l) (s_found s) (s_finished s) (s_success s).
Definition put_found (s : state) (a b : nat) (l : list Z) : state :=
  mkstate (s_phase s) (s_new s) (s_search s) (upd2 (s_found s) a b l) (s_finished s) (s_success s).
Definition put_finished (s : state) (r : nat) (b : bool) : state :=
  mkstate (s_phase s) (s_new s) (s_search s) (s_found s) (upd (s_finished s) r b) (s_success s).
Definition put_success (s : state) (f : nat -> bool) : state :=
  mkstate (s_phase s) (s_new s) (s_search s) (s_found s) (s_finished s) f.

Section Exchange.
  (** Whether a message may arrive between [Test] and [Cancel] of the same request
      and be lost, which MPI allows: cancelling a receive that has matched has no
      effect, and the received value is never looked at (geomc.py:1100-1117). *)
  Variable lossy : bool.
  Variable c : setup.

  Definition cindex_of (r : nat) : list Z := nth r (u_cindex c) [].
  Definition uidx_of (r : nat) : list (Z * Z) := nth r (u_uidx c) [].
  Definition overlaps_of (r : nat) : list nat := nth r (u_overlaps c) [].
  Definition destinations_of (r : nat) : list nat := nth r (u_destinations c) [].
  Definition size : nat := List.length (u_cindex c).

  (** geomc.py:1096-1118 [search_for_destinations], one destination [d]: nothing is
      seen (nothing was sent, or it has not arrived yet); or the question is
      answered; or it is lost.  [next] is where the rank goes on.  Sends never
      block (an integer is buffered). *)
  Definition poll (s : state) (r d : nat) (next : phase) : list state :=
    set_phase s r next ::
    match s_search s d r with
    | [] => []
    | v :: rest =>
      let s1 := put_search s d r rest in
      (if v <? 0 then set_phase s1 r (Crashed AssertionError)                   (* 1109-1111 *)
       else match uidx_of r with
            | [] => set_phase s1 r (Crashed AttributeError)                     (* uidx is None *)
            | uidx => set_phase (put_found s1 r d (s_found s1 r d ++ [match dget Z.eqb uidx v with Some x => x | None => empty_value end])%list) r next
            end)
      :: (if lossy then [set_phase s1 r next] else [])
    end.

  (** One step of rank [r]: all states it may lead to.  A rank that is blocked, has
      stopped or crashed has none. *)
  Definition moves (s : state) (r : nat) : list state :=
    match s_phase s r with
    | Fill k =>
      match nth_error (cindex_of r) k with
      | None =>
        if Nat.eqb r 0 then [set_phase s r (RootServe (destinations_of r) [])]
        else [set_phase (put_finished s r true) r (Serve [])]                   (* 1051-1052 *)
      | Some ii =>
        match dget Z.eqb (uidx_of r) ii with
        | Some v => [set_phase (put_new s r v) r (Fill (S k))]                  (* 1002, 1048, 1070 *)
        | None =>
          if Nat.eqb r 0 then [set_phase s r (Crashed KeyError)]                (* 1070 *)
          else if ii <? 0 then [set_phase s r (Crashed AssertionError)]         (* 1012-1013 *)
          else [set_phase (fold_left (fun s o => put_search s r o (s_search s r o ++ [ii])%list) (overlaps_of r) s) r (Poll k (destinations_of r))]
        end
      end
    | Poll k (d :: ds) => poll s r d (Poll k ds)
    | Poll k [] => [set_phase s r (Wait k (overlaps_of r) None)]
    | Wait k (o :: os) acc =>
      match s_found s o r with
      | [] => []
      | v :: rest => [set_phase (put_found s o r rest) r (Wait k os (if v =? empty_value then acc else Some v))]
      end
    | Wait k [] None => [set_phase s r (Crashed AssertionError)]                (* 1047 *)
    | Wait k [] (Some v) => [set_phase (put_new s r v) r (Fill (S k))]
    | Serve (d :: ds) => poll s r d (Serve ds)
    | Serve [] => set_phase s r (Serve (destinations_of r)) :: (if s_success s r then [set_phase s r Stopped] else [])
    | RootServe (d :: ds) fin => poll s r d (RootServe ds fin)
    | RootServe [] fin => [set_phase s r (RootCheck (filter (fun x => negb (existsb (Nat.eqb x) fin)) (seq 1 (size - 1))) fin)]
    | RootCheck (x :: cs) fin =>
      set_phase s r (RootCheck cs fin) ::
      (if s_finished s x then [set_phase (put_finished s x false) r (RootCheck cs (x :: fin))] else [])
    | RootCheck [] fin =>
      if forallb (fun x => existsb (Nat.eqb x) fin) (seq 1 (size - 1))
      then [set_phase (put_success s (fun x => negb (Nat.eqb x 0) && Nat.ltb x size)) r Stopped]    (* 1088-1093 *)
      else [set_phase s r (RootServe (destinations_of r) fin)]
    | Stopped => []
    | Crashed _ => []
    end.

  (** The state in which the exchange starts. *)
  Definition start : state :=
    mkstate (fun _ => Fill 0) (fun _ => []) (fun _ _ => []) (fun _ _ => []) (fun _ => false) (fun _ => false).

  (** Any rank may go on at any time. *)
  Inductive step : state -> state -> Prop :=
  | step_rank s r s' : (r < size)%nat -> In s' (moves s r) -> step s s'.
  Inductive steps : state -> state -> Prop :=
  | steps_refl s : steps s s
  | steps_cons s s1 s2 : step s s1 -> steps s1 s2 -> steps s s2.

  (** All ranks have left the exchange; the barrier that follows (988) lets them
      return. *)
  Definition all_stopped (s : state) : Prop := forall r, (r < size)%nat -> s_phase s r = Stopped.

  (** A schedule: at each turn a rank and the number of its move. *)
  Fixpoint run (s : state) (sched : list (nat * nat)) : option state :=
    match sched with
    | [] => Some s
    | (r, i) :: t => if Nat.ltb r size then match nth_error (moves s r) i with Some s' => run s' t | None => None end else None
    end.
End Exchange.
