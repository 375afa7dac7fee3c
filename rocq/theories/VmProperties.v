(** C11 and C54: communicator scopes, messages in serial. *)
From Verif Require Import Py VmModel VmSpec VmProofs.

(** C11.  Whatever a program does inside its scopes, and however it ends, the
    virtual machine (current communicator, named sub-communicators) is afterwards
    as before, and every use of [vm.comm] saw the communicator of its innermost
    scope ([meaning]).  Partial: no scope over an empty set of ranks may reuse a
    name that is open, see the refutation; more than one process. *)
Theorem C11_scopes_undone_partial : forall p s,
  vm_dummy s = false -> EmptyScopesFresh (map fst (vm_subs s)) p ->
  run p s = (fst (meaning (vm_me s) (vm_default s) p (vm_subs s) (vm_comm s)), s,
             snd (meaning (vm_me s) (vm_default s) p (vm_subs s) (vm_comm s))).
Proof. exact run_restores. Qed.
Print Assumptions C11_scopes_undone_partial.

(** Inside a scope exactly the requested ranks are live: [sub] are the members
    requested, and rank [vm_me s] sees a live communicator iff it is one. *)
Theorem C11_scope_live : forall s name ranks g, vm_dummy s = false -> vm_comm s = Ok (CRanks g) ->
  dget String.eqb (vm_subs s) name = None -> ranks <> [] -> Forall (fun r => 0 <= r < zlen g) ranks ->
  exists sub, map_res (py_index g) ranks = Ok sub /\
    run (PScoped name ranks PObserve) s = (None, s, [if existsb (Z.eqb (vm_me s)) sub then CRanks sub else CNull]).
Proof. exact scope_live. Qed.
Print Assumptions C11_scope_live.

(** In serial the current name is put back and every use sees the one
    communicator there is; the names stay registered (hence partial). *)
Theorem C11_serial_partial : forall p s o s' t,
  vm_dummy s = true -> (forall n c, In (n, c) (vm_subs s) -> c = vm_default s) ->
  run p s = (o, s', t) ->
  vm_current s' = vm_current s /\ vm_default s' = vm_default s /\ vm_dummy s' = true /\
  (forall n c, In (n, c) (vm_subs s') -> c = vm_default s) /\
  (forall c, In c t -> c = vm_default s).
Proof. exact run_dummy. Qed.
Print Assumptions C11_serial_partial.

Definition case_vm (me : Z) : vmstate := mkvm me false (CRanks [0; 1; 2; 3]) [] None.
Definition case_prog : prog :=
  PSeq (PTry (PScoped "a" [0; 2; 3] (PIfLive (PSeq PObserve (PScoped "b" [1] (PSeq PObserve (PRaise BodyError)))))) PSkip)
       (PScoped "b" [] (PSeq PObserve (PScopedByName None PObserve))).

Example C11_case :
  EmptyScopesFresh (map fst (vm_subs (case_vm 2))) case_prog /\
  run case_prog (case_vm 2) = (None, case_vm 2, [CRanks [0; 2; 3]; CRanks [2]; CNull; CRanks [0; 1; 2; 3]]) /\
  run case_prog (case_vm 1) = (None, case_vm 1, [CNull; CRanks [0; 1; 2; 3]]).
Proof. split; [|split; vm_compute; reflexivity]. cbn. repeat split; try discriminate. intros _ []. Qed.

(** C11 refuted: a scope over no ranks that reuses the name of an open scope
    removes the outer communicator; the outer scope then raises and leaves the
    virtual machine pointing at a name that no longer exists. *)
Theorem C11_scopes_undone_refuted : exists p s o s' t,
  vm_dummy s = false /\ vm_subs s = [] /\ vm_current s = None /\ run p s = (o, s', t) /\
  o = Some SubcommNotFound /\ vm_current s' <> vm_current s /\ vm_comm s' = Err SubcommNotFound.
Proof.
  exists (PScoped "a" [0; 1] (PScoped "a" [] PSkip)), (case_vm 0). do 3 eexists.
  split; [reflexivity|]. split; [reflexivity|]. split; [reflexivity|]. split; [vm_compute; reflexivity|].
  split; [reflexivity|]. split; [discriminate|reflexivity].
Qed.
Print Assumptions C11_scopes_undone_refuted.

(** C54.  If no message is sent over one not yet received, then for every key the
    payloads received are the payloads sent, in order, each once; at most the
    last is still waiting. *)
Theorem C54_messages_partial : forall A (ops : list (msgop A)), OneOutstanding ops ->
  exists out m', run_msgs ops [] = Ok (out, m') /\
    forall k, exists rest, sent_on k ops = received_on k out ++ rest /\ List.length (received_on k out) = recv_count k ops /\
      (List.length rest <= 1)%nat /\ rest = boxed m' k.
Proof. exact @run_msgs_spec. Qed.
Print Assumptions C54_messages_partial.

Example C54_case :
  run_msgs [MSend 0 1 10; MSend 0 2 20; MRecv 0 1; MSend 0 1 30; MRecv 0 1; MRecv 0 2] [] =
    Ok ([((0, 1), 10); ((0, 1), 30); ((0, 2), 20)], []) /\
  OneOutstanding [MSend 0 1 10; MRecv 0 1; MSend 0 1 30].
Proof.
  split; [reflexivity|]. intros pre post k E.
  destruct pre as [|a [|b [|c [|d pre]]]]; cbn in E; try discriminate E; try (injection E; intros; subst);
    cbn; destruct (key_eqb k (0, 1)); cbn; try lia; destruct pre; discriminate.
Qed.

(** C54 refuted: a second send under the same destination and tag replaces the
    first, which is lost, and the second receive waits forever. *)
Theorem C54_messages_refuted : exists ops : list (msgop Z),
  (forall k, List.length (sent_on k ops) = recv_count k ops) /\ run_msgs ops [] = Err Deadlock.
Proof.
  exists [MSend 0 1 10; MSend 0 1 20; MRecv 0 1; MRecv 0 1]. split; [|reflexivity].
  intros k. cbn. destruct (key_eqb k (0, 1)); reflexivity.
Qed.
Print Assumptions C54_messages_refuted.
