(** C16-C20 and the broadcasting part of C46. *)
From Verif Require Import Py Spec NdModel NdSpec NdProofs MaskProofs.
Local Open Scope string_scope.
Local Open Scope Z_scope.

(** C16.  The rectangle returned contains every unmasked cell, has an unmasked
    cell on each of its sides, and its cells are those of the array at the reported
    offsets. *)
Theorem C16_trimmed : forall A (values : list (list A)) mask ncol,
  Forall (fun row => List.length row = ncol) mask ->
  (exists i j, cell mask i j = Some false) ->
  exists r0 r1 c0 c1,
    get_trimmed_array_by_mask values mask ncol = Ok (cut2 values ((r0, r1), (c0, c1)), cut2 mask ((r0, r1), (c0, c1)), ((r0, r1), (c0, c1))) /\
    (r0 < r1 <= List.length mask)%nat /\ (c0 < c1 <= ncol)%nat /\
    (forall i j, cell mask i j = Some false -> (r0 <= i < r1)%nat /\ (c0 <= j < c1)%nat) /\
    (exists j, cell mask r0 j = Some false) /\ (exists j, cell mask (r1 - 1) j = Some false) /\
    (exists i, cell mask i c0 = Some false) /\ (exists i, cell mask i (c1 - 1) = Some false) /\
    forall i j, (i < r1 - r0)%nat -> (j < c1 - c0)%nat ->
      cell (cut2 values ((r0, r1), (c0, c1))) i j = cell values (r0 + i) (c0 + j) /\
      cell (cut2 mask ((r0, r1), (c0, c1))) i j = cell mask (r0 + i) (c0 + j).
Proof. exact @trimmed_spec. Qed.
Print Assumptions C16_trimmed.

Theorem C16_all_masked_raises : forall A (values : list (list A)) mask ncol,
  (forall i j, cell mask i j <> Some false) -> get_trimmed_array_by_mask values mask ncol = Err AllElementsMaskedError.
Proof. exact @trimmed_raises. Qed.
Print Assumptions C16_all_masked_raises.

(** The same for one-dimensional masks. *)
Theorem C16_trimmed_one_dimension : forall mask, (exists i, nth_error mask i = Some false) ->
  exists a b, trim_slices_1d mask = Ok (a, b) /\ (a < b <= List.length mask)%nat /\
    (forall i, nth_error mask i = Some false -> (a <= i < b)%nat) /\
    nth_error mask a = Some false /\ nth_error mask (b - 1) = Some false.
Proof. exact trimmed_1d_spec. Qed.
Print Assumptions C16_trimmed_one_dimension.

Example C16_case : let m := [[true; true; true]; [true; false; true]; [true; true; false]; [true; true; true]] in
  Forall (fun row => List.length row = 3%nat) m /\ cell m 1 1 = Some false /\
  get_trimmed_array_by_mask [[1; 2; 3]; [4; 5; 6]; [7; 8; 9]; [10; 11; 12]] m 3 =
    Ok ([[5; 6]; [8; 9]], [[false; true]; [true; false]], ((1, 3), (1, 3))%nat).
Proof. cbn zeta. split; [repeat constructor|split; vm_compute; reflexivity]. Qed.

(** C17.  Exchanging along the chain returned turns the actual order into the
    desired one. *)
Theorem C17_swap_chain : forall actual desired,
  NoDup actual -> NoDup desired -> (forall x, In x actual <-> In x desired) ->
  exists chain, get_swap_chain actual desired = Ok chain /\ ExchangedAlong chain actual desired.
Proof. exact get_swap_chain_spec. Qed.
Print Assumptions C17_swap_chain.

Example C17_case : get_swap_chain ["a"; "b"; "c"; "d"] ["c"; "a"; "d"; "b"] = Ok [(0, 2); (1, 2); (2, 3)]%nat.
Proof. reflexivity. Qed.

(** C18.  A position is a coordinate for every name ([f]).  The element of the
    result at a position is the element of the source there; new dimensions have
    size one, and only dimensions of size one may be dropped. *)
Theorem C18_broadcast : forall A (arr : nd A) src dst (sz : string -> Z),
  NoDup src -> NoDup dst -> nd_shape arr = map sz src ->
  (forall n, In n src -> ~ In n dst -> sz n = 1) ->
  exists r, broadcast_array arr src dst = Ok r /\
    nd_shape r = map (size_after src sz) dst /\
    forall f : string -> Z,
      (forall n, In n src -> 0 <= f n < sz n) -> (forall n, In n dst -> ~ In n src -> f n = 0) ->
      nd_at r (map f dst) = nd_at arr (map f src).
Proof. exact @broadcast_array_spec. Qed.
Print Assumptions C18_broadcast.

Theorem C18_broadcast_raises : forall A (arr : nd A) src dst (sz : string -> Z) n,
  NoDup src -> nd_shape arr = map sz src -> In n src -> ~ In n dst -> sz n <> 1 ->
  broadcast_array arr src dst = Err ValueError.
Proof. exact @broadcast_array_raises. Qed.
Print Assumptions C18_broadcast_raises.

(** The element at [i; j; k] is the number with these digits. *)
Definition case_arr (shape : list Z) : nd Z := mknd shape (fun idx => fold_left (fun a d => 10 * a + d) idx 0).
Definition at_all {A} (a : nd A) : list A := map (nd_at a) (indices (nd_shape a)).

Example C18_case :
  match broadcast_array (case_arr [2; 1; 3]) ["t"; "l"; "x"] ["x"; "r"; "t"] with
  | Ok r => (nd_shape r, at_all r) = ([3; 1; 2], [0; 100; 1; 101; 2; 102])
  | Err _ => False
  end.
Proof. vm_compute. reflexivity. Qed.

(** C19.  After any history of mask settings exactly those elements are masked
    that the history masks; dimensions and values are those at the start. *)
Theorem C19_set_mask_history : forall A (calls : list (option (nd bool) * bool)) (v : nvar A),
  Forall (fun c => match fst c with None => True | Some a => nd_shape a = nv_shape v end) calls ->
  exists v', fold_res (fun v c => var_set_mask v (fst c) (snd c)) calls v = Ok v' /\
    nv_dims v' = nv_dims v /\ nv_value v' = nv_value v /\
    forall idx, masked v' idx = true <-> MaskedAfter (masked v idx) calls idx.
Proof. exact @set_mask_history. Qed.
Print Assumptions C19_set_mask_history.

Theorem C19_wrong_shape_raises : forall A (v : nvar A) m u,
  nd_shape m <> nv_shape v -> var_set_mask v (Some m) u = Err AssertionError.
Proof. exact @set_mask_wrong_shape. Qed.
Print Assumptions C19_wrong_shape_raises.

Definition case_mask (shape : list Z) (at_ : list (list Z)) : nd bool :=
  mknd shape (fun idx => existsb (listZ_eqb idx) at_).
Definition case_var (dims : list (string * Z)) (m : option (list (list Z))) : nvar Z :=
  mknvar dims (case_arr (map snd dims)) (option_map (case_mask (map snd dims)) m).

Example C19_case :
  match fold_res (fun v c => var_set_mask v (fst c) (snd c))
          [(Some (case_mask [2; 2] [[0; 0]]), false); (None, true); (Some (case_mask [2; 2] [[1; 0]]), true)]
          (case_var [("t", 2); ("x", 2)] (Some [[1; 1]])) with
  | Ok v => map (masked v) (indices [2; 2]) = [true; false; true; false]
  | Err _ => False
  end.
Proof. vm_compute. reflexivity. Qed.

(** C20.  Every other variable that is not excluded is as [Cascaded] says.  Full
    for [update = true]; for [update = false] see the refutation. *)
Theorem C20_cascade_partial : forall A (vars : list (string * nvar A)) name exclude update source,
  dget String.eqb vars name = Some source -> GoodVar source ->
  (forall k v, In (k, v) vars -> GoodVar v /\ (nv_names source = nv_names v -> nv_shape source = nv_shape v)) ->
  exists vars', collection_set_mask vars name exclude update = Ok vars' /\
    Forall2 (fun kv kv' => fst kv' = fst kv /\
      (if str_mem (fst kv) exclude || String.eqb name (fst kv) then snd kv' = snd kv
       else Cascaded source update (snd kv) (snd kv'))) vars vars'.
Proof. exact @collection_set_mask_spec. Qed.
Print Assumptions C20_cascade_partial.

(** The collection of the example: the mask of [m] over (y, x). *)
Definition case_vars : list (string * nvar Z) :=
  [("m", case_var [("y", 2); ("x", 3)] (Some [[0; 1]; [1; 2]]));
   ("same", case_var [("y", 2); ("x", 3)] (Some [[0; 0]]));
   ("moved", case_var [("x", 3); ("t", 2); ("y", 2)] (Some [[0; 1; 1]]));
   ("x", case_var [("x", 3)] None);
   ("time", case_var [("t", 2)] None);
   ("left", case_var [("x", 3)] None)].
Definition mask_lists (r : res (list (string * nvar Z))) : list (list (list Z)) :=
  match r with Ok l => map (fun kv => filter (masked (snd kv)) (indices (nv_shape (snd kv)))) l | Err _ => [] end.

Example C20_case :
  dget String.eqb case_vars "m" = Some (snd (hd ("", case_var [] None) case_vars)) /\
  mask_lists (collection_set_mask case_vars "m" ["left"] true) =
  [[[0; 1]; [1; 2]]; [[0; 0]; [0; 1]; [1; 2]]; [[0; 1; 1]; [1; 0; 0]; [1; 1; 0]; [2; 0; 1]; [2; 1; 1]]; [[1]; [2]]; []; []].
Proof. split; vm_compute; reflexivity. Qed.

Example C20_case_hypotheses : forall k v, In (k, v) case_vars ->
  GoodVar v /\ (nv_names (case_var [("y", 2); ("x", 3)] (Some [[0; 1]; [1; 2]])) = nv_names v -> [2; 3] = nv_shape v).
Proof.
  intros k v H. cbn [case_vars In] in H.
  destruct H as [H|[H|[H|[H|[H|[H|[]]]]]]]; injection H as <- <-;
    (split; [split; [cbn; repeat constructor; cbn; intuition discriminate|cbn; repeat split; repeat constructor; lia]|cbn; first [reflexivity|discriminate]]).
Qed.

(** C20 refuted for [update = false] (the default of [VariableCollection.set_mask]):
    an element masked before is no longer masked. *)
Theorem C20_cascade_refuted : exists (vars vars' : list (string * nvar Z)) v v',
  collection_set_mask vars "m" [] false = Ok vars' /\
  dget String.eqb vars "same" = Some v /\ dget String.eqb vars' "same" = Some v' /\
  masked v [0; 0] = true /\ masked v' [0; 0] = false.
Proof.
  exists case_vars. do 3 eexists. split; [vm_compute; reflexivity|]. split; [vm_compute; reflexivity|].
  split; [vm_compute; reflexivity|]. split; vm_compute; reflexivity.
Qed.
Print Assumptions C20_cascade_refuted.

(** C46, broadcasting.  However the body ends, the dimensions are as before, and
    the variable is as before if the body did not change it.  Partial: the new order
    must have the same names. *)
Theorem C46_broadcast_scope_partial : forall A (v : nvar A) dst body, GoodVar v -> SameNames (nv_names v) dst ->
  (forall v1, nv_names v1 = dst -> GoodVar v1 -> nv_dims (fst (body v1)) = nv_dims v1 /\ GoodVar (fst (body v1))) ->
  exists v1 v2, broadcast_variable v dst = Ok v1 /\ broadcast_scope v dst body = Ok (v2, snd (body v1)) /\
    nv_names v1 = dst /\ nv_dims v2 = nv_dims v /\
    (SameVar (fst (body v1)) v1 -> SameVar v2 v).
Proof. exact @broadcast_scope_spec. Qed.
Print Assumptions C46_broadcast_scope_partial.

Example C46_broadcast_case :
  match broadcast_scope (case_var [("t", 2); ("y", 1); ("x", 3)] (Some [[1; 0; 2]])) ["x"; "t"; "y"] (fun v => (v, Some BodyError)) with
  | Ok (v, o) => o = Some BodyError /\ nv_dims v = [("t", 2); ("y", 1); ("x", 3)] /\
      at_all (nv_value v) = [0; 1; 2; 100; 101; 102] /\ map (masked v) (indices [2; 1; 3]) = [false; false; false; false; false; true]
  | Err _ => False
  end.
Proof. vm_compute. repeat split. Qed.

(** C46 refuted: broadcasting to an order without a dimension of size one works,
    but putting the dimensions back raises. *)
Theorem C46_broadcast_scope_refuted : exists (v : nvar Z) dst v1,
  GoodVar v /\ broadcast_variable v dst = Ok v1 /\ broadcast_scope v dst (fun v => (v, None)) = Err KeyError.
Proof.
  exists (case_var [("t", 2); ("y", 1)] None), ["t"]. eexists. split; [|split; vm_compute; reflexivity].
  split; [cbn; repeat constructor; cbn; intuition discriminate|cbn; repeat split; repeat constructor; lia].
Qed.
Print Assumptions C46_broadcast_scope_refuted.
