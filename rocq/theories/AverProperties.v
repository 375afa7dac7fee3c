(** C75: spatial averages.  The model is AverModel.v, the specification AverSpec.v. *)
From Coq Require Import QArith.
From Verif Require Import Py AverModel AverSpec AverProofs AverRanks AverWitness.
Local Close Scope Q_scope.
Local Open Scope Z_scope.

(** Variables over the dimensions of the geometries come first, then those with other
    dimensions as well: every element of every result is the mean over the unmasked
    cells, weighted by area. *)
Theorem C75_average_partial : forall g ss rs, WellFormed g -> Forall (Static g) ss -> Forall (Regular g) rs ->
  exists out, spatial_average g (ss ++ rs) = Ok out /\
  forall k v, nth_error (ss ++ rs) k = Some v ->
    exists a, nth_error out k = Some a /\ a_dims a = Other g v ++ [union_dim] /\
      List.length (a_vals a) = fold_right Nat.mul 1%nat (lens (Other g v)) /\
      forall it x l, InGrid (Other g v) it -> ValueAt g v it x -> Lists (Live g v it) l -> l <> [] ->
        exists q, nth_error (a_vals a) (position (Other g v) it) = Some (q, false) /\ IsMean (Weight g) x l q.
Proof. exact average_partial. Qed.
Print Assumptions C75_average_partial.

Example C75_average_case : WellFormed grid /\ Forall (Static grid) [still] /\ Forall (Regular grid) [moving] /\
  Live grid moving [1%nat] [0%nat; 1%nat] /\
  exists out, spatial_average grid [still; moving] = Ok out /\
    map (fun a => map (fun p => (Qred (fst p), snd p)) (a_vals a)) out = [[(6%Q, false)]; [((17 # 3)%Q, false); (11%Q, false)]].
Proof. exact average_case. Qed.

(** Without any cell to average, a variable over the dimensions of the geometries is masked. *)
Theorem C75_masked_partial : forall g ss rs out k v, WellFormed g -> Forall (Static g) ss -> Forall (Regular g) rs ->
  spatial_average g (ss ++ rs) = Ok out -> nth_error (ss ++ rs) k = Some v -> Static g v -> (forall idx, ~ Live g v [] idx) ->
  exists a q, nth_error out k = Some a /\ a_vals a = [(q, true)].
Proof. exact static_masked. Qed.
Print Assumptions C75_masked_partial.

Example C75_masked_case : Static grid blank /\ (forall idx, ~ Live grid blank [] idx) /\
  exists out, spatial_average grid [blank] = Ok out.
Proof. exact masked_case. Qed.

(** With other dimensions such an element is 0 and not masked. *)
Theorem C75_masked_refuted : forall g ss rs out k v it, WellFormed g -> Forall (Static g) ss -> Forall (Regular g) rs ->
  spatial_average g (ss ++ rs) = Ok out -> nth_error (ss ++ rs) k = Some v -> Regular g v -> InGrid (Other g v) it ->
  (forall idx, ~ Live g v it idx) ->
  exists a, nth_error out k = Some a /\ nth_error (a_vals a) (position (Other g v) it) = Some (0%Q, false).
Proof. exact regular_unmasked. Qed.
Print Assumptions C75_masked_refuted.

Example C75_masked_refuted_case : Regular grid night /\ InGrid (Other grid night) [1%nat] /\ (forall idx, ~ Live grid night [1%nat] idx) /\
  exists out, spatial_average grid [night] = Ok out.
Proof. exact night_case. Qed.

(** A variable with other dimensions whose dimensions shared with the geometries are
    in another order is refused. *)
Theorem C75_order_of_dimensions_refuted : forall g v, WellFormed g -> Other g v <> [] ->
  NoDup (names (filter (fun d => existsb (String.eqb (fst d)) (names (g_dims g))) (v_dims v))) ->
  (forall n, In n (names (filter (fun d => existsb (String.eqb (fst d)) (names (g_dims g))) (v_dims v))) <-> In n (names (g_dims g))) ->
  names (filter (fun d => existsb (String.eqb (fst d)) (names (g_dims g))) (v_dims v)) <> names (g_dims g) ->
  spatial_average g [v] = Err TypeError.
Proof. exact swapped. Qed.
Print Assumptions C75_order_of_dimensions_refuted.

Example C75_order_of_dimensions_case : spatial_average grid [turned] = Err TypeError.
Proof. exact turned_case. Qed.

(** Without other dimensions it is averaged with the weights of other cells. *)
Theorem C75_transposed_refuted : exists g v out a x l q,
  WellFormed g /\ v_dims v = rev (g_dims g) /\ spatial_average g [v] = Ok out /\ nth_error out 0 = Some a /\ a_vals a = [(q, false)] /\
  (forall i j, x [i; j] = v_val v [j; i]) /\ Lists (InGrid (g_dims g)) l /\
  (forall idx, g_masked g idx = false /\ v_masked v idx = false) /\ ~ IsMean (Weight g) x l q.
Proof. exact transposed_refuted. Qed.
Print Assumptions C75_transposed_refuted.

(** A variable over the dimensions of the geometries after one with other dimensions is refused. *)
Theorem C75_order_of_variables_refuted : forall g r s, WellFormed g -> Regular g r -> Static g s -> spatial_average g [r; s] = Err ValueError.
Proof. exact static_after. Qed.
Print Assumptions C75_order_of_variables_refuted.

Example C75_order_of_variables_case : WellFormed grid /\ Regular grid moving /\ Static grid still.
Proof. exact after_case. Qed.

(** The union over all dimensions is made of the unmasked geometries. *)
Theorem C75_union : forall g, NoDup (names (g_dims g)) ->
  exists l, unions g (names (g_dims g)) = [([0%nat], l)] /\ Lists (fun idx => InGrid (g_dims g) idx /\ g_masked g idx = false) l.
Proof. exact union_lists. Qed.
Print Assumptions C75_union.

Example C75_union_case : unions grid (names (g_dims grid)) = [([0%nat], [[0; 0]; [0; 1]; [0; 2]; [1; 0]; [1; 1]]%nat)].
Proof. exact union_case. Qed.

(** Over some of the dimensions, every element is made of the geometries at the first index along the rest. *)
Theorem C75_union_dims_refuted : exists g d n, WellFormed g /\ g_dims g = [n; d] /\ (forall idx, g_masked g idx = false) /\
  exists u1 u2, unions g [fst d] = [u1; u2] /\ fst u1 = [0%nat; 0%nat] /\ fst u2 = [1%nat; 0%nat] /\ snd u1 = snd u2 /\
  (forall idx, In idx (snd u2) -> hd 9%nat idx = 0%nat).
Proof. exact union_dims_refuted. Qed.
Print Assumptions C75_union_dims_refuted.

(** On several ranks, the average of points without masks is the mean over all ranks for
    the first element, and for every element when the ranks have as many points each. *)
Theorem C75_parallel_points_partial : forall od parts, parts <> [] -> Parts od parts -> Points parts ->
  exists out, parallel_average (map (fun p => (fst p, [snd p])) parts) = Ok out /\
  List.length out = fold_right Nat.mul 1%nat (lens od) /\
  forall it x l, InGrid od it ->
    position od it = 0%nat \/ (exists n, forall g v, In (g, v) parts -> fold_right Nat.mul 1%nat (lens (g_dims g)) = n) ->
    PartValue parts it x -> Lists (PartCell parts) l ->
    exists q, nth_error out (position od it) = Some q /\ IsMean (fun _ => 1%Q) x l q.
Proof. exact parallel_points. Qed.
Print Assumptions C75_parallel_points_partial.

Example C75_parallel_points_case : Parts [("time"%string, 2%nat)] stations /\ Points stations /\
  exists out, parallel_average (map (fun p => (fst p, [snd p])) stations) = Ok out /\ map Qred out = [(7 # 2)%Q; (17 # 4)%Q].
Proof. exact stations_case. Qed.

(** On several ranks, the average lies between the least and the greatest value. *)
Theorem C75_parallel_bounds_partial : forall od parts, parts <> [] -> Parts od parts ->
  (forall g v it, In (g, v) parts -> InGrid od it -> exists idx, Live g v it idx) ->
  exists out, parallel_average (map (fun p => (fst p, [snd p])) parts) = Ok out /\
  List.length out = fold_right Nat.mul 1%nat (lens od) /\
  forall it lo hi, InGrid od it ->
    (forall g v idx p, In (g, v) parts -> Live g v it idx -> Splits (names (g_dims g)) (v_dims v) p it idx -> lo <= v_val v p <= hi)%Q ->
    exists q, nth_error out (position od it) = Some q /\ (lo <= q <= hi)%Q.
Proof. exact parallel_bounds. Qed.
Print Assumptions C75_parallel_bounds_partial.

Example C75_parallel_bounds_case : Parts [] halves /\ forall g v it, In (g, v) halves -> InGrid [] it -> exists idx, Live g v it idx.
Proof. exact halves_case. Qed.

(** With areas, the first rank counts with the area of all. *)
Theorem C75_parallel_refuted : exists parts q l x,
  Parts [] parts /\ (forall g v, In (g, v) parts -> (forall idx, g_area g idx = 1%Q /\ g_masked g idx = false) /\ forall p, v_masked v p = false) /\
  parallel_average (map (fun p => (fst p, [snd p])) parts) = Ok [q] /\
  PartValue parts [] x /\ Lists (PartCell parts) l /\ ~ IsMean (fun _ => 1%Q) x l q.
Proof. exact parallel_refuted. Qed.
Print Assumptions C75_parallel_refuted.

(** With points, the elements after the first may be averaged with the weights of other ranks. *)
Theorem C75_parallel_order_refuted : exists od parts out it q l x,
  Parts od parts /\ Points parts /\ parallel_average (map (fun p => (fst p, [snd p])) parts) = Ok out /\
  InGrid od it /\ nth_error out (position od it) = Some q /\ PartValue parts it x /\ Lists (PartCell parts) l /\ ~ IsMean (fun _ => 1%Q) x l q.
Proof. exact order_refuted. Qed.
Print Assumptions C75_parallel_order_refuted.

(** A rank without a cell to average counts as 0. *)
Theorem C75_parallel_mask_refuted : exists parts q,
  Parts [] parts /\ parallel_average (map (fun p => (fst p, [snd p])) parts) = Ok [q] /\
  (forall g v idx p, In (g, v) parts -> Live g v [] idx -> Splits (names (g_dims g)) (v_dims v) p [] idx -> (v_val v p == 5)%Q) /\
  (exists g v idx, In (g, v) parts /\ Live g v [] idx) /\ ~ (q == 5)%Q.
Proof. exact mask_refuted. Qed.
Print Assumptions C75_parallel_mask_refuted.
