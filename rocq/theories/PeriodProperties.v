(** Periodic grids (C85) and the resolution of coordinates (C86).  [turn] is a full
    circle (360 degrees) in the unit of the coordinates. *)
From Verif Require Import Py PeriodModel PeriodSpec PeriodProofs.
Local Open Scope Z_scope.

(** * C85 *)

(** A grid that covers the circle once, wrapped or not, is periodic. *)
Theorem C85_global : forall turn a d n, 0 < d -> Z.of_nat n * d = turn -> (3 <= n)%nat -> - turn + d <= a <= d ->
  is_periodic turn [regular a d n] = Ok true.
Proof. exact global. Qed.
Print Assumptions C85_global.

(** A grid without negative longitudes is periodic if and only if its first and last
    columns are at most one spacing away from 0 and 360 degrees.
    Missing: grids with negative longitudes. *)
Theorem C85_unwrapped_partial : forall turn a d n, 0 < d -> 0 <= a -> (2 <= n)%nat ->
  exists b, is_periodic turn [regular a d n] = Ok b /\ (b = true <-> a <= d /\ turn - d <= last_of a d n <= turn + d).
Proof. exact unwrapped. Qed.
Print Assumptions C85_unwrapped_partial.

(** Ranks with at least two columns each agree with a single process. *)
Theorem C85_ranks_partial : forall turn a d ns, 0 < d -> 0 <= a -> ns <> [] -> Forall (fun n => (2 <= n)%nat) ns -> last_of a d (total_of ns) <= turn + d ->
  is_periodic turn (split_over ns (regular a d (total_of ns))) = is_periodic turn [regular a d (total_of ns)].
Proof. exact ranks_nonneg. Qed.
Print Assumptions C85_ranks_partial.

(** With negative longitudes, three columns each are enough. *)
Theorem C85_ranks_wrapped_partial : forall turn a d ns, 0 < d -> a < 0 -> 0 <= last_of a d (total_of ns) -> Forall (fun n => (3 <= n)%nat) ns ->
  is_periodic turn (split_over ns (regular a d (total_of ns))) = Ok true.
Proof. exact ranks_straddling. Qed.
Print Assumptions C85_ranks_wrapped_partial.

Example C85_case :
  is_periodic 360 [regular 15 30 12] = Ok true /\ is_periodic 360 [regular (-165) 30 12] = Ok true /\ is_periodic 360 [regular 0 30 6] = Ok false /\
  is_periodic 360 (split_over [4; 2; 6]%nat (regular 15 30 12)) = Ok true /\ is_periodic 360 (split_over [5; 3; 4]%nat (regular (-165) 30 12)) = Ok true.
Proof. vm_compute. repeat split; reflexivity. Qed.

(** Every regional grid with columns on both sides of the zero meridian is taken for a
    periodic one. *)
Theorem C85_regional_refuted : forall turn a d n, 0 < d -> a < 0 -> 0 <= last_of a d n -> (3 <= n)%nat -> is_periodic turn [regular a d n] = Ok true.
Proof. exact straddling. Qed.
Print Assumptions C85_regional_refuted.

(** So is a global grid without one of its columns. *)
Theorem C85_missing_refuted : forall d n, 0 < d -> (2 <= n)%nat -> is_periodic (Z.of_nat (S n) * d) [regular d d n] = Ok true.
Proof. exact missing_refuted. Qed.
Print Assumptions C85_missing_refuted.

(** With one column per rank a global grid is not periodic. *)
Theorem C85_single_columns_refuted : exists turn a d ns, is_periodic turn [regular a d (total_of ns)] = Ok true /\ Z.of_nat (total_of ns) * d = turn /\
  is_periodic turn (split_over ns (regular a d (total_of ns))) = Ok false.
Proof. exists 360, 0, 90, [1; 1; 1; 1]%nat. vm_compute. repeat split; reflexivity. Qed.
Print Assumptions C85_single_columns_refuted.

(** * C86 *)

(** The resolution of evenly spaced coordinates on one side of zero is their spacing.
    Missing: coordinates on both sides. *)
Theorem C86_spacing_partial : forall a d n, (2 <= n)%nat -> OneSide a d n ->
  Resolves (array_resolution (regular a d n)) (Z.abs d) /\ exists r, variable_resolution (regular a d n) None = Ok r /\ Resolves r (Z.abs d).
Proof. exact spacing_partial. Qed.
Print Assumptions C86_spacing_partial.

(** With bounds, the resolution is the width of the cells. *)
Theorem C86_bounds : forall value bs w, bs <> [] -> Forall (fun b => Z.abs (snd b - fst b) = w) bs ->
  exists r, variable_resolution value (Some bs) = Ok r /\ Resolves r w.
Proof. exact width_spec. Qed.
Print Assumptions C86_bounds.

(** Only the first hundred values matter. *)
Theorem C86_limit : forall l l', (2 <= List.length l)%nat -> (2 <= List.length l')%nat -> firstn 100 l = firstn 100 l' -> array_resolution l = array_resolution l'.
Proof. exact limit_only. Qed.
Print Assumptions C86_limit.

Example C86_case : OneSide 350 (-10) 30 /\ array_resolution (regular 350 (-10) 30) = Some (290, 29) /\
  variable_resolution (regular 5 10 3) (Some [(0, 10); (10, 20); (30, 20)]) = Ok (Some (30, 3)).
Proof. split; [left; unfold last_of; lia|]. vm_compute. split; reflexivity. Qed.

(** On both sides of zero the resolution comes out too small, unless zero is one of the
    values: absolute values are taken before the differences. *)
Theorem C86_zero_refuted : forall a d n, 0 < d -> a < 0 -> 0 <= last_of a d n -> (n <= 100)%nat -> (forall i : nat, a + Z.of_nat i * d <> 0) ->
  Finer (array_resolution (regular a d n)) d /\ exists r, variable_resolution (regular a d n) None = Ok r /\ Finer r d.
Proof. exact finer_refuted. Qed.
Print Assumptions C86_zero_refuted.

(** Half a degree off: two thirds of the spacing. *)
Example C86_case_zero : array_resolution (regular (-15) 10 4) = Some (20, 3).
Proof. reflexivity. Qed.
