(** C01, C02, C04: decompositions of ranges and index spaces. *)
From Verif Require Import Py Spec PartitionModel PartitionSpec PartitionProofs.

(** C01.  [get_rank_bounds(n, s, r)] over r = 0..s-1 is an even, ordered split
    of the elements 0..n-1, each element owned by exactly one rank; a rank gets
    no range exactly when there are at most [r] elements; ranks beyond the size
    get none. *)
Theorem C01_rank_bounds_partition : forall n s, 0 <= n -> 1 <= s ->
  exists f : Z -> option (Z * Z),
    (forall r, 0 <= r -> get_rank_bounds n s r = Ok (f r)) /\
    EvenSplit n s f /\
    (forall r, 0 <= r < s -> (f r = None <-> n <= r)) /\
    (forall r, s <= r -> f r = None).
Proof. exact rank_bounds_partition. Qed.
Print Assumptions C01_rank_bounds_partition.

Example C01_case : 0 <= 11 /\ 1 <= 4 /\
  map (get_rank_bounds 11 4) [0; 1; 2; 3; 4] =
  [Ok (Some (0, 3)); Ok (Some (3, 6)); Ok (Some (6, 9)); Ok (Some (9, 11)); Ok None].
Proof. repeat split; try discriminate; vm_compute; reflexivity. Qed.

(** C02, one dimension.  The slices returned are non-empty, as many as asked
    for, select together 0..length-1 in order, and each index belongs to exactly
    one of them. *)
Theorem C02_create_slices_partition : forall length size, 1 <= size <= length ->
  exists sl, create_slices length size = Ok sl /\ zlen sl = size /\
    Forall (fun s => slice_positions length s <> []) sl /\
    flat_map (slice_positions length) sl = zrange 0 length /\
    forall i, 0 <= i < length -> ExactlyOne (fun s => In i (slice_positions length s)) sl.
Proof. exact create_slices_spec. Qed.
Print Assumptions C02_create_slices_partition.

(** C02, n dimensions.  One cell per combination of splits; every index tuple
    of the array lies in exactly one cell. *)
Theorem C02_create_nd_slices_partition : forall shape splits,
  Forall2 (fun n s => 1 <= s <= n) shape splits ->
  exists cells, create_nd_slices splits shape = Ok cells /\
    zlen cells = zprod splits /\
    forall idx, IndexOf shape idx -> ExactlyOne (fun cell => CellSelects shape cell idx) cells.
Proof. exact create_nd_slices_spec. Qed.
Print Assumptions C02_create_nd_slices_partition.

(** C02, error case: asking for no piece or for more pieces than elements in
    some dimension raises. *)
Theorem C02_create_nd_slices_raises : forall shape splits,
  (exists k n s, nth_error shape k = Some n /\ nth_error splits k = Some s /\ 0 <= n /\ (s <= 0 \/ n < s)) ->
  exists e, create_nd_slices splits shape = Err e.
Proof. exact create_nd_slices_raises. Qed.
Print Assumptions C02_create_nd_slices_raises.

Example C02_case : Forall2 (fun n s => 1 <= s <= n) [5; 3] [2; 2] /\ IndexOf [5; 3] [4; 0] /\
  create_nd_slices [2; 2] [5; 3] =
  Ok [[slice_of 0 3; slice_of 0 2]; [slice_of 0 3; slice_of 2 3];
      [slice_of 3 5; slice_of 0 2]; [slice_of 3 5; slice_of 2 3]].
Proof.
  split; [repeat constructor; discriminate|]. split; [repeat constructor; discriminate|].
  vm_compute; reflexivity.
Qed.

(** C04.  For a non-empty global slice and non-empty local bounds the returned
    local range [[a, b)] holds exactly the local positions of the global indices
    in both; [None] is returned only if there are none. *)
Theorem C04_global_to_local_slice : forall start stop lower upper,
  start < stop -> lower < upper ->
  match get_global_to_local_slice (Some start) (Some stop) (lower, upper) with
  | Ok (Some (a, b)) =>
      0 <= a < b /\ b <= upper - lower /\
      forall i, (a <= i < b) <-> (start <= lower + i < stop /\ lower <= lower + i < upper)
  | Ok None => forall g, ~ (start <= g < stop /\ lower <= g < upper)
  | Err _ => False
  end.
Proof. exact global_to_local_spec. Qed.
Print Assumptions C04_global_to_local_slice.

(** C04, error case: omitted ends raise. *)
Theorem C04_omitted_end_raises : forall start stop b,
  start = None \/ stop = None -> get_global_to_local_slice start stop b = Err ValueError.
Proof. exact global_to_local_none. Qed.
Print Assumptions C04_omitted_end_raises.

Example C04_case : get_global_to_local_slice (Some 3) (Some 9) (5, 8) = Ok (Some (0, 3)) /\
  get_global_to_local_slice (Some 6) (Some 7) (5, 8) = Ok (Some (1, 2)) /\
  get_global_to_local_slice (Some 8) (Some 9) (5, 8) = Ok None.
Proof. repeat split. Qed.
