(** C143 to C146: regridding by chunks. *)
From Verif Require Import Py PartitionModel NdModel DistModel ChunkModel CoordModel CoordSpec GeomModel TileModel TileSpec TileProofs.
From Coq Require Import QArith Qminmax Lia.
Local Close Scope Q_scope.
Local Open Scope nat_scope.

Definition line (a : Z) (step : positive) (n : nat) : list Q := map (fun k => Qmake (a + Z.of_nat k * Zpos step)%Z 1) (seq 0 n).
Definition cells_of (a : Z) (n : nat) : list (Q * Q) := map (fun k => (Qmake (2 * (a + Z.of_nat k) - 1)%Z 2, Qmake (2 * (a + Z.of_nat k) + 1)%Z 2)) (seq 0 n).
Definition fine : tgrid := mktgrid (line 0 1 6) (line 0 1 8) None None.
Definition target : tgrid := mktgrid (line 1 1 4) (line 1 1 6) (Some (cells_of 1 4, cells_of 1 6)) None.
Definition number (j i : nat) : Z := Z.of_nat (10 * j + i).

(** C143.  A regridding that looks at the source points within some reach of a destination
    cell gives every cell of a chunk the same value from the part of the source that is cut
    out for the chunk as from the whole source, if the buffer is at least the reach. *)
Theorem C143_chunk_has_its_sources_partial : forall (V W : Type) (regrid : list (Q * Q * V) -> (Q * Q) * (Q * Q) -> W) reach buffer allow src dst value cell part ys xs,
  Local reach regrid -> (reach <= buffer)%Q -> GoodGrid dst -> tg_mask src = None -> InGrid dst cell ->
  src_subset buffer allow src dst cell = Ok (part, (ys, xs)) ->
  forall j i, InChunk cell j i ->
    regrid (points part (fun j' i' => value (fst ys + j') (fst xs + i'))) (dst_cell dst j i) = regrid (points src value) (dst_cell dst j i).
Proof. intros V W. exact chunk_enough. Qed.
Print Assumptions C143_chunk_has_its_sources_partial.
(** The chunk finds a part of the source if one of its cells has a source point in reach. *)
Theorem C143_chunk_found : forall buffer src dst cell reach j i,
  (reach <= buffer)%Q -> GoodGrid dst -> tg_mask dst = None -> InGrid dst cell -> InChunk cell j i ->
  Reached reach src (dst_cell dst j i) -> exists r, src_subset buffer true src dst cell = Ok r.
Proof. exact chunk_found. Qed.
Print Assumptions C143_chunk_found.
Example C143_case : exists part ys xs,
  src_subset 1 true fine target ((0, 2), (3, 6))%Z = Ok (part, (ys, xs)) /\ ys = (0, 4) /\ xs = (3, 8) /\
  InGrid target ((0, 2), (3, 6))%Z /\ GoodGrid target /\ Local 1 (sum_near 1) /\ Reached 1 fine (dst_cell target 1 4) /\
  sum_near 1 (points part (fun j' i' => number (0 + j') (3 + i'))) (dst_cell target 1 4) <> 0%Z.
Proof.
  eexists _, _, _. split; [vm_compute; reflexivity|]. split; [reflexivity|]. split; [reflexivity|]. split; [cbv; intuition congruence|].
  split; [repeat split; discriminate|]. split; [apply sum_near_local|]. split; [|vm_compute; discriminate].
  exists 2%Q, 5%Q. repeat split; cbn; auto 12.
Qed.

(** The default buffer is too small for a source that is coarser than the destination: a
    chunk misses the source cell it lies in, or does not find any source. *)
Definition coarse : tgrid := mktgrid (line 0 10 3) (line 0 10 3) None None.
Definition narrow : tgrid := mktgrid (line 6 1 4) (line 6 1 8) (Some (cells_of 6 4, cells_of 6 8)) None.
Theorem C143_default_buffer_refuted : exists src dst cell, GoodGrid src /\ GoodGrid dst /\ InGrid dst cell /\ tg_mask src = None /\
  src_subset (buffer_value None None None src dst) true src dst cell = Err EmptySubsetError /\
  exists j i, InChunk cell j i /\ Reached 5 src (dst_cell dst j i).
Proof.
  exists coarse, narrow, ((0, 2), (0, 2))%Z. split; [repeat split; discriminate|]. split; [repeat split; discriminate|]. split; [cbv; intuition congruence|].
  split; [reflexivity|]. split; [vm_compute; reflexivity|]. exists 0, 0. split; [cbv; intuition congruence|].
  exists 10%Q, 10%Q. repeat split; cbn; auto.
Qed.
Print Assumptions C143_default_buffer_refuted.
Theorem C143_default_buffer_misses_refuted : exists src dst cell part ys xs, GoodGrid src /\ GoodGrid dst /\ InGrid dst cell /\ tg_mask src = None /\
  src_subset (buffer_value None None None src dst) true src dst cell = Ok (part, (ys, xs)) /\
  exists j i, InChunk cell j i /\
    sum_near 5 (points part (fun j' i' => number (fst ys + j') (fst xs + i'))) (dst_cell dst j i) <> sum_near 5 (points src number) (dst_cell dst j i).
Proof.
  exists (mktgrid [0; 10; 20]%Q [0; 10; 20]%Q None None), (mktgrid [1; 2; 5; 6]%Q [1; 2; 5; 6]%Q None None), ((0, 4), (0, 4))%Z. eexists _, _, _.
  split; [repeat split; discriminate|]. split; [repeat split; discriminate|]. split; [cbv; intuition congruence|].
  split; [reflexivity|]. split; [vm_compute; reflexivity|]. exists 3, 3. split; [cbv; intuition congruence|]. vm_compute. discriminate.
Qed.
Print Assumptions C143_default_buffer_misses_refuted.
(** Partial: it is enough if the source is not coarser than the destination and the reach
    is at most twice the source resolution. *)
Theorem C143_default_buffer_partial : forall (V W : Type) (regrid : list (Q * Q * V) -> (Q * Q) * (Q * Q) -> W) reach allow src dst value cell part ys xs,
  Local reach regrid -> (resolution_max src <= resolution_max dst)%Q -> (reach <= 2 * resolution_max src)%Q ->
  GoodGrid dst -> tg_mask src = None -> InGrid dst cell ->
  src_subset (buffer_value None None None src dst) allow src dst cell = Ok (part, (ys, xs)) ->
  forall j i, InChunk cell j i ->
    regrid (points part (fun j' i' => value (fst ys + j') (fst xs + i'))) (dst_cell dst j i) = regrid (points src value) (dst_cell dst j i).
Proof. intros V W. exact default_enough. Qed.
Print Assumptions C143_default_buffer_partial.
Theorem C143_default_buffer_value : forall src dst s d,
  (buffer_value None s d src dst ==
   2 * Qmin (match d with Some r => r | None => resolution_max dst end) (match s with Some r => r | None => resolution_max src end))%Q /\
  forall b, buffer_value (Some b) s d src dst = b.
Proof. intros. split; [apply default_buffer|reflexivity]. Qed.
Print Assumptions C143_default_buffer_value.
(** The resolution is the larger step of the two axes, for even axes on one side of zero
    (C86 has the other axes). *)
Theorem C143_resolution_partial : forall g dx dy, 2 <= length (tg_xs g) -> 2 <= length (tg_ys g) -> (0 <= dx)%Q -> (0 <= dy)%Q ->
  Steps dx (tg_xs g) -> Steps dy (tg_ys g) -> Forall (fun x => 0 <= x)%Q (tg_xs g) -> Forall (fun y => 0 <= y)%Q (tg_ys g) ->
  (resolution_max g == Qmax dx dy)%Q.
Proof.
  intros g dx dy Lx Ly Dx Dy Sx Sy Px Py. rewrite resolution_larger. now rewrite (resolution_even dx), (resolution_even dy).
Qed.
Print Assumptions C143_resolution_partial.
Example C143_resolution_case : Steps 1 (tg_xs fine) /\ Steps 10 (tg_ys coarse) /\ resolution_max (mktgrid (tg_ys coarse) (tg_xs fine) None None) = Qmake 20 2.
Proof.
  split; [|split]; [| |vm_compute; reflexivity]; intros k a b A B; do 8 (destruct k as [|k]; [cbn in A, B; try discriminate; injection A as <-; injection B as <-; reflexivity|]);
    cbn in A; destruct k; discriminate.
Qed.
Example C143_default_case : (resolution_max fine <= resolution_max target)%Q /\ (2 <= 2 * resolution_max fine)%Q /\
  exists r, src_subset (buffer_value None None None fine target) false fine target ((2, 4), (0, 3))%Z = Ok r.
Proof. split; [vm_compute; discriminate|]. split; [vm_compute; discriminate|]. eexists. vm_compute. reflexivity. Qed.

(** C144.  The chunks put together are the regridding of the whole, if every destination
    cell has a source point within reach, the buffer is at least the reach and no chunk is
    without cells. *)
Theorem C144_chunks_are_the_whole_partial : forall (V W : Type) (regrid : list (Q * Q * V) -> (Q * Q) * (Q * Q) -> W) reach buffer src dst value sy sx master,
  Local reach regrid -> (reach <= buffer)%Q -> GoodGrid src -> GoodGrid dst -> tg_mask src = None -> tg_mask dst = None ->
  ~ (sy = 1 /\ sx = 1)%Z ->
  (forall cells, iter_dst_grid_slices (zlen (tg_ys dst)) (zlen (tg_xs dst)) sy sx None = Ok cells -> Forall (InGrid dst) cells) ->
  (1 <= sy)%Z -> (sy = 1 \/ 2 <= zlen (tg_ys dst))%Z -> (1 <= sx)%Z -> (sx = 1 \/ 2 <= zlen (tg_xs dst))%Z ->
  b_rows master = zlen (tg_ys dst) -> b_cols master = zlen (tg_xs dst) ->
  (forall j i, j < length (tg_ys dst) -> i < length (tg_xs dst) -> Reached reach src (dst_cell dst j i)) ->
  exists m, regrid_by_chunks regrid buffer true src dst value sy sx master = Ok m /\ b_rows m = zlen (tg_ys dst) /\ b_cols m = zlen (tg_xs dst) /\
    forall y x, (0 <= y < zlen (tg_ys dst))%Z -> (0 <= x < zlen (tg_xs dst))%Z ->
      b_at m y x = regrid (points src value) (dst_cell dst (Z.to_nat y) (Z.to_nat x)).
Proof. intros V W. exact chunks_whole. Qed.
Print Assumptions C144_chunks_are_the_whole_partial.
Example C144_case : exists cells, iter_dst_grid_slices (zlen (tg_ys target)) (zlen (tg_xs target)) 2 2 None = Ok cells /\ Forall (InGrid target) cells /\
  (forall j i, j < length (tg_ys target) -> i < length (tg_xs target) -> Reached 1 fine (dst_cell target j i)) /\
  match regrid_by_chunks (sum_near 1) 1 true fine target number 2 2 (mkblock 4 6 (fun _ _ => 0%Z)) with
  | Ok m => map (fun x => b_at m 3 x) [0; 5]%Z = [369; 414]%Z
  | Err _ => False
  end.
Proof.
  eexists. split; [vm_compute; reflexivity|]. split; [repeat constructor; cbv; intuition congruence|]. split.
  - intros j i J I'. cbn in J, I'. exists (nth j (tg_ys target) 0%Q), (nth i (tg_xs target) 0%Q).
    do 4 (destruct j as [|j]; [do 6 (destruct i as [|i]; [repeat split; cbn; auto 12|]); lia|]); lia.
  - vm_compute. reflexivity.
Qed.
(** A chunk without source points within the buffer ends everything: no chunk is written
    to the index, although the others have sources. *)
Theorem C144_unmapped_chunk_refuted : forall buffer src dst sy sx cells cell, tg_mask dst = None -> GoodGrid dst -> ~ (sy = 1 /\ sx = 1)%Z ->
  iter_dst_grid_slices (zlen (tg_ys dst)) (zlen (tg_xs dst)) sy sx None = Ok cells -> Forall (InGrid dst) cells -> In cell cells ->
  (forall e y x, grid_extent (slice_tgrid (nat_pair (fst cell)) (nat_pair (snd cell)) dst) = Ok e -> In y (tg_ys src) -> In x (tg_xs src) ->
     ~ InBox (expand buffer e) x y) ->
  write_chunks buffer true src dst sy sx = Err EmptySubsetError.
Proof. exact chunks_fail. Qed.
Print Assumptions C144_unmapped_chunk_refuted.
(** One chunk is refused. *)
Theorem C144_one_chunk_refuted : forall buffer allow src dst, write_chunks buffer allow src dst 1 1 = Err ValueError.
Proof. exact one_chunk. Qed.
Print Assumptions C144_one_chunk_refuted.
Definition far : tgrid := mktgrid (line 1 1 4) [1; 2; 100; 101]%Q None None.
Example C144_unmapped_case : write_chunks 1 true fine far 1 2 = Err EmptySubsetError /\
  exists r, src_subset 1 true fine far ((0, 4), (0, 2))%Z = Ok r.
Proof. split; [vm_compute; reflexivity|]. eexists. vm_compute. reflexivity. Qed.

(** C145.  The mask of the source is lost if a source point lies outside of the box of the
    chunk: then exactly the points outside of the box are masked. *)
Theorem C145_source_mask_lost_refuted : forall buffer src dst cell part ys xs e,
  src_subset buffer true src dst cell = Ok (part, (ys, xs)) ->
  grid_extent (slice_tgrid (nat_pair (fst cell)) (nat_pair (snd cell)) dst) = Ok e ->
  (exists y x, In y (tg_ys src) /\ In x (tg_xs src) /\ ~ InBox (expand buffer e) x y) ->
  forall j i, j < snd ys - fst ys -> i < snd xs - fst xs ->
    (masked_at (tg_mask part) j i = false <-> InBox (expand buffer e) (nth (fst xs + i) (tg_xs src) 0%Q) (nth (fst ys + j) (tg_ys src) 0%Q)).
Proof. exact mask_lost. Qed.
Print Assumptions C145_source_mask_lost_refuted.
(** So a chunk uses masked source values the whole regridding does not use. *)
Definition hidden : tgrid := mktgrid (line 0 1 3) (line 0 1 8) None (Some (repeat [false; true; false; false; false; false; false; false] 3)).
Theorem C145_masked_values_used_refuted : exists src dst cell part ys xs, GoodGrid src /\ GoodGrid dst /\ InGrid dst cell /\
  src_subset 1 true src dst cell = Ok (part, (ys, xs)) /\
  exists j i, InChunk cell j i /\
    sum_near 1 (points part (fun j' i' => number (fst ys + j') (fst xs + i'))) (dst_cell dst j i) <> sum_near 1 (points src number) (dst_cell dst j i).
Proof.
  exists hidden, (mktgrid [1]%Q (line 1 1 4) None None), ((0, 1), (0, 2))%Z. eexists _, _, _.
  split; [repeat split; try discriminate; repeat constructor|]. split; [repeat split; discriminate|]. split; [cbv; intuition congruence|].
  split; [vm_compute; reflexivity|]. exists 0, 0. split; [cbv; intuition congruence|]. vm_compute. discriminate.
Qed.
Print Assumptions C145_masked_values_used_refuted.
(** Partial: it is kept if all source points lie in the box. *)
Theorem C145_source_mask_kept_partial : forall buffer allow src dst cell part ys xs e,
  src_subset buffer allow src dst cell = Ok (part, (ys, xs)) ->
  grid_extent (slice_tgrid (nat_pair (fst cell)) (nat_pair (snd cell)) dst) = Ok e ->
  (forall y x, In y (tg_ys src) -> In x (tg_xs src) -> InBox (expand buffer e) x y) ->
  forall j i, j < snd ys - fst ys -> i < snd xs - fst xs ->
    masked_at (tg_mask part) j i = masked_at (tg_mask src) (fst ys + j) (fst xs + i).
Proof. exact mask_kept. Qed.
Print Assumptions C145_source_mask_kept_partial.
Example C145_kept_case : exists part, src_subset 10 true hidden target ((0, 2), (0, 3))%Z = Ok (part, ((0, 3), (0, 8))) /\
  masked_at (tg_mask part) 2 1 = true /\ masked_at (tg_mask part) 2 2 = false.
Proof. eexists. split; [vm_compute; reflexivity|]. split; reflexivity. Qed.
