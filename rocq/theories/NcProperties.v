(** Theorems about writing netCDF files and reading them (C76, C77). *)
From Verif Require Import Py AverModel NcModel NcSpec NcMore NcWitness.
Local Open Scope string_scope.
Local Open Scope Z_scope.

(** C76, one rank: a tree of collections whose arrays are whole is written, and the file has a group for
    every collection and no other; each keeps all arrays of its collection.  Missing from the full
    property: values that look like missing ones, and masked scalars of one byte. *)
Theorem C76_serial_partial : forall t, (forall p c, node t p c -> exists G, whole G c) ->
  exists gf, write_tree false false t = Ok gf /\
    (forall p c, node t p c -> exists f, gnode gf p f /\ forall G, whole G c -> keeps G (c_attrs c) f) /\
    (forall p f, gnode gf p f -> exists c, node t p c /\ forall G, whole G c -> keeps G (c_attrs c) f).
Proof. exact tree_keeps. Qed.
Print Assumptions C76_serial_partial.

Example C76_serial_case : forall p c, node (Tree (piece 0 4) [("child", Tree (piece 0 4) [])]) p c -> exists G, whole G c.
Proof.
  assert (L : forall p c, node (Tree (piece 0 4) []) p c -> exists G, whole G c).
  { intros p c N. inversion N; subst; [exists grid; apply piece_whole|easy]. }
  intros p c N. inversion N as [|? ? k t p' ? I N']; subst; [exists grid; apply piece_whole|]. destruct I as [E|[]]. injection E as <- <-. now apply (L p').
Qed.

(** C76, several ranks: however the arrays are spread over the ranks, the file keeps the arrays, and every block of
    them can be read. *)
Theorem C76_parallel_partial : forall G c1 c2 cs, proper G -> parts_of G (c1 :: c2 :: cs) -> knows d_global G c1 -> readable G c1 ->
  exists f, write_parallel false false (map (fun c => Tree c []) (c1 :: c2 :: cs)) = Ok (GFile f []) /\ keeps G (c_attrs c1) f.
Proof. exact parallel_keeps. Qed.
Print Assumptions C76_parallel_partial.

Example C76_parallel_case : proper grid /\ parts_of grid [piece 0 1; piece 1 3; piece 3 4] /\ knows d_global grid (piece 0 1) /\ readable grid (piece 0 1).
Proof.
  split; [apply grid_proper|]. split; [|split; [apply piece_knows; [lia|now right]|apply piece_readable]].
  apply (pieces_cover [(0, 1)%nat; (1, 3)%nat; (3, 4)%nat]).
  - intros p [<-|[<-|[<-|[]]]]; cbn; lia.
  - intros t T. destruct (Nat.ltb t 1) eqn:A; [exists (0, 1)%nat; cbn; split; [now left|lia]|]. destruct (Nat.ltb t 3) eqn:B; [exists (1, 3)%nat|exists (3, 4)%nat]; cbn; split; try lia; auto.
Qed.

(** C76, collections one after the other, as an aggregated output is written. *)
Theorem C76_append_partial : forall G c1 cs, proper G -> parts_of G (c1 :: cs) -> knows d_size G c1 -> readable G c1 ->
  exists f, write_append false false (c1 :: cs) = Ok f /\ keeps G (c_attrs c1) f.
Proof. exact append_keeps. Qed.
Print Assumptions C76_append_partial.

Example C76_append_case : proper grid /\ parts_of grid [piece 2 4; piece 0 2] /\ knows d_size grid (piece 2 4) /\ readable grid (piece 2 4).
Proof.
  split; [apply grid_proper|]. split; [|split; [apply piece_knows; [lia|now left]|apply piece_readable]].
  apply (pieces_cover [(2, 4)%nat; (0, 2)%nat]).
  - intros p [<-|[<-|[]]]; cbn; lia.
  - intros t T. destruct (Nat.ltb t 2) eqn:A; [exists (0, 2)%nat|exists (2, 4)%nat]; cbn; split; try lia; auto.
Qed.

(** C76, with unlimited_to_fixed_size on one rank: the same arrays, with no unlimited dimension. *)
Theorem C76_fixed_partial : forall G c, whole G c -> (forall g, In g G -> List.length (filter g_unlimited (gdims g)) <= 1)%nat ->
  exists f, write_tree true false (Tree c []) = Ok (GFile f []) /\ keeps (map fixed_array G) (c_attrs c) f.
Proof. exact fixed_keeps. Qed.
Print Assumptions C76_fixed_partial.

Example C76_fixed_case : whole grid (piece 0 4) /\ forall g, In g grid -> (List.length (filter g_unlimited (gdims g)) <= 1)%nat.
Proof. split; [apply piece_whole|]. intros g [<-|[<-|[]]]; cbn; lia. Qed.

(** C76 is false: on several ranks unlimited_to_fixed_size makes the dimension as long as the part of the first rank. *)
Theorem C76_fixed_parallel_refuted : exists G ranks, proper G /\ parts_of G ranks /\ (forall c, In c ranks -> knows d_global G c /\ readable G c) /\
  write_parallel true false (map (fun c => Tree c []) ranks) = Err IndexError.
Proof.
  exists grid, [piece 0 2; piece 2 4]. split; [apply grid_proper|]. split.
  - apply (pieces_cover [(0, 2)%nat; (2, 4)%nat]).
    + intros p [<-|[<-|[]]]; cbn; lia.
    + intros t T. destruct (Nat.ltb t 2) eqn:A; [exists (0, 2)%nat|exists (2, 4)%nat]; cbn; split; try lia; auto.
  - split; [|exact fixed_fails]. intros c [<-|[<-|[]]]; (split; [apply piece_knows; [lia|now right]|apply piece_readable]).
Qed.
Print Assumptions C76_fixed_parallel_refuted.

(** C76 is false: on several ranks a collection with children cannot be written at all. *)
Theorem C76_parallel_groups_refuted : forall fixed file_only ranks, (2 <= List.length ranks)%nat -> (exists c k t ch, In (Tree c ((k, t) :: ch)) ranks) ->
  forall gf, write_parallel fixed file_only ranks <> Ok gf.
Proof. exact parallel_groups. Qed.
Print Assumptions C76_parallel_groups_refuted.

Example C76_parallel_groups_case : exists c k t ch, In (Tree c ((k, t) :: ch)) [Tree (piece 0 2) [("child", Tree (piece 0 2) [])]; Tree (piece 2 4) [("child", Tree (piece 2 4) [])]].
Proof. exists (piece 0 2), "child", (Tree (piece 0 2) []), []. now left. Qed.

(** C76 is false: the mask of an array of bytes is lost when nothing is masked on the first rank. *)
Theorem C76_byte_mask_refuted : forall G c1 c2 cs f g v, proper G -> parts_of G (c1 :: c2 :: cs) -> knows d_global G c1 ->
  write_parallel false false (map (fun c => Tree c []) (c1 :: c2 :: cs)) = Ok (GFile f []) -> In g G -> In v (c_vars c1) -> v_name v = gname g ->
  gbyte g = true -> ~ (exists a, In ("_FillValue", a) (gattrs g)) -> (forall z, ~ In ("missing_value", ANum z) (gattrs g)) ->
  (forall idx, in_block (v_dims v) idx -> gmask g idx = false) ->
  forall bounds r, block_of g bounds -> read_variable bounds (gname g) f = Ok r -> forall i, in_bounds bounds i -> mask_at (r_mask r) i = false.
Proof. exact parallel_byte. Qed.
Print Assumptions C76_byte_mask_refuted.

Theorem C76_mask_refuted : ~ (forall G c1 c2 cs f, proper G -> parts_of G (c1 :: c2 :: cs) -> knows d_global G c1 -> (forall g, In g G -> no_clash g) ->
    write_parallel false false (map (fun c => Tree c []) (c1 :: c2 :: cs)) = Ok (GFile f []) -> forall g, In g G -> reads_mask f g).
Proof. exact not_always_mask. Qed.
Print Assumptions C76_mask_refuted.

(** C76 is false: a value that equals the default fill value of its type is read as masked. *)
Theorem C76_default_value_refuted : forall G c f g, proper G -> parts_of G [c] -> knows d_size G c -> write_tree false false (Tree c []) = Ok (GFile f []) -> In g G ->
  gbyte g = false -> ~ (exists a, In ("_FillValue", a) (gattrs g)) -> (forall idx, in_array g idx -> gmask g idx = false) ->
  forall bounds r, block_of g bounds -> read_variable bounds (gname g) f = Ok r -> forall i, in_bounds bounds i -> gvalue g (shift bounds i) = gdefault g -> mask_at (r_mask r) i = true.
Proof. exact serial_clash. Qed.
Print Assumptions C76_default_value_refuted.

Theorem C76_clash_refuted : ~ (forall G c f, proper G -> parts_of G [c] -> knows d_size G c -> (forall g, In g G -> gbyte g = false) ->
    write_tree false false (Tree c []) = Ok (GFile f []) -> forall g, In g G -> reads_mask f g).
Proof. exact not_always_clear. Qed.
Print Assumptions C76_clash_refuted.

(** C76, strings over any ranks: every string is spelled in its row of characters. *)
Theorem C76_strings_partial : forall l r parts, string_parts l (r :: parts) -> (forall n, s_max r = Some n -> (longest l <= n)%nat) ->
  exists c, write_strings (r :: parts) = Ok c /\ ch_rows c = List.length l /\ forall i, (i < List.length l)%nat -> spells c i (nth i l "").
Proof. exact strings_ok. Qed.
Print Assumptions C76_strings_partial.

Example C76_strings_case : string_parts names [mksvar (str_dim 0 1) ["a"] None; mksvar (str_dim 1 4) ["bcd"; ""; "ef"] None].
Proof. exact names_parts. Qed.

(** C76 is false: a length kept from an earlier write of shorter strings makes the next write fail. *)
Theorem C76_strings_again_refuted : forall l r parts n x, string_parts l (r :: parts) -> s_max r = Some n -> In x l -> (n < String.length x)%nat -> write_strings (r :: parts) = Err IndexError.
Proof. exact strings_cached. Qed.
Print Assumptions C76_strings_again_refuted.

Example C76_strings_again_case : string_parts names [mksvar (str_dim 0 4) names (Some 2%nat)] /\ In "bcd" names /\ (2 < String.length "bcd")%nat.
Proof. split; [exact names_cached|]. split; [right; now left|]. cbn. lia. Qed.

(** C76 is false: in an aggregated output the first piece decides how long strings may be. *)
Theorem C76_strings_append_refuted : forall l r parts x, string_parts l (r :: parts) -> s_max r = None -> In x l ->
  (forall y, In y (s_vals r) -> (String.length y < String.length x)%nat) -> (0 < String.length x)%nat -> append_strings (r :: parts) = Err IndexError.
Proof. exact append_cut. Qed.
Print Assumptions C76_strings_append_refuted.

Example C76_strings_append_case : append_strings [mksvar (str_dim 0 1) ["a"] None; mksvar (str_dim 1 4) ["bcd"; ""; "ef"] None] = Err IndexError.
Proof. vm_compute. reflexivity. Qed.

(** C77: a field made from a dataset is written with the coordinate system of that dataset, as long as every dataset opened before
    whose rotated pole was replaced has the same one. *)
Theorem C77_written_crs_partial : forall before s after, (forall s', In (Open s') before -> swaps s' = true -> so_crs s' = so_crs s) -> In (Open s) before ->
  nth_error (session fresh_env (before ++ Write s :: after)) (place_of before) = Some (Wrote (so_crs s)).
Proof. exact crs_kept. Qed.
Print Assumptions C77_written_crs_partial.

Example C77_written_crs_case : nth_error (session fresh_env ([Open rotated; NewGrid] ++ [Write rotated])) 1 = Some (Wrote "rotated_pole")
  /\ nth_error (session fresh_env ([Open lambert; NewGrid] ++ [Write lambert])) 1 = Some (Wrote "lambert").
Proof. split; reflexivity. Qed.

(** C77 is false: after a dataset whose rotated pole was replaced has been opened, every field is written with that rotated pole. *)
Theorem C77_written_crs_refuted : forall before s' between s after, swaps s' = true -> (forall x, In (Open x) between -> swaps x = false) ->
  nth_error (session fresh_env (before ++ Open s' :: between ++ Write s :: after)) (place_of (before ++ between)) = Some (Wrote (so_crs s')).
Proof. exact crs_taken. Qed.
Print Assumptions C77_written_crs_refuted.

Example C77_written_crs_wrong : nth_error (session fresh_env [Open lambert; Open rotated; Write lambert]) 0 = Some (Wrote "rotated_pole").
Proof. reflexivity. Qed.

(** C77, axis attributes of new grids: set unless such a dataset has been opened, and never after. *)
Theorem C77_axes_partial : forall before after, (forall x, In (Open x) before -> swaps x = false) ->
  nth_error (session fresh_env (before ++ NewGrid :: after)) (place_of before) = Some (Axes [("x", "X"); ("y", "Y")]).
Proof. exact axes_kept. Qed.
Print Assumptions C77_axes_partial.

Theorem C77_axes_refuted : forall before s' between after, swaps s' = true -> (forall x, In (Open x) between -> swaps x = false) ->
  nth_error (session fresh_env (before ++ Open s' :: between ++ NewGrid :: after)) (place_of (before ++ between)) = Some (Axes []).
Proof. exact axes_gone. Qed.
Print Assumptions C77_axes_refuted.

Example C77_axes_case : session fresh_env [Open lambert; NewGrid; Open rotated; Open lambert; NewGrid] = [Axes [("x", "X"); ("y", "Y")]; Axes []].
Proof. reflexivity. Qed.
