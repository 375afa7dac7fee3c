(** Cases for the theorems about netCDF files. *)
From Verif Require Import Py Lib AverModel AverProofs NcModel NcSpec NcProofs NcMore.
Local Open Scope string_scope.
Local Open Scope Z_scope.

(** The block of an array between bounds. *)
Definition cut (g : gvar) (bs : list (nat * nat)) : var :=
  mkvar (gname g) (map (fun p => mkdim (g_name (fst p)) (g_unlimited (fst p)) (g_len (fst p)) (g_len (fst p)) (fst (snd p)) (snd (snd p))) (combine (gdims g) bs))
        (gbyte g) (gdefault g) (gfill g) (Some (fun i => gvalue g (shift bs i))) (Some (fun i => gmask g (shift bs i))) (gattrs g) (gunits g).

Lemma cut_shift g bs idx : block_of g bs -> in_block (v_dims (cut g bs)) idx -> shift bs (place (v_dims (cut g bs)) idx) = idx.
Proof.
  unfold block_of, in_block, place, shift. cbn [cut v_dims]. intro B. revert idx. induction B as [|b d bs dl H B IH]; intros idx X; cbn [combine map] in X.
  - inversion X. reflexivity.
  - inversion X as [|i ? idx' ? Hi X']. subst. cbn [combine map fst snd d_lo] in *. f_equal; [lia|]. now apply IH.
Qed.
Lemma cut_part g bs : block_of g bs -> part_of g (cut g bs).
Proof.
  intro B. constructor; try (cbn [cut v_name v_byte v_default v_fill v_attrs v_units]; auto; fail).
  - cbn [cut v_dims]. unfold block_of in B. induction B as [|b d bs dl H B IH]; cbn [combine map]; constructor; auto.
  - eexists. split; [reflexivity|]. intros idx X _. cbv beta. now rewrite cut_shift.
  - intros idx X. unfold mask_at. change (v_mask (cut g bs)) with (Some (fun i => gmask g (shift bs i))). cbv beta iota. now rewrite cut_shift.
Qed.
Lemma cut_knows (len : dim -> nat) g bs : (len = d_size \/ len = d_global) -> block_of g bs -> Forall2 (fun gd d => len d = g_len gd) (gdims g) (v_dims (cut g bs)).
Proof. intros L B. cbn [cut v_dims]. unfold block_of in B. induction B as [|b d bs dl H B IH]; cbn [combine map]; constructor; auto. destruct L; subst; reflexivity. Qed.

Definition time := mkgdim "time" true 4.
Definition xdim := mkgdim "x" false 3.
Definition tas_value (idx : list nat) : Z := match idx with [t; x] => 100 * Z.of_nat t + Z.of_nat x | _ => 0 end.
Definition tas_mask (idx : list nat) : bool := match idx with [t; x] => Nat.eqb t x | _ => false end.
Definition tas := mkgvar "tas" [time; xdim] false (-1) (-999) tas_value tas_mask [("long_name", AStr "air"); ("_private", ANum 3); ("note", ANone)] (Some "K").
Definition xs := mkgvar "x" [xdim] false (-1) (-999) (fun idx => match idx with [x] => 10 * Z.of_nat x | _ => 0 end) (fun _ => false) [("axis", AStr "X")] None.
Definition grid := [tas; xs].
Definition piece (lo hi : nat) := mkcoll [("title", AStr "run")] [cut tas [(lo, hi); (0, 3)%nat]; cut xs [(0, 3)%nat]].

Ltac f2b := unfold block_of, in_bounds, in_block; repeat (apply Forall2_cons || apply Forall2_nil); cbn; try lia.
Ltac parts := repeat (apply Forall2_cons || apply Forall2_nil); apply cut_part; f2b.
Ltac f2 := repeat match goal with H : Forall2 _ _ (_ :: _) |- _ => inversion H; clear H; subst | H : Forall2 _ _ [] |- _ => inversion H; clear H; subst end.

Lemma grid_proper : proper grid.
Proof.
  constructor.
  - repeat constructor; cbn; intuition discriminate.
  - intros g [<-|[<-|[]]]; repeat constructor; cbn; intuition discriminate.
  - intros g h d e [<-|[<-|[]]] [<-|[<-|[]]]; cbn [tas xs gdims In]; intuition (subst; cbn in *; congruence).
  - intros g d [<-|[<-|[]]]; cbn [tas xs gdims In]; intuition (subst; cbn; lia).
Qed.
Lemma piece_part lo hi : (lo <= hi <= 4)%nat -> Forall2 part_of grid (c_vars (piece lo hi)).
Proof. intro H. parts. Qed.
Lemma piece_knows lo hi len : (lo <= hi <= 4)%nat -> (len = d_size \/ len = d_global) -> knows len grid (piece lo hi).
Proof. intros H L. unfold knows. repeat constructor; (destruct L as [-> | ->]; reflexivity). Qed.
Lemma pieces_cover (ps : list (nat * nat)) : (forall p, In p ps -> (fst p <= snd p <= 4)%nat) -> (forall t, (t < 4)%nat -> exists p, In p ps /\ (fst p <= t < snd p)%nat) ->
  parts_of grid (map (fun p => piece (fst p) (snd p)) ps).
Proof.
  intros B C. split.
  - intros c I. apply in_map_iff in I. destruct I as (p & <- & I). apply piece_part. now apply B.
  - intros g idx [<-|[<-|[]]] A; unfold in_array in A; cbn [tas xs gdims] in A; f2.
    + destruct (C x) as (p & I & T); [assumption|]. exists (piece (fst p) (snd p)), (cut tas [(fst p, snd p); (0, 3)%nat]). split; [apply in_map_iff; now exists p|]. split; [now left|]. split; [reflexivity|].
      cbn in *; f2b.
    + destruct (C 0%nat) as (p & I & T); [lia|]. exists (piece (fst p) (snd p)), (cut xs [(0, 3)%nat]). split; [apply in_map_iff; now exists p|]. split; [right; now left|]. split; [reflexivity|].
      cbn in *; f2b.
Qed.
Lemma grid_clear g : In g grid -> no_clash g.
Proof.
  intros [<-|[<-|[]]] idx A M; unfold in_array in A; cbn [tas xs gdims] in A; f2; cbn [tas xs gvalue gfill gdefault gattrs tas_value]; repeat split; try lia; cbn; intuition discriminate.
Qed.
Lemma piece_readable lo hi : readable grid (piece lo hi).
Proof.
  split; [repeat constructor; cbn; intuition discriminate|]. intros g v I _ _. split; [now apply grid_clear|]. left. destruct I as [<-|[<-|[]]]; reflexivity.
Qed.
Lemma piece_whole : whole grid (piece 0 4).
Proof.
  split; [apply grid_proper|]. split; [apply (pieces_cover [(0, 4)%nat]); [intros p [<-|[]]; cbn; lia|intros t T; exists (0, 4)%nat; cbn; split; [now left|lia]]|].
  split; [apply piece_knows; [lia|now left]|]. split; [apply piece_knows; [lia|now right]|]. split; [repeat constructor; cbn; intuition discriminate|].
  intros g I. split; [now apply grid_clear|]. left. destruct I as [<-|[<-|[]]]; reflexivity.
Qed.

(** A byte that is masked only where the second rank looks. *)
Definition flags := mkgvar "flag" [time] true 0 (-9) (fun idx => match idx with [t] => 10 + Z.of_nat t | _ => 0 end) (fun idx => match idx with [t] => Nat.eqb t 3 | _ => false end) [] None.
Definition flag_piece (lo hi : nat) := mkcoll [] [cut flags [(lo, hi)]].
Lemma flags_proper : proper [flags].
Proof.
  constructor.
  - repeat constructor. intros [].
  - intros g [<-|[]]. constructor.
  - intros g h d e [<-|[]] [<-|[]] [<-|[]] [<-|[]] _. reflexivity.
  - intros g d [<-|[]] [<-|[]]. cbn. lia.
Qed.
Lemma flags_parts : parts_of [flags] [flag_piece 0 2; flag_piece 2 4].
Proof.
  split.
  - intros c [<-|[<-|[]]]; parts.
  - intros g idx [<-|[]] A. unfold in_array in A. cbn [flags gdims] in A. f2. cbn in *. destruct (Nat.ltb x 2) eqn:B.
    + exists (flag_piece 0 2), (cut flags [(0, 2)%nat]). repeat split; try (now left). f2b.
    + exists (flag_piece 2 4), (cut flags [(2, 4)%nat]). repeat split; try (now left); [right; now left|]. f2b.
Qed.
Lemma flags_know : knows d_global [flags] (flag_piece 0 2).
Proof. unfold knows. repeat constructor. Qed.

(** A value that equals the default of its type. *)
Definition ones := mkgvar "ones" [xdim] false 1 (-999) (fun idx => match idx with [x] => Z.of_nat x | _ => 0 end) (fun _ => false) [] None.
Definition ones_coll := mkcoll [] [cut ones [(0, 3)%nat]].
Lemma ones_proper : proper [ones].
Proof.
  constructor.
  - repeat constructor. intros [].
  - intros g [<-|[]]. constructor.
  - intros g h d e [<-|[]] [<-|[]] [<-|[]] [<-|[]] _. reflexivity.
  - intros g d [<-|[]] [<-|[]]. cbn. lia.
Qed.
Lemma ones_parts : parts_of [ones] [ones_coll].
Proof.
  split.
  - intros c [<-|[]]; parts.
  - intros g idx [<-|[]] A. unfold in_array in A. cbn [ones gdims] in A. f2. cbn in *. exists ones_coll, (cut ones [(0, 3)%nat]). repeat split; try (now left). f2b.
Qed.

(** The statement with nothing left out is false. *)
Definition always_mask : Prop :=
  forall G c1 c2 cs f, proper G -> parts_of G (c1 :: c2 :: cs) -> knows d_global G c1 -> (forall g, In g G -> no_clash g) ->
    write_parallel false false (map (fun c => Tree c []) (c1 :: c2 :: cs)) = Ok (GFile f []) -> forall g, In g G -> reads_mask f g.
Lemma not_always_mask : ~ always_mask.
Proof.
  intro H. destruct (parallel_complete false [flags] flags_proper (flag_piece 0 2) (flag_piece 2 4) [] (weaken_parts _ _ flags_parts)
    (knows_makes TEMPLATE _ _ (proj1 flags_parts _ (or_introl eq_refl)) flags_know)) as (f & E & C).
  pose proof (H [flags] _ _ [] f flags_proper flags_parts flags_know) as X.
  assert (NC : forall g, In g [flags] -> no_clash g).
  { intros g [<-|[]] idx A _. unfold in_array in A. cbn [flags gdims] in A. f2. cbn [flags gvalue gfill gdefault gattrs]. repeat split; try lia. easy. }
  specialize (X NC E flags (or_introl eq_refl)). unfold reads_mask in X.
  assert (B : block_of flags [(0, 4)%nat]) by f2b.
  destruct (reads_dims_ok [flags] flags_proper (flag_piece 0 2) f C (weaken_all _ _ (proj1 flags_parts _ (or_introl eq_refl))) flags (or_introl eq_refl) _ B) as (r & R & _).
  assert (I : in_bounds [(0, 4)%nat] [3%nat]) by f2b.
  specialize (X _ r B R [3%nat] I).
  rewrite (parallel_byte [flags] (flag_piece 0 2) (flag_piece 2 4) [] f flags (cut flags [(0, 2)%nat]) flags_proper flags_parts flags_know E (or_introl eq_refl) (or_introl eq_refl) eq_refl eq_refl) with (bounds := [(0, 4)%nat]) in X; auto.
  - discriminate.
  - intros [a []].
  - intros idx Y. unfold in_block in Y. cbn in Y. f2. cbn in *. apply Nat.eqb_neq. lia.
Qed.

Definition always_clear : Prop :=
  forall G c f, proper G -> parts_of G [c] -> knows d_size G c -> (forall g, In g G -> gbyte g = false) ->
    write_tree false false (Tree c []) = Ok (GFile f []) -> forall g, In g G -> reads_mask f g.
Lemma not_always_clear : ~ always_clear.
Proof.
  intro H. assert (K : knows d_size [ones] ones_coll) by (unfold knows; repeat constructor).
  destruct (append_complete false [ones] ones_proper ones_coll [] (weaken_parts _ _ ones_parts) (knows_makes NORMAL _ _ (proj1 ones_parts _ (or_introl eq_refl)) K)) as (f & E & C).
  assert (E' : write_tree false false (Tree ones_coll []) = Ok (GFile f [])).
  { unfold write_append in E. cbn [write_tree]. destruct (write_collection NORMAL false false ones_coll empty_file) as [x|]; [|discriminate]. cbn [bind fold_res] in *. now injection E as <-. }
  pose proof (H [ones] ones_coll f ones_proper ones_parts K (fun g I => match I with or_introl e => eq_ind ones (fun g => gbyte g = false) eq_refl g e | or_intror n => match n with end end) E' ones (or_introl eq_refl)) as X.
  assert (B : block_of ones [(0, 3)%nat]) by f2b.
  destruct (reads_dims_ok [ones] ones_proper ones_coll f C (weaken_all _ _ (proj1 ones_parts _ (or_introl eq_refl))) ones (or_introl eq_refl) _ B) as (r & R & _).
  assert (I : in_bounds [(0, 3)%nat] [1%nat]) by f2b.
  specialize (X _ r B R [1%nat] I).
  rewrite (serial_clash [ones] ones_coll f ones ones_proper ones_parts K E' (or_introl eq_refl) eq_refl) with (bounds := [(0, 3)%nat]) in X; auto.
  - discriminate.
  - intros [a []].
Qed.

(** An unlimited dimension made fixed on two ranks. *)
Definition fixed_ranks := [Tree (piece 0 2) []; Tree (piece 2 4) []].
Lemma fixed_fails : write_parallel true false fixed_ranks = Err IndexError.
Proof. vm_compute. reflexivity. Qed.

(** Strings. *)
Definition names := ["a"; "bcd"; ""; "ef"].
Definition str_dim (lo hi : nat) := mkdim "n" false 4 4 lo hi.
Lemma names_parts : string_parts names [mksvar (str_dim 0 1) ["a"] None; mksvar (str_dim 1 4) ["bcd"; ""; "ef"] None].
Proof.
  split.
  - intros s [<-|[<-|[]]]; repeat split; cbn; try lia; reflexivity.
  - intros i Hi. cbn in Hi. destruct (Nat.ltb i 1) eqn:B.
    + eexists. split; [now left|]. cbn. lia.
    + eexists. split; [right; now left|]. cbn. lia.
Qed.
Lemma names_cached : string_parts names [mksvar (str_dim 0 4) names (Some 2%nat)].
Proof.
  split.
  - intros s [<-|[]]; repeat split; cbn; try lia; reflexivity.
  - intros i Hi. cbn in Hi. eexists. split; [now left|]. cbn. lia.
Qed.

Definition rotated := mksource "rotated_pole" true true false.
Definition lambert := mksource "lambert" false false false.
