From Verif Require Import Py Lib SubsetModel SubsetSpec SubsetProofs SubsetEngine.

(** A field of one row. *)
Definition row (c : crs) (lons : list Z) (loaded : bool) (mask : option (nat -> nat -> nat -> bool)) : field :=
  mkF c 1 (length lons) true (fun _ i => nth i lons 0) (fun _ _ => 0) mask loaded.

(** Stands for a change of coordinate system. *)
Definition move (a b : crs) (x y : Z) : Z * Z :=
  match a, b with Rot, Sph => (x + 50, y) | Sph, Rot => (x - 50, y) | _, Flat => (x * 10, y) | _, _ => (x, y) end.

(** The longitudes read in a result. *)
Definition lons_of (m : field) (o : option result) : list Z :=
  match o with Some r => map (fun i => read_lon m r 0 i) (seq 0 (width r)) | None => [] end.

(** Whether the data of the cells of the first row are masked at time 0. *)
Definition masks_of (m : field) (o : option result) : list bool :=
  match o with Some r => map (fun i => read_mask m r 0 0 i) (seq 0 (width r)) | None => [] end.

Definition field_lons (m : field) : list Z := map (fun i => f_lon m 0 i) (seq 0 (f_nx m)).
Definition field_masks (m : field) : list bool :=
  map (fun i => match f_mask m with Some d => d 0%nat 0%nat i | None => false end) (seq 0 (f_nx m)).

Lemma rotated_target reproject wrap output f inside : f_crs f = Rot ->
  f_crs (snd (get_spatial_subset reproject (new_operation wrap output) f inside)) = Sph.
Proof.
  intro C. unfold get_spatial_subset, prepare_target. rewrite C. cbv zeta.
  destruct (grid_subset (update_crs reproject f Sph) _) as [[r f2]|x] eqn:G; [|reflexivity].
  assert (C2 : f_crs f2 = Sph).
  { unfold grid_subset in G. cbv zeta in G.
    repeat match type of G with
           | (if ?b then _ else _) = _ => destruct b
           | (let (_, _) := ?p in _) = _ => destruct p
           end; try discriminate; injection G as _ <-; try reflexivity.
    change (f_loaded (update_crs reproject f Sph)) with (f_loaded f). destruct (f_loaded f); reflexivity. }
  cbn [o_output o_rotated o_wrap o_shifted new_operation].
  match goal with |- context [if ?b then _ else _] => destruct b end.
  - unfold write_lon. destruct (r_own _) as [[x y]|]; exact C2.
  - exact C2.
Qed.

Lemma allow_empty_crs reproject e f inside r m : f_crs f <> Rot -> e_allow_empty e = true ->
  process_geometry reproject e f inside = (Ok (Some r), m) -> r_crs r = f_crs f /\ (f_loaded f = false -> SameField m f).
Proof.
  intros NR A. unfold process_geometry. destruct (crs_eqb (f_crs f) Rot) eqn:C; [apply crs_eqb_true in C; congruence|].
  pose proof (subset_spec reproject f inside NR) as S.
  destruct (get_spatial_subset reproject (new_operation false None) f inside) as [[[r0|x] o] f2] eqn:G.
  - rewrite A. intro E. injection E as <- <-. pose proof S as (_ & O2 & _). split; [exact O2|].
    intro Lo. eapply same_partial; eauto.
  - destruct S as [-> _]. rewrite A. discriminate.
Qed.
