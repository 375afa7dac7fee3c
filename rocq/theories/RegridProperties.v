(** Regridding: C83 (every slice of every variable is regridded alike) and C84 (masked
    values do not take part). *)
From Verif Require Import Py Lib Spec PartitionModel NdModel NdSpec RegridModel RegridSpec RegridProofs RegridMore RegridWitness.
Local Open Scope string_scope.
Local Open Scope Z_scope.

(** * C83 *)

(** The grids handed to ESMF, and what is made of its weights: each element of each
    variable of the result is the weighted sum of the elements of the source with the
    same other coordinates, whether the field is split or not.  [RegriddingError] is
    raised if, for one slice of one variable (split) or for all slices (not split),
    nothing but the fill value results.
    Missing: masks if the field is not split or has no other dimensions; values equal
    to the fill value; other orders of the dimensions of the first variable. *)
Theorem C83_regrid_partial : forall lib src dst sg dg extra m vm,
  Compatible src dst sg dg m -> OnGrid sg dg extra (rf_vars src) -> MaskFits vm sg -> MaskFits vm dg ->
  exists se de, GridFor sg m (source_hidden sg vm (rf_vars src)) se /\ GridFor dg m (destination_hidden dg vm) de /\
    forall (split : bool) fill_value weights_in, let ws := match weights_in with Some ws => ws | None => lib se de (method_of m sg dg) end in
      let marks := split && match extra with [] => false | _ => true end in
      (forall w, In w ws -> IsCell sg (w_src w)) ->
      ((forall v, In v (rf_vars src) -> Overlaps marks ws sg dg extra fill_value v) ->
       exists out, regrid_field lib src dst m vm split fill_value weights_in false = Ok (Some out) /\
         AllRegridded ws sg dg extra fill_value marks (rf_vars src) out) /\
      ((exists v, In v (rf_vars src) /\ ~ Overlaps marks ws sg dg extra fill_value v) ->
       regrid_field lib src dst m vm split fill_value weights_in false = Err RegriddingError).
Proof. exact field_outcome_prop. Qed.
Print Assumptions C83_regrid_partial.

(** Two variables, the second with its dimensions in another order. *)
Example C83_case : Compatible (on g22 [tas; pr]) (on d23 []) g22 d23 Auto /\ OnGrid g22 d23 [("time", 2)] [tas; pr] /\
  listing (regrid_field copying (on g22 [tas; pr]) (on d23 []) Auto None true None None false) =
  Some [[Some 1; Some 2; None; Some 3; Some 4; None; Some 5; Some 6; None; Some 7; Some 8; None];
        [Some 10; Some 50; None; Some 20; Some 60; None; Some 30; Some 70; None; Some 40; Some 80; None]].
Proof. split; [apply compat; discriminate|]. split; [exact both_on|]. vm_compute. reflexivity. Qed.

(** Without splitting, cells ESMF has no weights for are not masked. *)
Theorem C83_bulk_refuted : exists ws src dst sg dg extra, Compatible src dst sg dg Auto /\ OnGrid sg dg extra (rf_vars src) /\
  (forall w, In w ws -> IsCell sg (w_src w)) /\
  listing (regrid_field copying src dst Auto None true None (Some ws) false) = Some [[Some 1; Some 2; None; Some 3; Some 4; None; Some 5; Some 6; None; Some 7; Some 8; None]] /\
  listing (regrid_field copying src dst Auto None false None (Some ws) false) = Some [[Some 1; Some 2; Some (-9); Some 3; Some 4; Some (-9); Some 5; Some 6; Some (-9); Some 7; Some 8; Some (-9)]].
Proof. exact split_differs_refuted. Qed.
Print Assumptions C83_bulk_refuted.

(** Nor are they if the field has no dimensions but those of the grid. *)
Theorem C83_plain_refuted : exists ws src dst sg dg, Compatible src dst sg dg Auto /\ OnGrid sg dg [] (rf_vars src) /\
  (forall w, In w ws -> IsCell sg (w_src w)) /\ ~ Reached ws [2; 0] /\
  listing (regrid_field copying src dst Auto None true None (Some ws) false) = Some [[Some 1; Some 2; Some (-9); Some 3; Some 4; Some (-9)]].
Proof. exact no_split_refuted. Qed.
Print Assumptions C83_plain_refuted.

(** A regridded value that equals the fill value is masked. *)
Theorem C83_fill_value_refuted : exists ws src dst sg dg extra, Compatible src dst sg dg Auto /\ OnGrid sg dg extra (rf_vars src) /\
  (forall w, In w ws -> IsCell sg (w_src w)) /\ Reached ws [0; 0] /\
  listing (regrid_field copying src dst Auto None true (Some 0) (Some ws) false) = Some [[None; Some 2; Some 3; Some 4; Some 5; Some 6; Some 7; Some 8]].
Proof. exact fill_value_refuted. Qed.
Print Assumptions C83_fill_value_refuted.

(** One slice of fill values makes the split request fail, the other one does not. *)
Theorem C83_raises_refuted : exists ws src dst sg dg extra, Compatible src dst sg dg Auto /\ OnGrid sg dg extra (rf_vars src) /\
  (forall w, In w ws -> IsCell sg (w_src w)) /\
  regrid_field copying src dst Auto None true (Some 0) (Some ws) false = Err RegriddingError /\
  listing (regrid_field copying src dst Auto None false (Some 0) (Some ws) false) = Some [[Some 0; Some 0; Some 0; Some 0; Some 5; Some 6; Some 7; Some 8]].
Proof. exact raises_refuted. Qed.
Print Assumptions C83_raises_refuted.

(** A variable with the dimensions (x, y) comes back transposed: the elements in the
    order of the source now belong to (lat, lon). *)
Theorem C83_order_refuted : exists src dst sg dg, Compatible src dst sg dg Auto /\ rf_vars src = [xy] /\ GoodVar (rv_var xy) /\
  (forall d, In d (nv_dims (rv_var xy)) <-> In d (rg_dims sg)) /\
  let out := regrid_field copying src dst Auto None false None None false in
  listing out = Some [[Some 1; Some 2; Some 3; Some 4]] /\
  match out with Ok (Some [v]) => nv_dims (rv_var v) = [("lat", 2); ("lon", 2)] | _ => False end.
Proof. exact order_refuted. Qed.
Print Assumptions C83_order_refuted.

(** A field without data variables raises a [NameError]. *)
Theorem C83_no_data_refuted : forall lib src dst sg dg m vm split fill_value weights_in out, Compatible src dst sg dg m -> rf_vars src = [] ->
  regrid_field lib src dst m vm split fill_value weights_in out = Err NameError.
Proof. exact no_data_refuted. Qed.
Print Assumptions C83_no_data_refuted.

(** * C84 *)

(** Values in cells masked in the source grid, by the caller or in the first slice of
    the first variable have no influence on the result, if ESMF leaves out what it is
    told to leave out. *)
Theorem C84_hidden_cells : forall lib src src' dst sg dg extra m vm (split : bool) fill_value, Respectful lib ->
  Compatible src dst sg dg m -> OnGrid sg dg extra (rf_vars src) -> MaskFits vm sg -> MaskFits vm dg ->
  SameOutsideField sg (source_hidden sg vm (rf_vars src)) src src' ->
  SameOutcomes (regrid_field lib src dst m vm split fill_value None false) (regrid_field lib src' dst m vm split fill_value None false).
Proof. exact hidden_cells. Qed.
Print Assumptions C84_hidden_cells.

(** Masked values have no influence on the result, if all of them are masked in the
    first slice of the first variable, too, and the caller gives no mask.
    Missing: other masks. *)
Theorem C84_masked_partial : forall lib src src' dst sg dg extra m (split : bool) fill_value, Respectful lib ->
  Compatible src dst sg dg m -> OnGrid sg dg extra (rf_vars src) -> SameShownField src src' -> MaskedAlike sg (rf_vars src) ->
  SameOutcomes (regrid_field lib src dst m None split fill_value None false) (regrid_field lib src' dst m None split fill_value None false).
Proof. exact noninterference. Qed.
Print Assumptions C84_masked_partial.

(** Cells masked in the destination grid or by the caller are masked in the result. *)
Theorem C84_destination_partial : forall lib src dst sg dg extra m vm fill_value out, Respectful lib ->
  Compatible src dst sg dg m -> OnGrid sg dg extra (rf_vars src) -> MaskFits vm sg -> MaskFits vm dg ->
  regrid_field lib src dst m vm true fill_value None false = Ok (Some out) -> extra <> [] ->
  forall v' f, In v' out -> Within (extra ++ rg_dims dg) f -> destination_hidden dg vm (cell_of dg f) = true -> hidden_at (rv_var v') f = true.
Proof. exact masked_destination. Qed.
Print Assumptions C84_destination_partial.

(** The mask of the first time hides the cell at both times. *)
Example C84_case : exists src src' dst sg dg extra, Respectful copying /\ Compatible src dst sg dg Auto /\ OnGrid sg dg extra (rf_vars src) /\
  rf_vars src = [early [1; 2; 3; 4; 5; 6; 7; 8]] /\ rf_vars src' = [early [1; 2; 3; 4; 55; 6; 7; 8]] /\
  listing (regrid_field copying src dst Auto None true None None false) = Some [[None; Some 2; Some 3; Some 4; None; Some 6; Some 7; Some 8]] /\
  listing (regrid_field copying src' dst Auto None true None None false) = Some [[None; Some 2; Some 3; Some 4; None; Some 6; Some 7; Some 8]].
Proof. exact first_slice_only_refuted. Qed.

(** The mask of a later slice is not used: the masked value is regridded. *)
Theorem C84_later_refuted : exists src src' dst sg dg extra, Respectful copying /\ Compatible src dst sg dg Auto /\ OnGrid sg dg extra (rf_vars src) /\ SameShownField src src' /\
  listing (regrid_field copying src dst Auto None true None None false) = Some [[Some 1; Some 2; Some 3; Some 4; Some 5; Some 6; Some 7; Some 8]] /\
  listing (regrid_field copying src' dst Auto None true None None false) = Some [[Some 1; Some 2; Some 3; Some 4; Some 99; Some 6; Some 7; Some 8]].
Proof. exact later_slice_refuted. Qed.
Print Assumptions C84_later_refuted.

(** A mask given by the caller replaces the mask of the data. *)
Theorem C84_value_mask_refuted : exists src src' dst sg dg extra vm, Respectful copying /\ Compatible src dst sg dg Auto /\ OnGrid sg dg extra (rf_vars src) /\ SameShownField src src' /\
  MaskedAlike sg (rf_vars src) /\ MaskFits (Some vm) sg /\ MaskFits (Some vm) dg /\
  listing (regrid_field copying src dst Auto (Some vm) true None None false) <> listing (regrid_field copying src' dst Auto (Some vm) true None None false).
Proof. exact value_mask_refuted. Qed.
Print Assumptions C84_value_mask_refuted.

(** It is used for the destination grid as well, whose shape is another. *)
Theorem C84_value_mask_shape_refuted : exists src dst sg dg extra vm, Compatible src dst sg dg Auto /\ OnGrid sg dg extra (rf_vars src) /\ MaskFits (Some vm) sg /\
  regrid_field copying src dst Auto (Some vm) true None None false = Err ValueError.
Proof. exact value_mask_shape_refuted. Qed.
Print Assumptions C84_value_mask_shape_refuted.
