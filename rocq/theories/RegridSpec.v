(** Vocabulary of C83-C87: what regridding should do. *)
From Verif Require Import Py Spec NdModel NdSpec RegridModel.

(** A position is a coordinate for every dimension name.  [element] and [hidden_at] are
    the value and the mask of a variable there. *)
Definition Within (dims : list (string * Z)) (f : string -> Z) : Prop := Forall (fun d => 0 <= f (fst d) < snd d) dims.
Definition element (v : nvar Z) (f : string -> Z) : Z := nd_at (nv_value v) (map f (nv_names v)).
Definition hidden_at (v : nvar Z) (f : string -> Z) : bool := masked v (map f (nv_names v)).

(** The position [f], moved to the cell (x, y) of a grid. *)
Definition at_cell (g : rgrid) (f : string -> Z) (c : list Z) : string -> Z :=
  fun n => if String.eqb n (fst (rg_x g)) then nth 0 c 0 else if String.eqb n (fst (rg_y g)) then nth 1 c 0 else f n.
(** The cell of a grid a position is in. *)
Definition cell_of (g : rgrid) (f : string -> Z) : list Z := [f (fst (rg_x g)); f (fst (rg_y g))].
Definition IsCell (g : rgrid) (c : list Z) : Prop := IndexOf [rg_nx g; rg_ny g] c.

(** What the weights make of the source values for a destination cell. *)
Definition Reached (ws : list weight) (c : list Z) : Prop := exists w, In w ws /\ w_dst w = c.
Fixpoint total (ws : list weight) (c : list Z) (value : list Z -> Z) : Z :=
  match ws with
  | [] => 0
  | w :: t => (if list_eq_dec Z.eq_dec (w_dst w) c then w_val w * value (w_src w) else 0) + total t c value
  end.

(** [v'] is [v] regridded: dimensions other than those of the grid are kept, in front
    of those of the destination grid; each element is the weighted sum of the elements
    of the source with the same other coordinates, or the fill value in cells without
    weights.  [marks] tells whether elements equal to the fill value are masked. *)
Definition Regridded (ws : list weight) (sg dg : rgrid) (extra : list (string * Z)) (fv : Z) (marks : bool) (v v' : nvar Z) : Prop :=
  nv_dims v' = (extra ++ rg_dims dg)%list /\ GoodVar v' /\
  forall f, Within (nv_dims v') f ->
    (Reached ws (cell_of dg f) -> element v' f = total ws (cell_of dg f) (fun s => element v (at_cell sg f s))) /\
    (~ Reached ws (cell_of dg f) -> element v' f = fv) /\
    hidden_at v' f = marks && (element v' f =? fv).

(** A grid with at least one cell, and a mask of its shape. *)
Definition GoodGrid (g : rgrid) : Prop :=
  0 < rg_nx g /\ 0 < rg_ny g /\ fst (rg_x g) <> fst (rg_y g) /\
  match rg_mask g with Some m => nd_shape m = [rg_ny g; rg_nx g] | None => True end.

(** The data variables of a field on the grid [sg]: the first has its other dimensions
    [extra] in front of y and x; the others have the same dimensions, in any order.  No
    other dimension is called like one of the destination grid. *)
Definition OnGrid (sg dg : rgrid) (extra : list (string * Z)) (vars : list rvar) : Prop :=
  GoodGrid sg /\ GoodGrid dg /\
  NoDup (map fst (extra ++ rg_dims sg)) /\ NoDup (map fst (extra ++ rg_dims dg)) /\ Forall (fun d => 0 < snd d) extra /\
  (exists a t, vars = a :: t /\ nv_dims (rv_var a) = (extra ++ rg_dims sg)%list) /\
  Forall (fun v => GoodVar (rv_var v) /\ forall d, In d (nv_dims (rv_var v)) <-> In d (extra ++ rg_dims sg)%list) vars.

(** The ESMF grid made of a grid of which some cells (x, y) are hidden. *)
Definition GridFor (g : rgrid) (m : rrequest) (hidden : list Z -> bool) (e : egrid) : Prop :=
  eg_nx e = rg_nx g /\ eg_ny e = rg_ny g /\ eg_corners e = match m with Auto => rg_bounds g | Flag f => is_conserve f end /\
  match eg_mask e with
  | Some k => nd_shape k = [rg_nx g; rg_ny g] /\ forall c, IsCell g c -> nd_at k c = negb (hidden c)
  | None => forall c, IsCell g c -> hidden c = false
  end.

(** Cells (x, y) hidden by a mask in the order y, x, and by the mask of the elements
    which have zero for all other coordinates. *)
Definition hidden_by (m : option (nd bool)) (c : list Z) : bool :=
  match m with Some k => nd_at k [nth 1 c 0; nth 0 c 0] | None => false end.
Definition first_slice (g : rgrid) (v : nvar Z) (c : list Z) : bool := hidden_at v (at_cell g (fun _ => 0) c).

(** The field can be regridded at all. *)
Definition Compatible (src dst : rfield) (sg dg : rgrid) (m : rrequest) : Prop :=
  rf_grid src = Some sg /\ rf_grid dst = Some dg /\ rf_spherical src = true /\ rf_spherical dst = true /\
  (m = Flag Conserve -> rg_bounds sg = true /\ rg_bounds dg = true).

(** Every slice of every variable has a cell whose new value is not the fill value. *)
Definition fv_of (fill_value : option Z) (v : rvar) : Z := match fill_value with Some f => f | None => rv_fill v end.
Definition Overlap (ws : list weight) (sg dg : rgrid) (extra : list (string * Z)) (fill_value : option Z) (v : rvar) : Prop :=
  forall f, Within extra f -> exists c, IsCell dg c /\ Reached ws c /\
    total ws c (fun s => element (rv_var v) (at_cell sg f s)) <> fv_of fill_value v.

(** The same for some slice, and for some or every slice. *)
Definition SomeOverlap (ws : list weight) (sg dg : rgrid) (extra : list (string * Z)) (fill_value : option Z) (v : rvar) : Prop :=
  exists f c, Within extra f /\ IsCell dg c /\ Reached ws c /\
    total ws c (fun s => element (rv_var v) (at_cell sg f s)) <> fv_of fill_value v.
Definition Overlaps (every : bool) := if every then Overlap else SomeOverlap.

(** The library computes weights between cells of the grids that are not masked. *)
Definition Respectful (lib : esmf_lib) : Prop :=
  forall s d m w, In w (lib s d m) ->
    IndexOf [eg_nx s; eg_ny s] (w_src w) /\ IndexOf [eg_nx d; eg_ny d] (w_dst w) /\
    match eg_mask s with Some k => nd_at k (w_src w) = true | None => True end /\
    match eg_mask d with Some k => nd_at k (w_dst w) = true | None => True end.

(** The method the weights are computed with, and a mask of the shape of a grid. *)
Definition method_of (m : rrequest) (sg dg : rgrid) : option rmethod :=
  match m with Auto => if rg_bounds sg && rg_bounds dg then Some Conserve else None | Flag f => Some f end.
Definition MaskFits (vm : option (nd bool)) (g : rgrid) : Prop :=
  match vm with Some k => nd_shape k = [rg_ny g; rg_nx g] | None => True end.

(** The cells of the source and destination grid ESMF is told to leave out: those masked
    in the grids and those masked by the caller, or else in the first slice of the
    first variable. *)
Definition source_hidden (sg : rgrid) (vm : option (nd bool)) (vars : list rvar) (c : list Z) : bool :=
  hidden_by (rg_mask sg) c ||
  match vm, vars with
  | Some _, _ => hidden_by vm c
  | None, a :: _ => first_slice sg (rv_var a) c
  | None, [] => false
  end.
Definition destination_hidden (dg : rgrid) (vm : option (nd bool)) (c : list Z) : bool :=
  hidden_by (rg_mask dg) c || hidden_by vm c.

(** The result [out] of regridding the variables [vars]. *)
Definition AllRegridded (ws : list weight) (sg dg : rgrid) (extra : list (string * Z)) (fill_value : option Z) (marks : bool) (vars out : list rvar) : Prop :=
  Forall2 (fun v v' => rv_name v' = rv_name v /\ rv_fill v' = rv_fill v /\
                       Regridded ws sg dg extra (fv_of fill_value v) marks (rv_var v) (rv_var v')) vars out.

(** Two variables, or two fields, that differ only in values that are masked. *)
Definition SameShown (v v' : rvar) : Prop :=
  rv_name v' = rv_name v /\ rv_fill v' = rv_fill v /\ nv_dims (rv_var v') = nv_dims (rv_var v) /\ nv_mask (rv_var v') = nv_mask (rv_var v) /\
  nd_shape (nv_value (rv_var v')) = nd_shape (nv_value (rv_var v)) /\
  forall f, Within (nv_dims (rv_var v)) f -> hidden_at (rv_var v) f = false -> element (rv_var v') f = element (rv_var v) f.
Definition SameShownField (s s' : rfield) : Prop :=
  rf_grid s' = rf_grid s /\ rf_spherical s' = rf_spherical s /\ Forall2 SameShown (rf_vars s) (rf_vars s').

(** Two variables, or two fields, that differ only in values in certain cells. *)
Definition SameOutside (sg : rgrid) (hidden : list Z -> bool) (v v' : rvar) : Prop :=
  rv_name v' = rv_name v /\ rv_fill v' = rv_fill v /\ nv_dims (rv_var v') = nv_dims (rv_var v) /\ nv_mask (rv_var v') = nv_mask (rv_var v) /\
  nd_shape (nv_value (rv_var v')) = nd_shape (nv_value (rv_var v)) /\
  forall f, Within (nv_dims (rv_var v)) f -> hidden (cell_of sg f) = false -> element (rv_var v') f = element (rv_var v) f.
Definition SameOutsideField (sg : rgrid) (hidden : list Z -> bool) (s s' : rfield) : Prop :=
  rf_grid s' = rf_grid s /\ rf_spherical s' = rf_spherical s /\ Forall2 (SameOutside sg hidden) (rf_vars s) (rf_vars s').

(** Two variables without any difference. *)
Definition SameElements (v v' : rvar) : Prop :=
  rv_name v' = rv_name v /\ rv_fill v' = rv_fill v /\ nv_dims (rv_var v') = nv_dims (rv_var v) /\
  forall f, Within (nv_dims (rv_var v)) f -> element (rv_var v') f = element (rv_var v) f /\ hidden_at (rv_var v') f = hidden_at (rv_var v) f.

Definition SameOutcomes (r r' : res (option (list rvar))) : Prop :=
  match r, r' with
  | Ok (Some out), Ok (Some out') => Forall2 SameElements out out'
  | Err x, Err x' => x = x'
  | _, _ => False
  end.


(** Whatever is masked is masked in the first slice of the first variable, too. *)
Definition MaskedAlike (sg : rgrid) (vars : list rvar) : Prop :=
  forall a t v f, vars = a :: t -> In v vars -> Within (nv_dims (rv_var v)) f -> hidden_at (rv_var v) f = true ->
    first_slice sg (rv_var a) (cell_of sg f) = true.

(** The elements of the variables of a result in their order; masked ones as [None]. *)
Definition listing (r : res (option (list rvar))) : option (list (list (option Z))) :=
  match r with
  | Ok (Some out) => Some (map (fun v => map (fun idx => if masked (rv_var v) idx then None else Some (nd_at (nv_value (rv_var v)) idx)) (indices (nv_shape (rv_var v)))) out)
  | _ => None
  end.
