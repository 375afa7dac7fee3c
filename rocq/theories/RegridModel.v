(** Model of regridding: src/ocgis/regrid/base.py.  The ESMF library itself is not
    modelled: the weights it computes for two grids are a parameter, and it is
    assumed to apply them as sums of weighted source values (integers here; no
    rounding). *)
From Verif Require Import Py PartitionModel NdModel CoordModel.
Local Close Scope Q_scope.
Local Open Scope Z_scope.

(** ** NumPy broadcasting *)

(** Shapes and indices are compared from their last entry; all lists here are reversed. *)
Fixpoint bmatch (arr dst : list Z) : bool :=
  match arr, dst with
  | [], _ => true
  | a :: r, d :: s => ((a =? d) || (a =? 1)) && bmatch r s
  | a :: r, [] => (a =? 1) && bmatch r []
  end.
Fixpoint bindex (arr idx : list Z) : list Z :=
  match arr, idx with
  | [], _ => []
  | a :: r, i :: t => (if a =? 1 then 0 else i) :: bindex r t
  | a :: r, [] => 0 :: bindex r []
  end.
Fixpoint bshape (a b : list Z) : res (list Z) :=
  match a, b with
  | [], _ => Ok b
  | _, [] => Ok a
  | x :: s, y :: t =>
    do r <- bshape s t;
    if x =? y then Ok (x :: r) else if x =? 1 then Ok (y :: r) else if y =? 1 then Ok (x :: r) else Err ValueError
  end.

(** The array [data] after [data[:] = arr], where [data] has this shape. *)
Definition np_assign {A} (arr : nd A) (shape : list Z) : res (nd A) :=
  if bmatch (rev (nd_shape arr)) (rev shape)
  then Ok (mknd shape (fun idx => nd_at arr (rev (bindex (rev (nd_shape arr)) (rev idx)))))
  else Err ValueError.

(** [np.logical_or(a, b)]. *)
Definition np_lor (a b : nd bool) : res (nd bool) :=
  do s <- bshape (rev (nd_shape a)) (rev (nd_shape b));
  do a' <- np_assign a (rev s);
  do b' <- np_assign b (rev s);
  Ok (np_or a' b').
Definition np_invert (a : nd bool) : nd bool := mknd (nd_shape a) (fun idx => negb (nd_at a idx)).

(** ** Grids, fields and ESMF *)

(** A structured grid.  spatial/grid.py:834-852 [_get_dimensions_]: the dimensions are
    always in the order y, x.  The mask has the shape of the grid. *)
Record rgrid := mkrgrid { rg_y : string * Z; rg_x : string * Z; rg_mask : option (nd bool); rg_bounds : bool }.
Definition rg_dims (g : rgrid) : list (string * Z) := [rg_y g; rg_x g].
Definition rg_names (g : rgrid) : list string := map fst (rg_dims g).
Definition rg_nx (g : rgrid) : Z := snd (rg_x g).
Definition rg_ny (g : rgrid) : Z := snd (rg_y g).

(** A data variable and a field as far as regridding is concerned. *)
Record rvar := mkrvar { rv_name : string; rv_var : nvar Z; rv_fill : Z }.
Record rfield := mkrfield { rf_grid : option rgrid; rf_spherical : bool; rf_vars : list rvar }.

(** An [ESMF.Grid] of shape (nx, ny); in its mask [true] stands for 1, not masked. *)
Record egrid := mkegrid { eg_nx : Z; eg_ny : Z; eg_mask : option (nd bool); eg_corners : bool }.
Inductive rmethod := Conserve | Bilinear | Patch | Nearest.
Definition is_conserve (m : rmethod) : bool := match m with Conserve => true | _ => false end.
Inductive rrequest := Auto | Flag (m : rmethod).

(** A weight: destination and source cell as (x, y) and the factor. *)
Record weight := mkweight { w_dst : list Z; w_src : list Z; w_val : Z }.
(** The weights ESMF computes for two grids, given a method or its default. *)
Definition esmf_lib := egrid -> egrid -> option rmethod -> list weight.

(** [regrid(src, dst, zero_region=ESMF.Region.SELECT)]: destination elements with a
    weight are set to zero and the weighted source values added; others are left
    alone.  Ungridded dimensions come last and must agree; which exception ESMF raises
    if they do not is not modelled. *)
Definition hits (ws : list weight) (c : list Z) : list weight := filter (fun w => listZ_eqb (w_dst w) c) ws.
Definition esmf_regrid (ws : list weight) (src dst : nd Z) : res (nd Z) :=
  if listZ_eqb (skipn 2 (nd_shape src)) (skipn 2 (nd_shape dst)) then
    Ok (mknd (nd_shape dst) (fun idx =>
      match hits ws (firstn 2 idx) with
      | [] => nd_at dst idx
      | hs => zsum (map (fun w => w_val w * nd_at src (w_src w ++ skipn 2 idx)) hs)
      end))
  else Err RuntimeError.

(** regrid/base.py:335-439 [create_esmf_grid]; coordinates are left out.  366: the grid
    is always in the order y, x, so that [is_yx_order] holds. *)
Definition zeros (shape : list Z) : nd bool := mknd shape (fun _ => false).
Definition create_esmf_grid (g : rgrid) (m : rrequest) (value_mask : option (nd bool)) : res egrid :=
  do mask <- match value_mask with
             | Some v =>                                                               (* 395-399 *)
               do r <- np_lor v (match rg_mask g with Some k => k | None => zeros [rg_ny g; rg_nx g] end); Ok (Some r)
             | None => Ok (rg_mask g)                                                  (* 401 *)
             end;
  do emask <- match mask with
              | Some k => do r <- np_assign (np_swapaxes 0 1 (np_invert k)) [rg_nx g; rg_ny g]; Ok (Some r)   (* 403-407 *)
              | None => Ok None
              end;
  do corners <- match m with
                | Auto => Ok (rg_bounds g)                                             (* 410-411 *)
                | Flag f => if is_conserve f then (if rg_bounds g then Ok true else Err AttributeError)       (* 413-419 *)
                            else Ok false
                end;
  Ok (mkegrid (rg_nx g) (rg_ny g) emask corners).

(** ** regrid/base.py:503-598 [iter_esmf_fields] *)

(** Positions of the names in a list that are in another. *)
Definition axes_in (names extra : list string) : list nat :=
  map fst (filter (fun p => str_mem (snd p) extra) (enumerate 0 names)).

(** [variable[{name: index, ...}]]: dimensions named in the dictionary have length one
    afterwards (zero if the index is too large). *)
Definition cut_shape (dims : list (string * Z)) (slc : list (string * Z)) : list Z :=
  map (fun d => match dget String.eqb slc (fst d) with Some i => if i <? snd d then 1 else 0 | None => snd d end) dims.
Fixpoint cut_index (dims : list (string * Z)) (slc : list (string * Z)) (idx : list Z) : list Z :=
  match dims, idx with
  | d :: ds, i :: t => (match dget String.eqb slc (fst d) with Some j => j + i | None => i end) :: cut_index ds slc t
  | _, _ => idx
  end.
Definition cut {A} (dims : list (string * Z)) (a : nd A) (slc : list (string * Z)) : nd A :=
  mknd (cut_shape dims slc) (fun idx => nd_at a (cut_index dims slc idx)).

(** 553-560: the mask of the first slice of the first variable. *)
Definition any_true (m : nd bool) : bool := existsb (nd_at m) (indices (nd_shape m)).
Definition first_mask (v : nvar Z) (extra : list (string * Z)) : res (option (nd bool)) :=
  match nv_mask v with
  | Some m =>
    if any_true m then
      let s := cut (nv_dims v) m (map (fun d => (fst d, 0)) extra) in
      match extra with
      | [] => Ok (Some s)
      | _ => do q <- np_squeeze (axes_in (nv_names v) (map fst extra)) s; Ok (Some q)
      end
    else Ok None
  | None => Ok None
  end.

(** base.py:205-212 [iter_dict_slices] without [extra]. *)
Definition iter_dict_slices (dims : list (string * Z)) : list (list (string * Z)) :=
  map (fun idx => combine (map fst dims) idx) (indices (map snd dims)).

(** 583-592 and 594-597: the data of the ESMF field for one slice, or for all. *)
Definition source_data (sg : rgrid) (edims : list string) (extra : list (string * Z)) (bv : nvar Z)
  (slc : option (list (string * Z))) : res (nd Z) :=
  match slc with
  | Some s =>
    do q <- np_squeeze (axes_in edims (map fst extra)) (cut (nv_dims bv) (nv_value bv) s);       (* 584-588 *)
    np_assign q [rg_nx sg; rg_ny sg]                                                             (* 590-591 *)
  | None => np_assign (nv_value bv) ([rg_nx sg; rg_ny sg] ++ rev (map snd extra))                (* 595-597 *)
  end.

(** ** regrid/base.py:601-839 [regrid_field] *)

(** 601-643 [check_fields_for_regridding].  (A Python comparison of the request
    ['auto'] with the method flag is false.) *)
Definition check_fields (src dst : rfield) (m : rrequest) : res (rgrid * rgrid) :=
  match rf_grid src, rf_grid dst with
  | Some sg, Some dg =>
    if rf_spherical src && rf_spherical dst then
      match m with
      | Flag Conserve => if rg_bounds sg && rg_bounds dg then Ok (sg, dg) else Err CornersInconsistentError
      | _ => Ok (sg, dg)
      end
    else Err RegriddingError
  | _, _ => Err RegriddingError
  end.

(** 804-818: assigning the regridded slice to the destination variable.  813-816 only
    append dimensions of size one to the (x, y) data. *)
Definition set_slice (cur : nvar Z) (slc : list (string * Z)) (dst_names : list string) (e : nd Z) (fv : Z) : nvar Z :=
  let template := map (fun d => if str_mem (fst d) dst_names then None                           (* 804-805 *)
                                else dget String.eqb slc (fst d)) (nv_dims cur) in
  let old := match nv_mask cur with Some m => m | None => zeros (nv_shape cur) end in
  mknvar (nv_dims cur)
    (mknd (nv_shape cur) (fun idx => if matches template idx then nd_at e (firstn 2 idx) else nd_at (nv_value cur) idx))
    (Some (mknd (nv_shape cur) (fun idx => if matches template idx then nd_at e (firstn 2 idx) =? fv else nd_at old idx))).

(** 709-825 for one slice: [cur] is the destination variable so far. *)
Definition regrid_step (ws : list weight) (sg dg : rgrid) (edims : list string) (iextra extra : list (string * Z))
  (split : bool) (bv : nvar Z) (fv : Z) (cur : nvar Z) (slc : option (list (string * Z))) : res (nvar Z) :=
  do sdata <- source_data sg edims iextra bv slc;
  let dst0 := mknd ([rg_nx dg; rg_ny dg] ++ (if split then [] else rev (map snd extra))) (fun _ => fv) in   (* 751-759 *)
  do e <- esmf_regrid ws sdata dst0;                                                             (* 787 *)
  if forallb (fun idx => nd_at e idx =? fv) (indices (nd_shape e)) then Err RegriddingError      (* 791-798 *)
  else
    match slc with
    | Some s => Ok (set_slice cur s (rg_names dg) e fv)
    | None => do r <- np_assign e (nv_shape cur); Ok (mknvar (nv_dims cur) r (nv_mask cur))      (* 821 *)
    end.

(** One data variable: 574-598 and 709-837. *)
Definition regrid_variable (ws : list weight) (sg dg : rgrid) (anames : list string) (iextra extra : list (string * Z))
  (split : bool) (slices : list (option (list (string * Z)))) (fill_value : option Z) (v : rvar) : res rvar :=
  do bv <- broadcast_variable (rv_var v) (rev anames);                                           (* 577 *)
  let dims := rev (extra ++ rg_dims dg) in                                                       (* 715-722 *)
  let new := mknvar dims (mknd (map snd dims) (fun _ => rv_fill v)) None in                      (* 726-728 *)
  let fv := match fill_value with Some f => f | None => rv_fill v end in                         (* 754-757 *)
  do filled <- fold_res (regrid_step ws sg dg (rev anames) iextra extra split bv fv) slices new;
  do out <- broadcast_variable filled (rev (map fst dims));                                      (* 834-837 *)
  Ok (mkrvar (rv_name v) out (rv_fill v)).

(** The result is the list of regridded data variables, or [None] if only weights are
    written ([weights_out]).  Without data variables the loop is never entered and the
    names used after it are unbound (829: UnboundLocalError, a NameError).  The
    destination grid is built here before the first slice is read, in the code after
    it; this matters only for which exception comes first. *)
Definition regrid_field (lib : esmf_lib) (src dst : rfield) (m : rrequest) (value_mask : option (nd bool)) (split : bool)
  (fill_value : option Z) (weights_in : option (list weight)) (weights_out : bool) : res (option (list rvar)) :=
  do gs <- check_fields src dst m;                                                               (* 671 *)
  let '(sg, dg) := gs in
  match rf_vars src with
  | [] => Err NameError
  | arch :: _ =>
    let adims := nv_dims (rv_var arch) in
    let extra := filter (fun d => negb (str_mem (fst d) (rg_names dg)) && negb (str_mem (fst d) (rg_names sg))) adims in   (* 686-688 *)
    let split := split && negb (0 =? zlen extra) in                                              (* 691-692 *)
    let iextra := filter (fun d => negb (str_mem (fst d) (rg_names sg))) adims in                (* 540-541 *)
    do vm <- match value_mask with Some v => Ok (Some v) | None => first_mask (rv_var arch) iextra end;   (* 553-560 *)
    do se <- create_esmf_grid sg m vm;                                                           (* 563 *)
    do de <- create_esmf_grid dg m value_mask;                                                   (* 735 *)
    let method := match m with Auto => if eg_corners de && eg_corners se then Some Conserve else None | Flag f => Some f end in   (* 739-743 *)
    let ws := match weights_in with Some ws => ws | None => lib se de method end in              (* 765-776 *)
    let slices := if split then map Some (iter_dict_slices iextra) else [None] in
    match slices with
    | [] => Err NameError
    | s :: _ =>
      if weights_out then                                                                        (* 781-783 *)
        do bv <- broadcast_variable (rv_var arch) (rev (map fst adims));
        do _ <- source_data sg (rev (map fst adims)) iextra bv s; Ok None
      else
        do out <- map_res (regrid_variable ws sg dg (map fst adims) iextra extra split slices fill_value) (rf_vars src);
        Ok (Some out)
    end
  end.
