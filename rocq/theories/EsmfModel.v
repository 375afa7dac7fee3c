(** Model of the conversions of grids and fields to ESMF and back, and of
    [RegridOperation]: src/ocgis/regrid/base.py. *)
From Verif Require Import Py PartitionModel NdModel CoordModel RegridModel.
Local Close Scope Q_scope.
Local Open Scope Z_scope.

(** constants.py: the name of mask variables OCGIS creates and of the dimension of
    corners. *)
Definition SPATIAL_MASK : string := "ocgis_spatial_mask".
Definition CORNERS : string := "corners".

(** ** Grids *)

(** Coordinates of a structured grid: vectors with optional bounds, or arrays of shape
    (ny, nx) with optional corners of shape (ny, nx, 4); y before x.  Masks of the
    coordinate variables themselves are not modelled. *)
Inductive gcoords (A : Type) :=
| Vectors (ys xs : list A) (bounds : option (list (A * A) * list (A * A)))
| Arrays (y x : nd A) (corners : option (nd A * nd A)).
Arguments Vectors {A}. Arguments Arrays {A}.

(** The mask variables of the grid's parent and the one named in its dimension map. *)
Record mvar := mkmvar { mv_dims : list (string * Z); mv_mask : nd bool }.
Record cgrid (A : Type) := mkcgrid { cg_yd : string * Z; cg_xd : string * Z; cg_coords : gcoords A;
  cg_mask_key : option string; cg_masks : list (string * mvar) }.
Arguments mkcgrid {A}. Arguments cg_yd {A}. Arguments cg_xd {A}. Arguments cg_coords {A}.
Arguments cg_mask_key {A}. Arguments cg_masks {A}.

(** spatial/base.py:441-448 [mask_variable]; driver/base.py:508-534: the mask, if any. *)
Definition get_mask {A} (g : cgrid A) : res (option (nd bool)) :=
  match cg_mask_key g with
  | None => Ok None
  | Some n => match dget String.eqb (cg_masks g) n with Some v => Ok (Some (mv_mask v)) | None => Err KeyError end
  end.

(** driver/base.py:511-527 with [create]: the grid with a mask variable. *)
Definition get_or_create_mask {A} (g : cgrid A) : res (cgrid A * nd bool) :=
  do k <- get_mask g;
  match k with
  | Some m => Ok (g, m)
  | None =>
    let m := zeros [snd (cg_yd g); snd (cg_xd g)] in
    Ok (mkcgrid (cg_yd g) (cg_xd g) (cg_coords g) (Some SPATIAL_MASK)
          (dset String.eqb (cg_masks g) SPATIAL_MASK (mkmvar [cg_yd g; cg_xd g] m)), m)
  end.

(** spatial/grid.py:726-736 [get_value_stacked]. *)
Definition stacked {A} (zero : A) (c : gcoords A) : nd A * nd A :=
  match c with
  | Vectors ys xs _ =>
    (mknd [zlen ys; zlen xs] (fun idx => nth (Z.to_nat (nth 0 idx 0)) ys zero),
     mknd [zlen ys; zlen xs] (fun idx => nth (Z.to_nat (nth 1 idx 0)) xs zero))
  | Arrays y x _ => (y, x)
  end.

(** spatial/grid.py:1287-1348 [expand_grid]. *)
Definition expand {A} (zero : A) (c : gcoords A) : gcoords A :=
  match c with
  | Vectors ys xs b =>
    let '(y, x) := stacked zero c in
    Arrays y x
      match b with
      | None => None
      | Some (yb, xb) =>
        let row idx := nth (Z.to_nat (nth 0 idx 0)) yb (zero, zero) in
        let col idx := nth (Z.to_nat (nth 1 idx 0)) xb (zero, zero) in
        Some (mknd [zlen yb; zlen xb; 4] (fun idx => if nth 2 idx 0 <? 2 then fst (row idx) else snd (row idx)),      (* 1332-1333 *)
              mknd [zlen yb; zlen xb; 4] (fun idx => if (nth 2 idx 0 =? 1) || (nth 2 idx 0 =? 2)
                                                    then snd (col idx) else fst (col idx)))                          (* 1335-1338 *)
      end
  | Arrays _ _ _ => c
  end.
Definition has_bounds {A} (c : gcoords A) : bool :=
  match c with Vectors _ _ (Some _) | Arrays _ _ (Some _) => true | _ => false end.

(** An [ESMF.Grid] with what OCGIS notes on it: the names of its dimensions (x, y), those
    of the grid it came from, and the mask variable in the copied dimension map.  Arrays
    have shape (nx, ny), corners are (y, x) of shape (nx + 1, ny + 1), without the last
    column of nodes if the grid is periodic.  In the mask [true] is not masked. *)
Record cegrid (A : Type) := mkcegrid { ce_names : list string; ce_back : list string; ce_nx : Z; ce_ny : Z;
  ce_y : nd A; ce_x : nd A; ce_mask : option (nd bool); ce_corners : option (nd A * nd A); ce_periodic : bool;
  ce_mask_key : option string }.
Arguments mkcegrid {A}. Arguments ce_names {A}. Arguments ce_back {A}. Arguments ce_nx {A}. Arguments ce_ny {A}.
Arguments ce_y {A}. Arguments ce_x {A}. Arguments ce_mask {A}. Arguments ce_corners {A}. Arguments ce_periodic {A}.
Arguments ce_mask_key {A}.

Definition drop_column {A} (c : nd A) : nd A :=
  mknd (match nd_shape c with n :: s => (n - 1) :: s | [] => [] end) (nd_at c).

(** regrid/base.py:335-439 [create_esmf_grid]: the ESMF grid and the grid afterwards.
    Whether the grid is periodic (351) is a parameter here (see PeriodModel). *)
Definition to_esmf {A} (zero : A) (g : cgrid A) (m : rrequest) (value_mask : option (nd bool)) (periodic : bool)
  : res (cegrid A * cgrid A) :=
  let nx := snd (cg_xd g) in
  let ny := snd (cg_yd g) in
  let '(oy, ox) := stacked zero (cg_coords g) in                                       (* 379 *)
  do ey <- np_assign (np_swapaxes 0 1 oy) [nx; ny];                                    (* 380-384 *)
  do ex <- np_assign (np_swapaxes 0 1 ox) [nx; ny];                                    (* 386-390 *)
  do gm <- match value_mask with
           | Some v => do gk <- get_or_create_mask g; do r <- np_lor v (snd gk); Ok (fst gk, Some r)    (* 395-399 *)
           | None => do k <- get_mask g; Ok (g, k)                                     (* 401 *)
           end;
  let '(g1, mask) := gm in
  do emask <- match mask with
              | Some k => do r <- np_assign (np_swapaxes 0 1 (np_invert k)) [nx; ny]; Ok (Some r)       (* 403-407 *)
              | None => Ok None
              end;
  let conserve := match m with Auto => has_bounds (cg_coords g) | Flag f => is_conserve f end in        (* 410-413 *)
  do gc <- (if conserve then
              let c := expand zero (cg_coords g1) in                                   (* 416 *)
              match c with
              | Arrays _ _ (Some (cy, cx)) =>
                do ecy <- esmf_from_ocgis zero cy;                                     (* 419 *)
                do ecx <- esmf_from_ocgis zero cx;                                     (* 420 *)
                Ok (mkcgrid (cg_yd g1) (cg_xd g1) c (cg_mask_key g1) (cg_masks g1),
                    Some (if periodic then (drop_column ecy, drop_column ecx) else (ecy, ecx)))         (* 429-434 *)
              | _ => Err AttributeError
              end
            else Ok (g1, None));
  Ok (mkcegrid [fst (cg_xd g); fst (cg_yd g)] [fst (cg_yd g); fst (cg_xd g)] nx ny ey ex emask (snd gc) periodic
        (cg_mask_key g), fst gc).

(** regrid/base.py:140-151: the corners with the first column of nodes as the last. *)
Definition close_column {A} (c : nd A) : nd A :=
  match nd_shape c with
  | n :: s => mknd ((n + 1) :: s) (fun idx => match idx with i :: t => nd_at c ((if i =? n then 0 else i) :: t) | [] => nd_at c [] end)
  | [] => c
  end.

(** regrid/base.py:122-190 [get_ocgis_grid_from_esmf_grid]. *)
Definition from_esmf {A} (zero : A) (e : cegrid A) : res (cgrid A) :=
  let dims := combine (ce_names e) [ce_nx e; ce_ny e] in
  let same := strs_eqb (ce_back e) (ce_names e) in
  let turn (v : nvar A) (names : list string) := if same then Ok v else broadcast_variable v names in   (* 178-183 *)
  do vx <- turn (mknvar dims (ce_x e) None) (ce_back e);                               (* 136, 179 *)
  do vy <- turn (mknvar dims (ce_y e) None) (ce_back e);                               (* 137, 180 *)
  do corners <- match ce_corners e with
                | None => Ok None
                | Some (cy, cx) =>
                  let close c := if ce_periodic e then close_column c else c in        (* 143-154 *)
                  do oy <- ocgis_from_esmf zero (close cy);                            (* 156 *)
                  do ox <- ocgis_from_esmf zero (close cx);                            (* 155 *)
                  let cdims := dims ++ [(CORNERS, 4)] in                               (* 158-159 *)
                  do by_ <- turn (mknvar cdims oy None) (ce_back e ++ [CORNERS]);      (* 182-183 *)
                  do bx <- turn (mknvar cdims ox None) (ce_back e ++ [CORNERS]);
                  Ok (Some (nv_value by_, nv_value bx))
                end;
  (* 170-174: the mask variable of the new grid, whose dimensions still are those of the
     ESMF grid; it is not turned with the coordinates *)
  let masks := match ce_mask e with Some k => [(SPATIAL_MASK, mkmvar dims (np_invert k))] | None => [] end in
  match nv_dims vy with
  | [yd; xd] => Ok (mkcgrid yd xd (Arrays (nv_value vy) (nv_value vx) corners) (ce_mask_key e) masks)   (* 176 *)
  | _ => Err ValueError
  end.

(** ** Fields *)

(** A data variable with its kind of numbers: are they floating point? *)
Record dvar (A : Type) := mkdvar { dv_name : string; dv_var : nvar A; dv_float : bool }.
Arguments mkdvar {A}. Arguments dv_name {A}. Arguments dv_var {A}. Arguments dv_float {A}.
(** A field: its grid, the dimensions of its time variable and its data variables. *)
Record dfield (A : Type) := mkdfield { df_grid : rgrid; df_time : option (list (string * Z)); df_vars : list (dvar A) }.
Arguments mkdfield {A}. Arguments df_grid {A}. Arguments df_time {A}. Arguments df_vars {A}.
(** An [ESMF.Field]: its name, the names of its dimensions, the dimensions of the variable
    it was made from, its data and the grid OCGIS noted on it. *)
Record efield (A : Type) := mkefield { ef_name : string; ef_names : list string; ef_back : list (string * Z); ef_data : nd A;
  ef_grid : rgrid }.
Arguments mkefield {A}. Arguments ef_name {A}. Arguments ef_names {A}. Arguments ef_back {A}. Arguments ef_data {A}.
Arguments ef_grid {A}.

(** regrid/base.py:193-273 [get_esmf_field_from_ocgis_field]: the ESMF field and the
    variable afterwards.  Fields without data variables are not modelled. *)
Definition to_efield {A} (f : dfield A) (name : option string) (m : rrequest) (value_mask : option (nd bool))
  : res (efield A * nvar A) :=
  match df_vars f with
  | [] => Err NotImplementedError
  | _ :: _ :: _ => Err ValueError                                                      (* 206-208 *)
  | [v] =>
    do eg <- create_esmf_grid (df_grid f) m value_mask;                                (* 219 *)
    do time <- match df_time f with
               | None => Ok None
               | Some [] => Err IndexError
               | Some (t :: _) => Ok (Some t)                                          (* 225-228 *)
               end;
    let gnames := [fst (rg_x (df_grid f)); fst (rg_y (df_grid f))] in
    let others := filter (fun d : string * Z => negb (str_mem (fst d) gnames) &&
                            negb (match time with Some t => String.eqb (fst d) (fst t) | None => false end))
                    (nv_dims (dv_var v)) in                                            (* 231-234 *)
    let last := match time with Some t => [t] | None => [] end in                      (* 235-237 *)
    let names := gnames ++ map fst (others ++ last) in
    if dv_float v then
      do b <- broadcast_variable (dv_var v) names;                                     (* 268 *)
      do data <- np_assign (nv_value b) ([eg_nx eg; eg_ny eg] ++ map snd (others ++ last));   (* 269 *)
      do v' <- broadcast_variable b (nv_names (dv_var v));
      Ok (mkefield (match name with Some n => n | None => dv_name v end) names (nv_dims (dv_var v)) data (df_grid f), v')
    else Err KeyError                                                                  (* 255 *)
  end.

(** regrid/base.py:280-313 [get_ocgis_field_from_esmf_field]: the data variable of the
    field made.  Of a template field only the grid and this variable are replaced. *)
Definition from_efield {A} (zero : A) (e : efield A) : res (dvar A) :=
  do b <- broadcast_variable (mknvar (combine (ef_names e) (nd_shape (ef_data e))) (ef_data e) None) (map fst (ef_back e));   (* 297-298 *)
  let v := mknvar (ef_back e) (nv_value b) (nv_mask b) in                              (* 299 *)
  let g := ef_grid e in
  do w <- match rg_mask g with
          | Some k => set_mask_by_variable (mknvar (rg_dims g) (mknd [rg_ny g; rg_nx g] (fun _ => zero)) (Some k)) v false   (* 309-310 *)
          | None => Ok v
          end;
  Ok (mkdvar (ef_name e) w true).

(** ** [RegridOperation] *)

(** Fields as far as the operation is concerned: a coordinate system, if any, and the
    rest.  [spherical] is [Spherical()]; [transform] is [update_crs] on a field with
    another system. *)
Record ofield (C F : Type) := mkofield { of_crs : option C; of_rest : F }.
Arguments mkofield {C F}. Arguments of_crs {C F}. Arguments of_rest {C F}.

Section Operation.
Context {C F : Type} (eqb : C -> C -> bool) (spherical : C).
Variable transform : C -> C -> F -> res F.
Variable subset : ofield C F -> res (ofield C F).
Variable regrid : ofield C F -> ofield C F -> res (option (ofield C F)).

(** collection/field.py:1014-1029 and spatial/base.py:144-163 [update_crs]: a field without
    a system cannot be transformed; the system of the field becomes the new one.  A
    transformation that fails is taken to change nothing. *)
Definition update_crs (f : ofield C F) (to : C) : res (ofield C F) :=
  match of_crs f with
  | None => Err ValueError
  | Some from => do r <- transform from to (of_rest f); Ok (mkofield (Some to) r)
  end.
Definition is_spherical (f : ofield C F) : bool := match of_crs f with Some c => eqb c spherical | None => false end.

(** 78-93 and 108-119: the field in the spherical system and the system to go back to. *)
Definition to_spherical (f : ofield C F) : res (ofield C F * option C) :=
  if is_spherical f then Ok (f, None) else do f' <- update_crs f spherical; Ok (f', of_crs f).

(** regrid/base.py:56-76 [execute]: the outcome, and the source and destination fields
    afterwards. *)
Definition execute (use_subset revert : bool) (src dst : ofield C F) : res (option (ofield C F)) * ofield C F * ofield C F :=
  match to_spherical dst with
  | Err e => (Err e, src, dst)
  | Ok (dst1, back_dst) =>
    match (if use_subset then subset dst1 else Ok dst1) with                           (* 96-104 *)
    | Err e => (Err e, src, dst1)
    | Ok sub =>
      match to_spherical src with
      | Err e => (Err e, src, dst1)
      | Ok (src1, back_src) =>
        match regrid src1 sub with                                                     (* 67 *)
        | Err e => (Err e, src1, dst1)
        | Ok out =>
          match back_src with
          | Some c =>                                                                  (* 69-71 *)
            match out with
            | None => (Err AttributeError, src1, dst1)
            | Some o =>
              match update_crs o c with
              | Err e => (Err e, src1, dst1)
              | Ok o' =>
                match (if revert then back_dst else None) with                         (* 72-73 *)
                | Some d => match update_crs dst1 d with Err e => (Err e, src1, dst1) | Ok dst2 => (Ok (Some o'), src1, dst2) end
                | None => (Ok (Some o'), src1, dst1)
                end
              end
            end
          | None =>
            match (if revert then back_dst else None) with
            | Some d => match update_crs dst1 d with Err e => (Err e, src1, dst1) | Ok dst2 => (Ok out, src1, dst2) end
            | None => (Ok out, src1, dst1)
            end
          end
        end
      end
    end
  end.

(** ops/engine.py:533-549: sources regridded one after the other to a common destination,
    up to the first exception. *)
Fixpoint execute_all (use_subset revert : bool) (srcs : list (ofield C F)) (dst : ofield C F) : list (res (option (ofield C F))) :=
  match srcs with
  | [] => []
  | s :: rest =>
    let '(o, _, dst') := execute use_subset revert s dst in
    o :: match o with Ok _ => execute_all use_subset revert rest dst' | Err _ => [] end
  end.
End Operation.
