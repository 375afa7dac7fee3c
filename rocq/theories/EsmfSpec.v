(** Vocabulary of C87-C89. *)
From Verif Require Import Py Spec NdModel NdSpec RegridModel EsmfModel.
Local Open Scope Z_scope.

(** The centre of the cell in row [i] and column [j] as (y, x). *)
Definition center {A} (zero : A) (g : cgrid A) (i j : Z) : A * A :=
  match cg_coords g with
  | Vectors ys xs _ => (nth (Z.to_nat i) ys zero, nth (Z.to_nat j) xs zero)
  | Arrays y x _ => (nd_at y [i; j], nd_at x [i; j])
  end.

(** Its four corners as (y, x), if the grid has any: the box of the bounds, or the corners
    in the order they are stored. *)
Definition ring {A} (zero : A) (g : cgrid A) (i j : Z) : option (list (A * A)) :=
  match cg_coords g with
  | Vectors _ _ (Some (yb, xb)) =>
    let '(s, n) := nth (Z.to_nat i) yb (zero, zero) in
    let '(w, e) := nth (Z.to_nat j) xb (zero, zero) in
    Some [(s, w); (s, e); (n, e); (n, w)]
  | Arrays _ _ (Some (cy, cx)) => Some (map (fun k => (nd_at cy [i; j; k], nd_at cx [i; j; k])) [0; 1; 2; 3])
  | _ => None
  end.
(** The same corners the other way round, starting from the same one. *)
Definition turned {B} (r : list B) : list B := match r with a :: t => a :: rev t | [] => [] end.

(** A grid whose arrays fit together. *)
Definition shape_is {A} (o : option (nd A * nd A)) (s : list Z) : Prop :=
  match o with Some (a, b) => nd_shape a = s /\ nd_shape b = s | None => True end.
Definition GoodGrid {A} (g : cgrid A) : Prop :=
  let '(y, ny) := cg_yd g in let '(x, nx) := cg_xd g in
  y <> x /\ y <> CORNERS /\ x <> CORNERS /\ 0 < ny /\ 0 < nx /\
  match cg_coords g with
  | Vectors ys xs b => zlen ys = ny /\ zlen xs = nx /\
                       match b with Some (yb, xb) => zlen yb = ny /\ zlen xb = nx | None => True end
  | Arrays cy cx c => nd_shape cy = [ny; nx] /\ nd_shape cx = [ny; nx] /\ shape_is c [ny; nx; 4]
  end.
Definition InGrid {A} (g : cgrid A) (i j : Z) : Prop := 0 <= i < snd (cg_yd g) /\ 0 <= j < snd (cg_xd g).

(** Neighbouring cells share two corners: corners go round from the lower left one. *)
Definition Touching {A} (zero : A) (g : cgrid A) : Prop :=
  (forall i j r r', InGrid g i j -> InGrid g i (j + 1) -> ring zero g i j = Some r -> ring zero g i (j + 1) = Some r' ->
     nth_error r 1 = nth_error r' 0 /\ nth_error r 2 = nth_error r' 3) /\
  (forall i j r r', InGrid g i j -> InGrid g (i + 1) j -> ring zero g i j = Some r -> ring zero g (i + 1) j = Some r' ->
     nth_error r 3 = nth_error r' 0 /\ nth_error r 2 = nth_error r' 1).

(** The mask has the shape of the grid. *)
Definition MaskFits {A} (g : cgrid A) (k : option (nd bool)) : Prop :=
  match k with Some a => nd_shape a = [snd (cg_yd g); snd (cg_xd g)] | None => True end.

(** Are corners wanted? *)
Definition wants_corners {A} (g : cgrid A) (m : rrequest) : bool :=
  match m with Auto => has_bounds (cg_coords g) | Flag Conserve => true | Flag _ => false end.

(** C88.  The cell (row, column) of the grid an index of the variable belongs to. *)
Definition CellOf (names : list string) (g : rgrid) (idx : list Z) (i j : Z) : Prop :=
  exists p q, nth_error names p = Some (fst (rg_y g)) /\ nth_error names q = Some (fst (rg_x g)) /\
    nth_error idx p = Some i /\ nth_error idx q = Some j.

(** A field that can be converted: one floating point variable with the dimensions of the
    grid and of time. *)
Definition GoodCells (g : rgrid) : Prop :=
  fst (rg_y g) <> fst (rg_x g) /\ 0 <= rg_ny g /\ 0 <= rg_nx g /\
  match rg_mask g with Some k => nd_shape k = [rg_ny g; rg_nx g] | None => True end.
Definition Convertible {A} (f : dfield A) (v : dvar A) : Prop :=
  df_vars f = [v] /\ GoodVar (dv_var v) /\ dv_float v = true /\
  In (rg_y (df_grid f)) (nv_dims (dv_var v)) /\ In (rg_x (df_grid f)) (nv_dims (dv_var v)) /\
  match df_time f with
  | None => True
  | Some l => exists t r, l = t :: r /\ In t (nv_dims (dv_var v)) /\ fst t <> fst (rg_y (df_grid f)) /\ fst t <> fst (rg_x (df_grid f))
  end.

(** C89.  Transforming the field to the spherical system and back changes nothing. *)
Definition Exact {C F} (transform : C -> C -> F -> res F) (spherical : C) (f : ofield C F) : Prop :=
  forall c x y, of_crs f = Some c -> of_rest f = x -> transform c spherical x = Ok y -> transform spherical c y = Ok x.

(** The field [g] is the field [f] in the system [to]. *)
Definition BroughtTo {C F} (transform : C -> C -> F -> res F) (to : C) (f g : ofield C F) : Prop :=
  of_crs f = Some to /\ g = f \/
  exists c x, of_crs f = Some c /\ c <> to /\ transform c to (of_rest f) = Ok x /\ g = mkofield (Some to) x.
