(** Model of the resolution of coordinates and the periodicity of grids:
    src/ocgis/driver/nc.py, src/ocgis/variable/base.py, src/ocgis/regrid/base.py.
    Coordinates are integers (any unit small enough); a resolution is a fraction
    (sum, count).  Only coordinates in one dimension. *)
From Verif Require Import Py.

(** [np.abs(np.diff(np.abs(value)))]. *)
Fixpoint abs_steps (l : list Z) : list Z :=
  match l with
  | a :: ((b :: _) as t) => Z.abs (Z.abs b - Z.abs a) :: abs_steps t
  | _ => []
  end.

(** constants.py:121. *)
Definition resolution_limit : nat := 100.

(** driver/nc.py:353-371 [array_resolution] for one dimension; spatial/base.py:482-489
    [resolution_x].  The mean of no numbers is not a number ([None]). *)
Definition array_resolution (value : list Z) : option (Z * Z) :=
  match value with
  | [_] => Some (0, 1)                                                       (* 356-357 *)
  | _ =>
    let target := abs_steps (firstn resolution_limit value) in               (* 362 *)
    match target with [] => None | _ => Some (zsum target, zlen target) end  (* 370 *)
  end.

(** regrid/base.py:457-468: the smallest and largest column, unwrapped. *)
Definition list_min (d : Z) (l : list Z) : Z := fold_left Z.min l d.
Definition list_max (d : Z) (l : list Z) : Z := fold_left Z.max l d.
Definition edges (turn : Z) (col : list Z) : res (Z * Z) :=
  match col with
  | [] => Err ValueError
  | c :: t =>
    let mn := list_min c t in
    let mx := list_max c t in
    if mn <? 0 then
      let mx := match filter (fun x => x <? 0) col with [] => mx | a :: s => list_max a s + turn end in    (* 464-465 *)
      let mn := match filter (fun x => 0 <=? x) col with [] => mn | a :: s => list_min a s end in          (* 467-468 *)
      Ok (mn, mx)
    else Ok (mn, mx)
  end.

(** 469-477 on one rank; comparisons with nan are false. *)
Definition near (r : option (Z * Z)) (x edge : Z) : bool :=
  match r with
  | Some (s, n) => (edge * n - s <=? x * n) && (x * n <=? edge * n + s)
  | None => false
  end.
Definition rank_flags (turn : Z) (col : list Z) : res (bool * bool) :=
  do e <- edges turn col;
  let '(mn, mx) := e in
  let r := array_resolution col in
  Ok (near r mn 0, near r mx turn).

(** 480-489: the flags of all ranks; every rank has columns of its own. *)
Definition is_periodic (turn : Z) (ranks : list (list Z)) : res bool :=
  do fl <- map_res (rank_flags turn) ranks;
  Ok (existsb fst fl && existsb snd fl).

(** variable/base.py:643-664 [Variable.resolution].  Bounds are pairs. *)
Definition variable_resolution (value : list Z) (bounds : option (list (Z * Z))) : res (option (Z * Z)) :=
  match bounds with
  | None =>
    match value with
    | [] | [_] => Err RuntimeError                                           (* 652-654: ResolutionError *)
    | _ => let a := abs_steps (firstn resolution_limit value) in Ok (Some (zsum a, zlen a))
    end
  | Some bs =>
    let a := map (fun b => Z.abs (snd b - fst b)) (firstn resolution_limit bs) in    (* 656-659 *)
    match a with [] => Ok None | _ => Ok (Some (zsum a, zlen a)) end
  end.
