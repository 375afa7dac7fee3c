(** Model of the coordinate variables and axes of fields and grids: src/ocgis/collection/field.py,
    src/ocgis/spatial/base.py and src/ocgis/spatial/grid.py. *)
From Verif Require Import Py.
From Coq Require Import String.
Local Open Scope string_scope.
Local Open Scope list_scope.
Local Notation length := List.length.

(** A coordinate variable: its name, its shape and the name of its bounds. *)
Record axvar := mkaxvar { ax_name : string; ax_shape : list Z; ax_bounds : option string }.

(** A field of the NetCDF driver: it has a grid exactly when it has x and y (driver/nc.py:447-453). *)
Record axfield := mkaxfield { af_x : option axvar; af_y : option axvar; af_level : option axvar; af_time : option axvar; af_realization : option axvar }.

Definition present (v : option axvar) : list axvar := match v with Some x => [x] | None => [] end.

(** spatial/base.py:354-362 [coordinate_variables] of a structured grid. *)
Definition grid_coordinates (x y : axvar) (level : option axvar) : list axvar := [x; y] ++ present level.

(** collection/field.py:195-213 [coordinate_variables]. *)
Definition coordinate_variables (f : axfield) : list axvar :=
  match af_x f, af_y f with
  | Some x, Some y => present (af_time f) ++ grid_coordinates x y (af_level f)                        (* 205-208 *)
  | _, _ => present (af_x f) ++ present (af_y f) ++ present (af_level f) ++ present (af_time f)       (* 210-212 *)
  end.

(** collection/field.py:184-192 [bounds_variables]. *)
Definition bounds_variables (f : axfield) : list string :=
  flat_map (fun c => match ax_bounds c with Some b => [b] | None => [] end) (coordinate_variables f).

(** [shape[0]]. *)
Definition shape0 (v : axvar) : res Z := match ax_shape v with n :: _ => Ok n | [] => Err IndexError end.

(** collection/field.py:150-181 [axes_shapes], in the order R, T, Z, Y, X. *)
Definition axis (v : option axvar) (none : Z) : res Z := match v with None => Ok none | Some x => shape0 x end.
Definition axes_shapes (f : axfield) : res (list (string * Z)) :=
  do r <- axis (af_realization f) 1;
  do t <- axis (af_time f) 0;
  do l <- match af_level f with
          | None => Ok 0%Z
          | Some x => match ax_shape x with [] => Ok 0%Z | _ => shape0 x end
          end;
  do y <- axis (af_y f) 0;
  do x <- axis (af_x f) 0;
  Ok [("R", r); ("T", t); ("Z", l); ("Y", y); ("X", x)].

(** ** Unstructured grids *)

(** The geometries of an unstructured grid: the abstraction and the coordinates of each. *)
Record axgeom := mkaxgeom { ag_abstraction : string; ag_coordinates : list axvar }.

(** spatial/grid.py:1019-1028 [coordinate_variables]: the name is looked for among variables, where it is
    never found (variable/base.py:206-212: a variable never equals a string). *)
Definition unstructured_coordinates (geoms : list axgeom) : list axvar :=
  fold_left (fun ret g => fold_left (fun r c => r ++ [c])%list (ag_coordinates g) ret) geoms [].

(** spatial/grid.py:1065-1072 [_get_available_abstractions_]: the abstraction with the number of its
    geometry; a later geometry of the same abstraction replaces an earlier one. *)
Definition last_with (a : string) (geoms : list axgeom) : option axgeom :=
  fold_left (fun r g => if String.eqb (ag_abstraction g) a then Some g else r) geoms None.
Definition available (geoms : list axgeom) : list (string * axgeom) :=
  flat_map (fun h => match last_with h geoms with Some g => [(h, g)] | None => [] end) ["polygon"; "line"; "point"].
(** spatial/grid.py:1062-1063 [_get_auto_abstraction_]. *)
Definition auto_abstraction (geoms : list axgeom) : res string :=
  match available geoms with (a, _) :: _ => Ok a | [] => Err IndexError end.
