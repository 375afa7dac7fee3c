(** Model of searching a variable collection and of the type of geometry variables:
    src/ocgis/variable/base.py and src/ocgis/variable/geom.py. *)
From Verif Require Import Py.
From Coq Require Import String.
Local Open Scope string_scope.
Local Notation length := List.length.

(** ** Searching *)

(** A variable: its name, its dimension names and its attributes. *)
Record svar := mksvar { sv_name : string; sv_dims : list string; sv_attrs : list (string * string) }.

(** What to search for: [value] takes precedence over [pred]; neither is refused. *)
Definition matches (value : option string) (pred : option (string -> bool)) (x : string) : res bool :=
  match value, pred with
  | Some v, _ => Ok (String.eqb x v)
  | None, Some p => Ok (p x)
  | None, None => Err ValueError
  end.

(** variable/base.py:1952-1967: the attributes of one variable; the variable is appended for each
    attribute that matches. *)
Fixpoint find_in_attrs (v : svar) (value : option string) (pred : option (string -> bool)) (l : list (string * string)) : res (list svar) :=
  match l with
  | [] => Ok []
  | (_, x) :: t => do m <- matches value pred x; do r <- find_in_attrs v value pred t; Ok (if m then v :: r else r)
  end.
Definition find_in_variable (key : option string) (value : option string) (pred : option (string -> bool)) (v : svar) : res (list svar) :=
  match key with
  | None => find_in_attrs v value pred (sv_attrs v)
  | Some k => match dget String.eqb (sv_attrs v) k with
              | None => Ok []
              | Some x => find_in_attrs v value pred [(k, x)]
              end
  end.

(** variable/base.py:1937-1968 [find_by_attribute]. *)
Fixpoint find_by_attribute (key : option string) (value : option string) (pred : option (string -> bool)) (vars : list svar) : res (list svar) :=
  match vars with
  | [] => Ok []
  | v :: t => do a <- find_in_variable key value pred v; do b <- find_by_attribute key value pred t; Ok (a ++ b)%list
  end.

(** variable/base.py:2140-2150 [iter_variables_by_dimensions]: the names that are common, counted
    as a set, against the number of names. *)
Definition common (dims names : list string) : list string :=
  filter (fun n => existsb (String.eqb n) dims) (nodup string_dec names).
Definition iter_variables_by_dimensions (names : list string) (vars : list svar) : list svar :=
  filter (fun v => Nat.eqb (length (common (sv_dims v) names)) (length names)) vars.

(** ** Geometry types *)

(** The type of a geometry: its kind (point, line, polygon, by number), and whether it is a multi
    type. *)
Record gkind := mkgkind { gk_base : nat; gk_multi : bool }.

(** variable/geom.py:1302-1314 [get_geom_type]: [None] is an element that is not a geometry. *)
Fixpoint scan_type (last : option gkind) (l : list (option gkind)) : option gkind :=
  match l with
  | [] => last
  | None :: t => scan_type last t
  | Some k :: t => if gk_multi k then Some k else scan_type (Some k) t
  end.
Definition get_geom_type (l : list (option gkind)) : res gkind :=
  match scan_type None l with Some k => Ok k | None => Err AssertionError end.

(** A geometry variable: its values and the type that is kept (None: 'auto'). *)
Record gvar := mkgvar { gv_values : list (option gkind); gv_type : option gkind }.

(** variable/geom.py:263-273 [geom_type]: the type and the variable afterwards. *)
Definition read_type (g : gvar) : res (gkind * gvar) :=
  match gv_type g with
  | Some k => Ok (k, g)
  | None => do k <- get_geom_type (gv_values g); Ok (k, mkgvar (gv_values g) (Some k))
  end.
(** variable/geom.py:1205-1216 [set_value]. *)
Definition set_values (g : gvar) (l : list (option gkind)) : gvar := mkgvar l (gv_type g).

(** variable/geom.py:275-290 [geom_type_global]: the types of the ranks, in the order of ranks. *)
Fixpoint pick_global (last : option gkind) (l : list gkind) : option gkind :=
  match l with
  | [] => last
  | k :: t => if gk_multi k then Some k else pick_global (Some k) t
  end.
Definition geom_type_global (types : list gkind) : option gkind := pick_global None types.
