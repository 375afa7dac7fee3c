(** Model of the areas and weights of geometries, of the extent of a variable and of index arrays:
    src/ocgis/variable/geom.py, src/ocgis/variable/base.py and src/ocgis/util/helpers.py. *)
From Verif Require Import Py.
From Coq Require Import QArith.
Local Notation length := List.length.

(** A masked array, flattened: [None] is a masked element.  Numbers are rational. *)
Definition masked_array := list (option Q).

(** The smallest and largest of a number and a list, [min] and [max] of numpy. *)
Definition largest (x : Q) (l : list Q) : Q := fold_left (fun m y => if Qle_bool m y then y else m) l x.
Definition smallest (x : Q) (l : list Q) : Q := fold_left (fun m y => if Qle_bool y m then y else m) l x.

(** [compressed] of a masked array. *)
Fixpoint compressed {A} (a : list (option A)) : list A :=
  match a with
  | [] => []
  | Some x :: t => x :: compressed t
  | None :: t => compressed t
  end.

(** A geometry variable: per element whether it is masked and its geometry. *)
Definition geometries (G : Type) := list (bool * G).

(** variable/geom.py:229-247 [area], of a variable that is not empty: the masked elements are skipped
    and keep the mask. *)
Definition area {G} (area_of : G -> Q) (g : geometries G) : masked_array :=
  map (fun mg : bool * G => if fst mg then None else Some (area_of (snd mg))) g.

(** variable/geom.py:307-321 [weights]; the maximum of an array that is masked everywhere is masked,
    and so is everything divided by it. *)
Definition weights {G} (area_of : G -> Q) (g : geometries G) : masked_array :=
  let a := map (option_map (fun x => if Qeq_bool x 0 then 1 else x)) (area area_of g) in                   (* 319-320 *)
  match compressed a with
  | [] => map (fun _ => None) a
  | x :: t => map (option_map (fun y => y / largest x t)) a                                                (* 321 *)
  end.

(** variable/base.py:496-514 [extent] with [_get_extent_target_], of a variable that is not empty:
    its values and its bounds, if it has them. *)
Definition extent (value : masked_array) (bounds : option masked_array) : res (Q * Q) :=
  let target := match bounds with Some b => b | None => value end in                                       (* 509-514 *)
  match compressed target with
  | [] => Err ValueError
  | x :: t => Ok (smallest x t, largest x t)                                                                (* 505 *)
  end.

(** ** Index arrays *)

(** [np.where(src_value == dst)[0][0]] for a vector [dst]. *)
Fixpoint first_index {A} (eqb : A -> A -> bool) (x : A) (dst : list A) : res nat :=
  match dst with
  | [] => Err IndexError
  | y :: t => if eqb x y then Ok O else do i <- first_index eqb x t; Ok (S i)
  end.

(** The index, or the element of [indices] at the index, helpers.py:985-989. *)
Definition index_of {A} (eqb : A -> A -> bool) (indices : option (list Z)) (x : A) (dst : list A) : res Z :=
  do i <- first_index eqb x dst;
  match indices with
  | None => Ok (Z.of_nat i)
  | Some l => match nth_error l i with Some a => Ok a | None => Err IndexError end
  end.

(** util/helpers.py:967-994 [create_index_array] for a vector [src]. *)
Fixpoint create_index_array {A} (eqb : A -> A -> bool) (indices : option (list Z)) (src dst : list A) : res (list Z) :=
  match src with
  | [] => Ok []
  | x :: t => do a <- index_of eqb indices x dst; do r <- create_index_array eqb indices t dst; Ok (a :: r)
  end.

(** The same for a [src] of rows: the values are enumerated flat, but [ret[idx] = a] (992) sets a row. *)
Fixpoint set_row (rows : list (list Z)) (idx : nat) (a : Z) : res (list (list Z)) :=
  match rows, idx with
  | [], _ => Err IndexError
  | r :: t, O => Ok (map (fun _ => a) r :: t)
  | r :: t, S i => do t' <- set_row t i a; Ok (r :: t')
  end.
Fixpoint set_rows {A} (eqb : A -> A -> bool) (indices : option (list Z)) (flat dst : list A) (idx : nat) (ret : list (list Z)) : res (list (list Z)) :=
  match flat with
  | [] => Ok ret
  | x :: t => do a <- index_of eqb indices x dst; do ret' <- set_row ret idx a; set_rows eqb indices t dst (S idx) ret'
  end.
Definition create_index_rows {A} (eqb : A -> A -> bool) (indices : option (list Z)) (src : list (list A)) (dst : list A) : res (list (list Z)) :=
  set_rows eqb indices (concat src) dst O (map (map (fun _ => 0%Z)) src).

(** util/helpers.py:90-103 [arange_from_bool_ndarray] for a vector. *)
Fixpoint where_true (i : Z) (arr : list bool) : list Z :=
  match arr with
  | [] => []
  | b :: t => if b then i :: where_true (i + 1)%Z t else where_true (i + 1)%Z t
  end.
Definition arange_from_bool_ndarray (arr : list bool) (start : Z) : list Z := map (fun i => (i + start)%Z) (where_true 0%Z arr).
