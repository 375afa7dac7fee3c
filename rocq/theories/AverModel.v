(** Unions of geometries and spatial averages: variable/geom.py [get_unioned], [area],
    [weights].

    Simplifications.  Numbers are exact.  Geometries do not overlap, so that the area of
    a union is the sum of the areas.  An array is a function of its index, one position
    for each dimension.  The parts of a distributed field differ in the dimensions of
    the geometries only.  The sort before the average of a variable without other
    dimensions (1013-1018) is left out: exact sums do not depend on the order. *)
From Coq Require Import QArith.
From Verif Require Import Py NdModel.
Local Close Scope Q_scope.
Local Open Scope Z_scope.

(** variable/geom.py:188-226: the geometry variable: its dimensions with their
    lengths, the area of each geometry and the mask. *)
Record geometry := mkG {
  g_dims : list (string * nat);
  g_area : list nat -> Q;
  g_masked : list nat -> bool }.

(** variable/base.py:238-320: a variable to average. *)
Record variable := mkV {
  v_dims : list (string * nat);
  v_val : list nat -> Q;
  v_masked : list nat -> bool }.

(** A variable of the result: dimensions, and values with their mask in row-major order. *)
Record averaged := mkA {
  a_dims : list (string * nat);
  a_vals : list (Q * bool) }.

Definition names (ds : list (string * nat)) : list string := map fst ds.
Definition lens (ds : list (string * nat)) : list nat := map snd ds.

(** [itertools.product] of ranges, and the order of [flatten]. *)
Fixpoint indices (ns : list nat) : list (list nat) :=
  match ns with
  | [] => [[]]
  | n :: t => flat_map (fun i => map (cons i) (indices t)) (seq 0 n)
  end.

Definition qsum (l : list Q) : Q := fold_right Qplus 0%Q l.
Definition qmax (l : list Q) : Q :=
  match l with [] => 0%Q | h :: t => fold_left (fun m x => if Qle_bool m x then x else m) t h end.

(** variable/geom.py:228-247 [area], 306-321 [weights]; [None] is masked. *)
Definition weight_area (g : geometry) (idx : list nat) : Q :=
  let a := if g_masked g idx then 1%Q else g_area g idx in
  if Qeq_bool a 0 then 1%Q else a.

Definition unmasked (g : geometry) : list (list nat) :=
  filter (fun idx => negb (g_masked g idx)) (indices (lens (g_dims g))).

Definition weights (g : geometry) (idx : list nat) : option Q :=
  if g_masked g idx then None else Some (weight_area g idx / qmax (map (weight_area g) (unmasked g)))%Q.

(** [numpy.ma.average] of values and weights. *)
Definition np_ma_average (l : list (option Q * option Q)) : option Q :=
  let live := flat_map (fun p => match p with (Some v, Some w) => [(v, w)] | _ => [] end) l in
  let total := qsum (map snd live) in
  if Qeq_bool total 0 then None else Some (qsum (map (fun p => fst p * snd p)%Q live) / total)%Q.

(** variable/base.py:932-943 [get_masked_value], one element. *)
Definition value (v : variable) (idx : list nat) : option Q :=
  if v_masked v idx then None else Some (v_val v idx).

(** The index of a variable with dimensions [ds] made of the indices [sp] along the
    dimensions of the geometry and [it] along the others (1003-1006). *)
Fixpoint place (gn : list string) (ds : list (string * nat)) (it sp : list nat) : list nat :=
  match ds with
  | [] => []
  | (n, _) :: t =>
      if str_mem n gn then hd 0%nat sp :: place gn t it (tl sp) else hd 0%nat it :: place gn t (tl it) sp
  end.

(** variable/geom.py:899-901: the new dimension. *)
Definition union_dim : string * nat := ("ocgis_geom_union", 1%nat)%string.

(** variable/geom.py:956-1025: one variable; [nd] is Python's [new_dimensions], kept from the
    variable before.  base.py:126-136 gives the dimension names as a tuple, which
    [get_swap_chain] cannot assign to when there is anything to swap.  NumPy's masked
    constant has the data 0 (1010). *)
Definition average_variable (g : geometry) (nd : list (string * nat)) (v : variable)
  : res (averaged * list (string * nat)) :=
  let gn := names (g_dims g) in
  let shared := filter (fun d => str_mem (fst d) gn) (v_dims v) in                       (* 963-965 *)
  let other := filter (fun d => negb (str_mem (fst d) gn)) (v_dims v) in                 (* 966-968 *)
  match other with
  | _ :: _ =>
      let nd' := other ++ [union_dim] in                                                 (* 977-978 *)
      do chain <- get_swap_chain gn (names shared);                                      (* 988 *)
      match chain with
      | _ :: _ => Err TypeError
      | [] =>
          let cell it := np_ma_average (map (fun sp => (value v (place gn (v_dims v) it sp), weights g sp))
                                            (indices (lens shared))) in                  (* 1006-1009 *)
          Ok (mkA nd' (map (fun it => match cell it with Some q => (q, false) | None => (0%Q, false) end)
                           (indices (lens other))), nd')                                 (* 1010 *)
      end
  | [] =>
      let r := np_ma_average (combine (map (value v) (indices (lens (v_dims v))))
                                      (map (weights g) (indices (lens (g_dims g))))) in  (* 1012-1020 *)
      match lens nd with
      | [1%nat] => Ok (mkA nd [match r with Some q => (q, false) | None => (0%Q, true) end], nd) (* 1021-1025 *)
      | _ => Err ValueError
      end
  end.

(** variable/geom.py:954-956: all variables to average. *)
Fixpoint average_loop (g : geometry) (nd : list (string * nat)) (vs : list variable) : res (list averaged) :=
  match vs with
  | [] => Ok []
  | v :: t =>
      do p <- average_variable g nd v;
      do r <- average_loop g (snd p) t;
      Ok (fst p :: r)
  end.

Definition spatial_average (g : geometry) (vs : list variable) : res (list averaged) :=
  average_loop g [union_dim] vs.

(** variable/geom.py:918-931: the geometries united for each index of the result, for any
    [dimensions] of the geometry variable.  The index along the other dimensions is
    not used (924-925): [flatten()[0]] takes the first. *)
Definition at_dims (g : geometry) (ds : list string) (ii : list nat) : list nat :=
  map (fun n => match str_index ds n with Ok k => nth k ii 0%nat | Err _ => 0%nat end) (names (g_dims g)).

Definition len_of (g : geometry) (n : string) : nat :=
  match find (fun d => String.eqb (fst d) n) (g_dims g) with Some d => snd d | None => 0%nat end.

Definition to_union (g : geometry) (ds : list string) : list (list nat) :=
  filter (fun idx => negb (g_masked g idx)) (map (at_dims g ds) (indices (map (len_of g) ds))).

Definition unions (g : geometry) (ds : list string) : list (list nat * list (list nat)) :=
  map (fun dst => (dst, to_union g ds))
      (indices (lens (filter (fun d => negb (str_mem (fst d) ds)) (g_dims g) ++ [union_dim]))).

(** The area of the union of the geometries of one rank. *)
Definition union_area (g : geometry) : Q := qsum (map (g_area g) (to_union g (names (g_dims g)))).

(** variable/geom.py:944-951, 1030-1033: the root has filled in the union of all
    ranks by the time its area is taken. *)
Definition size_of (g : geometry) : nat := List.length (indices (lens (g_dims g))).
Definition rank_area (total : Q) (rank : nat) (g : geometry) : Q :=
  let a := match rank with O => total | S _ => union_area g end in
  if Qeq_bool a 0 then inject_Z (Z.of_nat (size_of g)) else a.

Fixpoint number {A} (k : nat) (l : list A) : list (nat * A) :=
  match l with [] => [] | x :: t => (k, x) :: number (S k) t end.

(** variable/geom.py:1038-1045. *)
Definition rank_weights (gs : list geometry) : list Q :=
  let total := qsum (map union_area gs) in
  let areas := map (fun p => rank_area total (fst p) (snd p)) (number 0 gs) in
  map (fun a => a / qmax areas)%Q areas.

(** [numpy.argsort]. *)
Fixpoint sort_in (v : nat -> Q) (k : nat) (l : list nat) : list nat :=
  match l with [] => [k] | h :: t => if Qle_bool (v k) (v h) then k :: h :: t else h :: sort_in v k t end.
Definition argsort (l : list Q) : list nat :=
  fold_right (sort_in (fun k => nth k l 0%Q)) [] (seq 0 (List.length l)).
Definition take (l : list Q) (ks : list nat) : list Q := map (fun k => nth k l 0%Q) ks.

(** variable/geom.py:1051-1071: the values of all ranks, one list for each element; the
    order of the weights is kept from one element to the next (1068). *)
Fixpoint combine_ranks (w : list Q) (elements : list (list Q)) : list Q :=
  match elements with
  | [] => []
  | vals :: t =>
      let order := argsort vals in
      let w' := take w order in
      (qsum (map (fun p => fst p * snd p) (combine (take vals order) w')) / qsum w' :: combine_ranks w' t)%Q
  end.

(** The values of all ranks, element by element. *)
Fixpoint transpose (n : nat) (rows : list (list Q)) : list (list Q) :=
  match n with O => [] | S k => map (hd 0%Q) rows :: transpose k (map (@tl Q) rows) end.

(** variable/geom.py:1027-1071 with more than one rank: the values of the variables on the root,
    one variable after the other. *)
Definition parallel_average (parts : list (geometry * list variable)) : res (list Q) :=
  do local <- map_res (fun p => spatial_average (fst p) (snd p)) parts;
  let rows := map (fun r => flat_map (fun a => map fst (a_vals a)) r) local in
  let n := match rows with r :: _ => List.length r | [] => 0%nat end in
  Ok (combine_ranks (rank_weights (map fst parts)) (transpose n rows)).
