(** Model of the preparation of polygons for unstructured files (variable/geom.py):
    removing self-intersections, splitting polygons with holes and splitting polygons with
    many nodes.

    Polygons are an abstract type: the geometry library gives their holes, bounds,
    validity, exterior coordinates, and their intersections with boxes. *)
From Coq Require Import QArith.
From Verif Require Import Py ChunkModel.
Local Close Scope Q_scope.
Local Open Scope Z_scope.

(** What an operation of the geometry library returns: a polygon, several, a collection (or
    a single line or point) that holds other than polygons beside the polygons listed, or an
    empty geometry. *)
Inductive geometry (P : Type) := Single (p : P) | Several (l : list P) | Mixed (l : list P) | Nothing.
Arguments Single {P} p.
Arguments Several {P} l.
Arguments Mixed {P} l.
Arguments Nothing {P}.
Definition polygons {P} (g : geometry P) : list P :=
  match g with Single p => [p] | Several l | Mixed l => l | Nothing => [] end.

(** [int(np.ceil(a / b))] for integers. *)
Definition ceil_div (a b : Z) : Z := - ((- a) / b).
(** [int(np.ceil(np.sqrt(n)))] for a positive integer, in exact arithmetic. *)
Definition ceil_sqrt (n : Z) : Z := if Z.sqrt n * Z.sqrt n =? n then Z.sqrt n else Z.sqrt n + 1.

Section Polygons.
Variable P H V : Type.
Variable holes : P -> list H.
Variable hole_centroid : H -> Q * Q.
Variable bounds : P -> qbox.
Variable cut : P -> qbox -> geometry P.
Variable meets : P -> qbox -> bool.
Variable node_count : P -> Z.
(** What the constructor of a multi-polygon raises for members that are not polygons; it
    depends on the version of the library. *)
Variable member_exc : exc.

(** [MultiPolygon(l)]: empty members are dropped. *)
Fixpoint multipolygon (l : list (geometry P)) : res (list P) :=
  match l with
  | [] => Ok []
  | Single p :: t => do r <- multipolygon t; Ok (p :: r)
  | Nothing :: t => multipolygon t
  | _ :: _ => Err member_exc
  end.

(** geom.py:53, 66-76 [create_split_vector_dict] and 78-89 [create_split_polygons] of the
    splitter.  Simplified: the bounds of the buffered geometry are the bounds moved by the
    width of the buffer. *)
Definition buffer_split : Q := 1 # 1000000.
Definition interior_boxes (p : P) (h : H) : list qbox :=
  let '(minx0, miny0, maxx0, maxy0) := bounds p in
  let minx := (minx0 - buffer_split)%Q in let miny := (miny0 - buffer_split)%Q in
  let maxx := (maxx0 + buffer_split)%Q in let maxy := (maxy0 + buffer_split)%Q in
  let '(icx, icy) := hole_centroid h in
  [(minx, miny, icx, icy); (icx, miny, maxx, icy); (icx, icy, maxx, maxy); (minx, icy, icx, maxy)].

(** geom.py:91-98 [split(is_recursing=True)]. *)
Definition split_part (p : P) : res (list P) :=
  multipolygon (flat_map (fun h => map (cut p) (interior_boxes p h)) (holes p)).

Definition interior_count (g : list P) : nat := list_sum (map (fun p => length (holes p)) g).  (* 40-49 *)
(** geom.py:55-64, 91-117: the splitter of a polygon or multi-polygon and its [split]. *)
Definition split (g : list P) : res (list P) :=
  if (interior_count g =? 0)%nat then Err NoInteriorsError else
  do ret <- map_res (fun p => match holes p with [] => Ok [p] | _ => split_part p end) g;
  Ok (concat ret).

(** geom.py:1347-1352 [get_node_count]. *)
Definition get_node_count (g : list P) : Z := zsum (map node_count g).

(** geom.py:1366-1389: the pieces of one polygon with too many nodes.  The members of a
    multi-geometry are taken one by one. *)
Definition split_shape (n node_threshold : Z) : Z :=
  let n_splits := ceil_div n node_threshold in
  if n_splits =? 1 then 2 else ceil_sqrt n_splits.
Definition members (g : geometry P) : list (geometry P) :=
  match g with
  | Several l => map Single l
  | Mixed l => map Single l ++ [Mixed []]
  | _ => [g]
  end.
Definition node_splits (p : P) (node_threshold : Z) : list (geometry P) :=
  let s := split_shape (node_count p) node_threshold in
  flat_map (fun b => if meets p b then members (cut p b) else [])
    (create_split_polygons (bounds p) (s, s) (0, 0, 0, 0)%Q).
(** geom.py:1355-1398 [get_split_polygon_by_node_threshold]. *)
Definition split_by_node_threshold (g : list P) (node_threshold : Z) : res (list P) :=
  multipolygon (flat_map (fun p => if node_threshold <? node_count p then node_splits p node_threshold else [Single p]) g).

(** ** Self-intersections *)
Variable veqb : V -> V -> bool.
(** The exterior ring without the closing coordinate, the polygon with a given ring and no
    holes, and validity. *)
Variable coords : P -> list V.
Variable of_ring : list V -> res P.
Variable valid : P -> bool.
Variable valid_multi : list P -> bool.
Variable buffer0 : P -> geometry P.
Definition is_valid (g : geometry P) : bool :=
  match g with Single p => valid p | Several l => valid_multi l | _ => true end.

(** geom.py:1449-1460: the nodes found more than once and the index at which each is
    removed. *)
Definition scan_inner (c : list V) (idx : nat) (x : V) (st : list V * list nat) : list V * list nat :=
  snd (fold_left (fun (a : nat * (list V * list nat)) y =>
         let ctr := if veqb x y then S (fst a) else fst a in
         let '(nodes, indices) := snd a in
         (ctr, if (1 <? ctr)%nat && negb (existsb (fun n => veqb n x) nodes) then (nodes ++ [x], indices ++ [idx]) else (nodes, indices)))
       c (0%nat, st)).
Definition scan (c : list V) : list V * list nat :=
  fold_left (fun st (ix : nat * V) => scan_inner c (fst ix) (snd ix) st) (combine (seq 0 (length c)) c) ([], []).
(** geom.py:1465-1473. *)
Definition remaining (c : list V) (indices : list nat) : list V :=
  map snd (filter (fun ix : nat * V => negb (existsb (Nat.eqb (fst ix)) indices)) (combine (seq 0 (length c)) c)).

(** geom.py:1438-1481 [do_remove_self_intersects]. *)
Definition remove_once (p : P) : res P :=
  match holes p with
  | _ :: _ => Err SelfIntersectsRemovalError                                            (* 1445-1446 *)
  | [] => match scan (coords p) with
          | ([], _) => Ok p                                                             (* 1462-1463 *)
          | (_, indices) => of_ring (remaining (coords p) indices)
          end
  end.
Definition do_remove_self_intersects (p : P) : res (geometry P) :=
  do p1 <- remove_once p;
  if valid p1 then Ok (Single p1) else
  let g1 := buffer0 p1 in
  if is_valid g1 then Ok g1 else
  match g1 with                                                                         (* 1477-1478 *)
  | Single q =>
      do p2 <- remove_once q;
      if valid p2 then Ok (Single p2) else
      let g2 := buffer0 p2 in
      if is_valid g2 then Ok g2 else Err SelfIntersectsRemovalError
  | _ => Err ValueError                                                                 (* 1439-1444 *)
  end.
(** geom.py:1484-1490 [do_remove_self_intersects_multi]. *)
Definition do_remove_self_intersects_multi (g : geometry P) : res (geometry P) :=
  match g with
  | Several l =>
      do r <- map_res do_remove_self_intersects l;
      do m <- multipolygon r; Ok (Several m)
  | Single p => do_remove_self_intersects p
  | _ => Err ValueError
  end.

(** ** Preparing the geometries of a variable *)
(** geom.py:475-517, one polygon or multi-polygon; [None] if its index is among those
    removed. *)
Record split_options := mkso {
  so_remove_self_intersects : bool;
  so_split_interiors : bool;
  so_node_threshold : option Z;
  so_allow_splitting_excs : bool
}.
Definition prepare (o : split_options) (g : geometry P) : res (option (list P)) :=
  let finish (l : list P) :=
    match so_node_threshold o with
    | Some thr =>
        if thr <? get_node_count l then
          match split_by_node_threshold l thr with
          | Ok l' => Ok (Some l')
          | Err TypeError => if so_allow_splitting_excs o then Ok None else Err TypeError
          | Err e => Err e
          end
        else Ok (Some l)
    | None => Ok (Some l)
    end in
  let interiors (l : list P) :=
    if (interior_count l =? 0)%nat then finish l                                        (* 489-490 *)
    else if so_split_interiors o then
      match split l with
      | Ok l' => finish l'
      | Err ValueError => if so_allow_splitting_excs o then Ok None else Err ValueError
      | Err e => Err e
      end
    else Err ValueError in                                                              (* 504 *)
  if so_remove_self_intersects o then
    match do_remove_self_intersects_multi g with
    | Ok g' => interiors (polygons g')
    | Err SelfIntersectsRemovalError => if so_allow_splitting_excs o then Ok None else interiors (polygons g)   (* 482-485 *)
    | Err e => Err e
    end
  else interiors (polygons g).

(** geom.py:440-444, 467-561: the element index, one entry for each geometry.  Simplified:
    instead of the indices of the nodes the entry holds the parts.  The entries of indices
    that were removed keep the zero of the new array. *)
Inductive entry := Zero | Parts (l : list P).
Definition element_index (o : split_options) (gs : list (geometry P)) : res (list entry) :=
  map_res (fun g => do r <- prepare o g; Ok (match r with Some l => Parts l | None => Zero end)) gs.
End Polygons.
