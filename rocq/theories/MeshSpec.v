(** What the properties of unstructured meshes say, without the code's helpers. *)
From Verif Require Import Py CoordSpec MeshModel.
Local Close Scope Q_scope.
Local Open Scope Z_scope.

(** ** Rings *)

(** Twice the area enclosed by a closed ring, positive if counter-clockwise. *)
Definition cross (a b : vertex) : Z := fst a * snd b - fst b * snd a.
Definition twice_area (r : ring) : Z := zsum (map (fun p => cross (fst p) (snd p)) (combine r (tl r))).

(** A closed ring of at least three vertices; the closing vertex is there once. *)
Definition ClosedRing (r : ring) : Prop :=
  exists v m, r = (v :: m ++ [v])%list /\ (2 <= List.length m)%nat /\ hd v m <> v /\ last m v <> v.

(** [r'] is [r], run through counter-clockwise. *)
Definition CounterClockwise (r r' : ring) : Prop := (r' = r \/ r' = rev r) /\ 0 <= twice_area r'.

(** [r] is the closed ring through the vertices [vs]. *)
Definition Closes (vs : list vertex) (r : ring) : Prop :=
  (3 <= List.length vs)%nat /\ (4 <= List.length r)%nat /\
  exists v m, vs = (v :: m)%list /\ ((last m v = v /\ r = vs) \/ (last m v <> v /\ r = (vs ++ [v])%list)).

(** ** Geometries *)

(** Arrays of polygons and multi-polygons without holes. *)
Definition PlainPolygon (p : polygon) : Prop := holes p = [] /\ ClosedRing (exterior p).
Definition PlainPolygons (g : geom) : Prop :=
  match g with
  | GPolygon p => PlainPolygon p
  | GMultiPolygon ps => ps <> [] /\ Forall PlainPolygon ps
  | _ => False
  end.
Definition Multi (g : geom) : Prop := match g with GMultiPolygon _ => True | _ => False end.
Definition parts (g : geom) : list polygon := match g with GPolygon p => [p] | GMultiPolygon ps => ps | _ => [] end.

(** [g'] has the parts of [g], in the same order, each run through counter-clockwise. *)
Definition SameParts (g g' : geom) : Prop :=
  Forall2 (fun p p' => holes p' = [] /\ CounterClockwise (exterior p) (exterior p')) (parts g) (parts g').

(** ** Meshes *)

(** The entries of a row are the numbers of the vertices, counted from [start]. *)
Definition Draws (nodes : list vertex) (start : Z) (row : list Z) (vs : list vertex) : Prop :=
  Forall2 (fun i v => start <= i /\ nth_error nodes (Z.to_nat (i - start)) = Some v) row vs.

(** A row of the connectivity is the polygon or, when there are multi-part
    geometries, the multi-polygon [g]. *)
Definition Depicts (nodes : list vertex) (start : Z) (multi : option Z) (row : list Z) (g : geom) : Prop :=
  match multi with
  | None => exists vs r, Draws nodes start row vs /\ Closes vs r /\ g = GPolygon (mkpoly r [])
  | Some v => exists pieces rings, row = join v pieces /\ pieces <> [] /\
      Forall2 (fun piece r => exists vs, Draws nodes start piece vs /\ Closes vs r) pieces rings /\
      g = GMultiPolygon (map (fun r => mkpoly r []) rings)
  end.

(** The rows of the elements of a connectivity. *)
Fixpoint split_by (counts : list Z) (conn : list Z) : list (list Z) :=
  match counts with
  | [] => []
  | c :: t => firstn (Z.to_nat c) conn :: split_by t (skipn (Z.to_nat c) conn)
  end.
Definition rows_of (s : storage) : list (list Z) :=
  match s with
  | Ragged rows | Table rows => rows
  | Counted conn counts => split_by counts conn
  | CountedTable rows counts => map (fun p => firstn (Z.to_nat (snd p)) (fst p)) (combine rows counts)
  end.

(** Element [k] is masked. *)
Definition Masked (mask : option (list bool)) (k : nat) : Prop := exists m, mask = Some m /\ nth_error m k = Some true.

(** What should be read: nothing where masked, the geometry elsewhere. *)
Definition Shows (mask : option (list bool)) (gs : list geom) (l : list (option geom)) : Prop :=
  List.length l = List.length gs /\
  forall k g, nth_error gs k = Some g ->
    (Masked mask k -> nth_error l k = Some None) /\ (~ Masked mask k -> nth_error l k = Some (Some g)).

(** A mesh object of polygons whose elements are [gs]. *)
Definition Mesh (g : gc) (gs : list geom) : Prop :=
  g_point g = false /\ exists s, g_index g = Some s /\
  Forall2 (Depicts (g_nodes g) (start_index g) (g_multi g)) (rows_of s) gs /\
  (forall v, g_multi g = Some v -> v < 0) /\ 0 <= start_index g /\
  (forall m, g_mask g = Some m -> List.length m = List.length gs).

(** The connectivity of a UGRID file or object; of an ESMF file in which all
    connections are in one vector. *)
Definition Ugrid (g : gc) : Prop := exists rows, g_index g = Some (Ragged rows) \/ g_index g = Some (Table rows).
Definition EsmfVector (g : gc) (conn counts : list Z) : Prop :=
  g_index g = Some (Counted conn counts) /\ Forall (fun c => 0 <= c) counts /\ zsum counts = zlen conn.

(** The elements [k] with a property, in order. *)
Inductive Chosen {A} (P : nat -> A -> Prop) : nat -> list A -> list A -> Prop :=
| chosen_nil k : Chosen P k [] []
| chosen_in k x l l' : P k x -> Chosen P (S k) l l' -> Chosen P k (x :: l) (x :: l')
| chosen_out k x l l' : ~ P k x -> Chosen P (S k) l l' -> Chosen P k (x :: l) l'.

(** The last of the nodes is used by an element. *)
Definition LastNodeUsed (g : gc) : Prop :=
  g_nodes g <> [] /\ exists s, g_index g = Some s /\ In (start_index g + zlen (g_nodes g) - 1) (concat (rows_of s)).
(** Every node is used by an element. *)
Definition AllNodesUsed (g : gc) : Prop :=
  exists s, g_index g = Some s /\ forall k, (k < List.length (g_nodes g))%nat -> In (start_index g + Z.of_nat k) (concat (rows_of s)).

(** The part of a mesh on one process, in a ragged array, whose elements are [gs]. *)
Definition RankMesh (start : Z) (multi : option Z) (g : gc) (gs : list geom) : Prop :=
  Mesh g gs /\ start_index g = start /\ g_multi g = multi /\ exists rows, g_index g = Some (Ragged rows).
