(** What a spatial average should be. *)
From Coq Require Import QArith.
From Verif Require Import Py AverModel.
Local Close Scope Q_scope.
Local Open Scope Z_scope.

(** The index of a cell of the geometry variable. *)
Definition InGrid (ds : list (string * nat)) (idx : list nat) : Prop := Forall2 (fun i d => (i < snd d)%nat) idx ds.

(** The index [p] along the dimensions [ds] has the indices [sp] along the dimensions
    named in [gn] and [it] along the others. *)
Inductive Splits (gn : list string) : list (string * nat) -> list nat -> list nat -> list nat -> Prop :=
| splits_nil : Splits gn [] [] [] []
| splits_geom n k ds i p it sp : In n gn -> Splits gn ds p it sp -> Splits gn ((n, k) :: ds) (i :: p) it (i :: sp)
| splits_other n k ds i p it sp : ~ In n gn -> Splits gn ds p it sp -> Splits gn ((n, k) :: ds) (i :: p) (i :: it) sp.

(** [l] lists the things with property [P], each once. *)
Definition Lists {A} (P : A -> Prop) (l : list A) : Prop := NoDup l /\ forall x, In x l <-> P x.

(** [m] is the mean of [x] over [l] with weights [w]. *)
Definition IsMean {A} (w x : A -> Q) (l : list A) (m : Q) : Prop :=
  (0 < qsum (map w l) /\ m * qsum (map w l) == qsum (map (fun a => w a * x a) l))%Q.

(** A geometry without an area counts as 1. *)
Definition Weight (g : geometry) (idx : list nat) : Q := if Qeq_bool (g_area g idx) 0 then 1%Q else g_area g idx.

(** The cell has a geometry and, at [it], a value. *)
Definition Live (g : geometry) (v : variable) (it idx : list nat) : Prop :=
  InGrid (g_dims g) idx /\ g_masked g idx = false /\
  exists p, Splits (names (g_dims g)) (v_dims v) p it idx /\ v_masked v p = false.

(** The value of the cell at [it] is [x idx]. *)
Definition ValueAt (g : geometry) (v : variable) (it : list nat) (x : list nat -> Q) : Prop :=
  forall idx p, Splits (names (g_dims g)) (v_dims v) p it idx -> x idx = v_val v p.

(** Areas are not negative and dimensions have different names. *)
Definition WellFormed (g : geometry) : Prop :=
  (forall idx, 0 <= g_area g idx)%Q /\ NoDup (names (g_dims g)).

(** The dimensions of the variable other than those of the geometries. *)
Definition Other (g : geometry) (v : variable) : list (string * nat) :=
  filter (fun d => negb (existsb (String.eqb (fst d)) (names (g_dims g)))) (v_dims v).

(** The variable has all dimensions of the geometries, in their order, and others. *)
Definition Regular (g : geometry) (v : variable) : Prop :=
  filter (fun d => existsb (String.eqb (fst d)) (names (g_dims g))) (v_dims v) = g_dims g /\ Other g v <> [].

(** The variable has the dimensions of the geometries and no others. *)
Definition Static (g : geometry) (v : variable) : Prop := v_dims v = g_dims g.

(** The position of an index in row-major order. *)
Fixpoint position (ds : list (string * nat)) (idx : list nat) : nat :=
  match ds, idx with
  | _ :: ds', i :: idx' => (i * fold_right Nat.mul 1 (lens ds') + position ds' idx')%nat
  | _, _ => 0%nat
  end.

(** A field distributed over ranks: on each rank, its geometries and its part of the variable. *)
Definition Parts (od : list (string * nat)) (parts : list (geometry * variable)) : Prop :=
  forall g v, In (g, v) parts -> WellFormed g /\ (Regular g v \/ Static g v) /\ Other g v = od.

(** The cell with a rank and an index on that rank exists. *)
Definition PartCell (parts : list (geometry * variable)) (c : nat * list nat) : Prop :=
  exists g v, nth_error parts (fst c) = Some (g, v) /\ InGrid (g_dims g) (snd c).

(** Its value at [it] is [x c]. *)
Definition PartValue (parts : list (geometry * variable)) (it : list nat) (x : nat * list nat -> Q) : Prop :=
  forall r g v idx p, nth_error parts r = Some (g, v) -> Splits (names (g_dims g)) (v_dims v) p it idx -> x (r, idx) = v_val v p.

(** All geometries are points, nothing is masked and no rank is empty. *)
Definition Points (parts : list (geometry * variable)) : Prop :=
  forall g v, In (g, v) parts ->
    (exists idx, InGrid (g_dims g) idx) /\
    (forall idx, g_area g idx = 0%Q) /\ (forall idx, g_masked g idx = false) /\ (forall p, v_masked v p = false).
