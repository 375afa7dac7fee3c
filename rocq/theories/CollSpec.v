(** What consistency of a collection means, and the histories it is claimed for. *)
From Verif Require Import Py CollModel.
Local Open Scope string_scope.
Local Open Scope Z_scope.

(** Variable [v] is listed in collection [c] under the name [k]. *)
Definition Listed (h : heap) (c : Z) (k : string) (v : Z) : Prop := In (k, v) (c_vars (h_coll h c)).
(** Dimension [d] is registered in collection [c] under the name [n]. *)
Definition Registered (h : heap) (c : Z) (n : string) (d : Z) : Prop := In (n, d) (c_dims (h_coll h c)).

(** Every variable is listed once, under its own name, and has the collection for
    parent; its dimensions are registered, under their names, and a dimension of
    fixed size has the size of the variable's value along it. *)
Record Consistent (h : heap) (c : Z) : Prop := {
  cs_once : NoDup (map fst (c_vars (h_coll h c)));
  cs_dims_once : NoDup (map fst (c_dims (h_coll h c)));
  cs_name : forall k v, Listed h c k v -> v_name (h_var h v) = k;
  cs_parent : forall k v, Listed h c k v -> v_parent (h_var h v) = Some c;
  cs_dim_name : forall n d, Registered h c n d -> d_name (h_dim h d) = n;
  cs_registered : forall k v names, Listed h c k v -> v_dims (h_var h v) = Some names ->
    forall n, In n names -> exists d, Registered h c n d;
  cs_sizes : forall k v names shape, Listed h c k v -> v_dims (h_var h v) = Some names -> v_value (h_var h v) = Some shape ->
    Forall2 (fun s n => forall d, Registered h c n d -> d_size (h_dim h d) = None \/ d_size (h_dim h d) = Some s) shape names }.

(** Names are disjoint. *)
Definition Apart (h : heap) (c s : Z) : Prop := forall k v w, Listed h c k v -> Listed h s k w -> False.

(** Histories, with the collections in use.  A collection whose variables were
    moved into another is no longer used, names given are new, a dimension shared
    with another collection in use is not renamed, and nothing is forced. *)
Inductive Reach : heap -> list Z -> Prop :=
| RStart : Reach empty_heap []
| RNewColl h L h' c : Reach h L -> new_coll no_coll h = (h', Ok c) -> Reach h' (c :: L)
| RNewDim h L h' d x : Reach h L -> new_dim x h = (h', Ok d) -> Reach h' L
| RAddDim h L h' c d check r :
    Reach h L -> In c L -> d < h_next h -> add_dimension c d false check h = (h', r) -> Reach h' L
| RNewVar h L h' c name value dims r :
    Reach h L -> In c L -> (forall v, ~ Listed h c name v) ->
    (forall l d, dims = Some l -> In (DObj d) l -> d < h_next h) ->
    new_variable name value dims (Some c) h = (h', r) -> r <> Err ValueError -> Reach h' L
| RNewLone h L h' name value dims v c :
    Reach h L -> (forall l d, dims = Some l -> In (DObj d) l -> d < h_next h) ->
    new_variable name value dims None h = (h', Ok v) -> v_parent (h_var h' v) = Some c -> Reach h' (c :: L)
| RAddVar h L h' c s k v :
    Reach h L -> In c L -> In s L -> c <> s -> Listed h s k v -> Apart h c s ->
    add_variable c v false h = (h', Ok tt) -> Reach h' (filter (fun x => negb (x =? s)) L)
| RAddVarErr h L h' c s k v e :
    Reach h L -> In c L -> In s L -> c <> s -> Listed h s k v -> Apart h c s ->
    add_variable c v false h = (h', Err e) -> Reach h' L
| RCopy h L h' c c' : Reach h L -> In c L -> copy_coll c h = (h', Ok c') -> Reach h' (c' :: L)
| RExtract h L h' c k v keep clean r x :
    Reach h L -> In c L -> Listed h c k v -> extract v keep clean h = (h', Ok r) -> v_parent (h_var h' r) = Some x -> Reach h' (x :: L)
| RExtractErr h L h' c k v keep clean e :
    Reach h L -> In c L -> Listed h c k v -> extract v keep clean h = (h', Err e) -> Reach h' L
| RRemove h L h' c name flag r x :
    Reach h L -> In c L -> remove_variable c name flag h = (h', Ok r) -> v_parent (h_var h' r) = Some x -> Reach h' (x :: L)
| RRemoveErr h L h' c name flag e :
    Reach h L -> In c L -> remove_variable c name flag h = (h', Err e) -> Reach h' L
| RSetName h L h' c k v name r :
    Reach h L -> In c L -> Listed h c k v -> (forall w, ~ Listed h c name w) -> set_name v name h = (h', r) -> Reach h' L
| RRenameDim h L h' c old new r :
    Reach h L -> In c L -> (forall d, ~ Registered h c new d) ->
    (forall s d n, In s L -> s <> c -> Registered h c old d -> ~ Registered h s n d) ->
    rename_dimension c old new h = (h', r) -> Reach h' L
| RSetBounds h L h' c s k v kb b :
    Reach h L -> In c L -> In s L -> c <> s -> Listed h c k v -> Listed h s kb b -> Apart h c s ->
    set_bounds v (Some b) false h = (h', Ok tt) -> Reach h' (filter (fun x => negb (x =? s)) L)
| RSetBoundsErr h L h' c s k v kb b e :
    Reach h L -> In c L -> In s L -> c <> s -> Listed h c k v -> Listed h s kb b -> Apart h c s ->
    set_bounds v (Some b) false h = (h', Err e) -> Reach h' L
| RDropBounds h L h' c k v r :
    Reach h L -> In c L -> Listed h c k v -> set_bounds v None false h = (h', r) -> Reach h' L
| RCreateTag h L h' c tag r : Reach h L -> In c L -> create_tag c tag h = (h', r) -> Reach h' L
| RAppendTag h L h' c tag names create r : Reach h L -> In c L -> append_to_tags c tag names create h = (h', r) -> Reach h' L
| RGetTag h L h' c tag create strict r : Reach h L -> In c L -> get_by_tag c tag create strict h = (h', r) -> Reach h' L.

(** The names that go together: a variable's own and, if asked for, that of its
    bounds. *)
Definition with_bounds_name (x : var) (bounds : bool) : list string :=
  v_name x :: (if bounds then match v_bounds x with Some b => [b] | None => [] end else []).
(** The bounds of a variable can be found. *)
Definition BoundsFound (h : heap) (c v : Z) : Prop := forall b, v_bounds (h_var h v) = Some b -> exists w, Listed h c b w.
(** Dimension name [n] is used by variable [w]. *)
Definition Uses (h : heap) (w : Z) (n : string) : Prop := exists names, v_dims (h_var h w) = Some names /\ In n names.
(** [w'] is [w] moved or copied into [c]. *)
Definition SameIn (c : Z) (h : heap) (w : Z) (h' : heap) (w' : Z) : Prop :=
  h_var h' w' = mkvar (v_name (h_var h w)) (v_dims (h_var h w)) (v_value (h_var h w)) (v_bounds (h_var h w)) (Some c).
(** Collection [c] has not changed between the heaps: its dictionaries, its
    variables, and the names and sizes of its dimensions. *)
Definition Unchanged (h h' : heap) (c : Z) : Prop :=
  h_coll h' c = h_coll h c
  /\ (forall k v, Listed h c k v -> h_var h' v = h_var h v)
  /\ (forall n d, Registered h c n d -> h_dim h' d = h_dim h d).

(** Collection [x] holds [r], a copy of [v] taken out of [c], with its bounds if
    asked for, with exactly the dimensions they use. *)
Definition Taken (h : heap) (c v : Z) (kb : bool) (h' : heap) (x r : Z) : Prop :=
  Consistent h' x /\ Listed h' x (v_name (h_var h v)) r
  /\ (forall n, (exists w, Listed h' x n w) <-> In n (with_bounds_name (h_var h v) kb))
  /\ (forall n w', Listed h' x n w' -> exists w, Listed h c n w /\ SameIn x h w h' w')
  /\ (forall n d, Registered h' x n d <-> Registered h c n d /\ exists k w, Listed h' x k w /\ Uses h' w n).
(** A list of names with one replaced. *)
Definition renamed (old new : string) (l : list string) : list string := map (fun n => if String.eqb n old then new else n) l.

(** ** Tags *)
Definition Tagged (h : heap) (c : Z) (tag : string) (names : list string) : Prop := In (tag, names) (c_tags (h_coll h c)).
(** Some names taken out of a list. *)
Definition minus (l gone : list string) : list string := filter (fun n => negb (existsb (String.eqb n) gone)) l.
(** The variables of a collection with the given names, in this order; names that
    are not there are passed over. *)
Inductive Present (vars : list (string * Z)) : list string -> list Z -> Prop :=
| PresentNil : Present vars [] []
| PresentHere n v names vs : In (n, v) vars -> Present vars names vs -> Present vars (n :: names) (v :: vs)
| PresentGone n names vs : (forall v, ~ In (n, v) vars) -> Present vars names vs -> Present vars (n :: names) vs.

(** ** Names *)
Inductive nop := NSet (name : string) (aliases : list string) | NAlias (a : string).
Definition nstep (x : named) (o : nop) : named :=
  match o with NSet name aliases => named_set x name aliases | NAlias a => append_alias x a end.
(** The last name given. *)
Definition current (first : string) (ops : list nop) : string :=
  fold_left (fun n o => match o with NSet name _ => name | NAlias _ => n end) ops first.
