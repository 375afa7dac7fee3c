(** Vocabulary of C65. *)
From Verif Require Import Py Spec DimensionModel DimensionSpec NdModel SliceModel.

(** The index [src] of an array is the one the selections take the index [idx]
    of the result from: on every axis, element [i] of the positions selected. *)
Inductive From_ : list (list Z) -> list Z -> list Z -> Prop :=
| From_nil : From_ [] [] []
| From_cons p i x ps idx src : 0 <= i -> nth_error p (Z.to_nat i) = Some x -> From_ ps idx src ->
    From_ (p :: ps) (i :: idx) (x :: src).

(** [a'] holds the elements of [a] at the selected positions, axis by axis. *)
Definition Selected {A} (sels : list (list Z)) (a a' : nd A) : Prop :=
  nd_shape a' = map zlen sels /\ forall idx src, From_ sels idx src -> nd_at a' idx = nd_at a src.
Definition Both {A B} (R : A -> B -> Prop) (o : option A) (o' : option B) : Prop :=
  match o, o' with None, None => True | Some a, Some a' => R a a' | _, _ => False end.

(** The positions of a dimension of length [len] a slice dictionary selects:
    those Python indexing selects, all of them if the dictionary has no entry. *)
Definition Positions (dslice : list (string * item)) (n : string) (len : Z) (ps : list Z) : Prop :=
  match dget String.eqb dslice n with
  | None => ps = zrange 0 len
  | Some i => py_select (zrange 0 len) (item_raw i) = Ok ps
  end.

(** A collection: dimensions with consistent source indices, filed under their names; every variable with different
    dimensions of the collection and arrays of their lengths. *)
Definition Congruent {A} (c : scoll A) : Prop :=
  NoDup (map fst (sc_dims c)) /\ (forall n d, In (n, d) (sc_dims c) -> d_name d = n /\ exists l, Represents d l) /\
  NoDup (map fst (sc_vars c)) /\
  forall k v, In (k, v) (sc_vars c) -> NoDup (sv_dims v) /\
    exists shape, Forall2 (fun n s => exists d, In (n, d) (sc_dims c) /\ s = dim_len d) (sv_dims v) shape /\
      (forall a, sv_value v = Some a -> nd_shape a = shape) /\ (forall m, sv_mask v = Some m -> nd_shape m = shape).

(** Selected by an index array with gaps or by a boolean array. *)
Definition Gap (l : list Z) : Prop :=
  exists k x y, nth_error l k = Some x /\ nth_error l (S k) = Some y /\ y - x > 1.
Definition ByArray (raw : rawslc) : Prop :=
  match raw with RBools _ => True | RInts l => Gap l | _ => False end.

(** The slice dictionaries the property is proved for: entries for dimensions of
    the collection, in range; of the dimensions of one variable at most one is
    selected by an array; for variables with one dimension no [None], and lists
    only without gaps. *)
Definition Sliceable {A} (c : scoll A) (dslice : list (string * item)) : Prop :=
  sc_dims c <> [] /\ NoDup (map fst dslice) /\
  (forall n i, In (n, i) dslice -> exists d, In (n, d) (sc_dims c) /\ 0 < dim_len d /\ InRange (dim_len d) (item_raw i)) /\
  (forall k v, In (k, v) (sc_vars c) ->
    (forall n n' i i', In n (sv_dims v) -> In n' (sv_dims v) -> In (n, i) dslice -> In (n', i') dslice ->
       ByArray (item_raw i) -> ByArray (item_raw i') -> n = n') /\
    (forall n i, sv_dims v = [n] -> In (n, i) dslice ->
       match i with
       | Given RNone | Listed RNone => False
       | Given _ => True
       | Listed (RInts l) => ~ Gap l
       | Listed (RBools _) => False
       | Listed _ => True
       end)).

(** What slicing a collection means. *)
Definition SlicedTo {A} (c : scoll A) (dslice : list (string * item)) (c' : scoll A) : Prop :=
  map fst (sc_dims c') = map fst (sc_dims c) /\
  (forall n d, In (n, d) (sc_dims c) -> exists d', In (n, d') (sc_dims c') /\
     match dget String.eqb dslice n with
     | None => d' = d
     | Some i => d_name d' = n /\ forall l, Represents d l -> exists l', py_select l (item_raw i) = Ok l' /\ Represents d' l'
     end) /\
  Forall2 (fun kv kv' => fst kv' = fst kv /\ sv_dims (snd kv') = sv_dims (snd kv) /\
     exists sels, Forall2 (fun n ps => exists d, In (n, d) (sc_dims c) /\ Positions dslice n (dim_len d) ps)
                          (sv_dims (snd kv)) sels /\
       Both (Selected sels) (sv_value (snd kv)) (sv_value (snd kv')) /\
       Both (Selected sels) (sv_mask (snd kv)) (sv_mask (snd kv'))) (sc_vars c) (sc_vars c').

(** The slice dictionary given by one slice per dimension; [None] stands for
    everything. *)
Definition as_given (i : item) : item := Given (match item_raw i with RNone => RSlice slice_none | r => r end).
