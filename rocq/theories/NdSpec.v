(** Vocabulary of C16-C20 and C46 (broadcasting part). *)
From Verif Require Import Py Spec NdModel.

(** [l'] is [l] with the elements at positions [i] and [j] exchanged. *)
Definition Exchanged {A} (i j : nat) (l l' : list A) : Prop :=
  List.length l' = List.length l /\ (i < List.length l)%nat /\ (j < List.length l)%nat /\
  nth_error l' i = nth_error l j /\ nth_error l' j = nth_error l i /\
  forall k, k <> i -> k <> j -> nth_error l' k = nth_error l k.

(** Exchanging along a chain, one pair after the other. *)
Fixpoint ExchangedAlong {A} (chain : list (nat * nat)) (l l' : list A) : Prop :=
  match chain with
  | [] => l' = l
  | (i, j) :: t => exists m, Exchanged i j l m /\ ExchangedAlong t m l'
  end.

(** Size of a named dimension after broadcasting: new names get size one. *)
Definition size_after (src_names : list string) (sz : string -> Z) (n : string) : Z :=
  if str_mem n src_names then sz n else 1.

(** Two arrays have the same shape and elements. *)
Definition SameArray {A} (a b : nd A) : Prop :=
  nd_shape a = nd_shape b /\ forall idx, IndexOf (nd_shape a) idx -> nd_at a idx = nd_at b idx.

(** Two variables have the same dimensions, values and mask. *)
Definition SameVar {A} (v w : nvar A) : Prop :=
  nv_dims v = nv_dims w /\ SameArray (nv_value v) (nv_value w) /\
  match nv_mask v, nv_mask w with
  | None, None => True
  | Some m, Some m' => SameArray m m'
  | _, _ => False
  end.

(** A variable whose arrays have the shape given by its dimensions, which have
    different names. *)
Definition GoodVar {A} (v : nvar A) : Prop :=
  NoDup (nv_names v) /\ Forall (fun n => 0 <= n) (nv_shape v) /\ nd_shape (nv_value v) = nv_shape v /\
  match nv_mask v with None => True | Some m => nd_shape m = nv_shape v end.

(** Is the element masked?  No mask means nothing is. *)
Definition masked {A} (v : nvar A) (idx : list Z) : bool :=
  match nv_mask v with None => false | Some m => nd_at m idx end.

(** C19.  A history of mask settings: the mask given ([None] for no mask) and the
    update flag.  An element is masked afterwards iff some call masked it (or it
    was masked at the start) and no later call replaced the mask. *)
Definition gives (m : option (nd bool)) (idx : list Z) : bool := match m with None => false | Some a => nd_at a idx end.
Definition MaskedAfter (start : bool) (calls : list (option (nd bool) * bool)) (idx : list Z) : Prop :=
  (start = true /\ Forall (fun c => snd c = true) calls) \/
  exists before m update after, calls = before ++ (m, update) :: after /\ gives m idx = true /\
    Forall (fun c => snd c = true) after.

(** C20.  The source index [s] and the target index [t] have the same coordinate
    on every dimension they share. *)
Definition Agree (names_src names_dst : list string) (s t : list Z) : Prop :=
  forall n p q, nth_error names_src p = Some n -> nth_error names_dst q = Some n -> nth_error s p = nth_error t q.

(** Two orders of the same, different names. *)
Definition SameNames (a b : list string) : Prop := NoDup a /\ NoDup b /\ forall x, In x a <-> In x b.

(** A variable before and after the mask of [source] was cascaded to it: nothing
    happens without a shared dimension; otherwise its elements are masked that agree
    with a masked element of the source on the shared dimensions, and those that
    were masked before, unless the mask is to be replaced and the dimensions are
    the same. *)
Definition Cascaded {A} (source : nvar A) (update : bool) (v v' : nvar A) : Prop :=
  nv_dims v' = nv_dims v /\ nv_value v' = nv_value v /\
  ((forall n, In n (nv_names source) -> ~ In n (nv_names v)) -> v' = v) /\
  ((exists n, In n (nv_names source) /\ In n (nv_names v)) ->
   match nv_mask source with
   | None => v' = v
   | Some _ => forall t, IndexOf (nv_shape v) t ->
      (masked v' t = true <->
       ((update = true \/ nv_names source <> nv_names v) /\ masked v t = true) \/
       exists s, IndexOf (nv_shape source) s /\ masked source s = true /\ Agree (nv_names source) (nv_names v) s t)
   end).

(** C16.  The element in row [i] and column [j]. *)
Definition cell {A} (m : list (list A)) (i j : nat) : option A :=
  match nth_error m i with None => None | Some row => nth_error row j end.
