(** Vocabulary of C47. *)
From Verif Require Import Py SpatialModel.

(** The identifier a call files its field under: that of its container's
    geometry, [None] if there is none. *)
Definition key_of {V} (c : call V) : option Z :=
  match snd (fst c) with Some c => c_ugid c | None => None end.
Definition field_of {V} (c : call V) : sfield V := fst (fst c).
Definition forced {V} (c : call V) : bool := snd c.

(** The call is about the field [n] of the container [k]. *)
Definition Concerns {V} (k : option Z) (n : string) (c : call V) : Prop := key_of c = k /\ f_name (field_of c) = n.

(** After the calls the container [k] has the field [f] under the name [n]: some
    call added it, which was forced or the first about that name, and no later
    call about that name was forced. *)
Definition Filed {V} (calls : list (call V)) (k : option Z) (n : string) (f : sfield V) : Prop :=
  exists before c after, calls = (before ++ c :: after)%list /\ Concerns k n c /\ field_of c = f /\
    (forced c = true \/ Forall (fun b => ~ Concerns k n b) before) /\
    Forall (fun a => Concerns k n a -> forced a = false) after.

(** The containers are new: they have no fields yet. *)
Definition NewContainers {V} (calls : list (call V)) : Prop :=
  Forall (fun c : call V => match snd (fst c) with Some c => c_children c = [] | None => True end) calls.

(** The different elements of a list in the order of their first appearance. *)
Definition firsts {X} (dec : forall a b : X, {a = b} + {a <> b}) (l : list X) : list X :=
  fold_left (fun seen x => if in_dec dec x seen then seen else (seen ++ [x])%list) l [].
Definition key_dec (a b : option Z) : {a = b} + {a <> b}.
Proof. decide equality. apply Z.eq_dec. Defined.

(** The order of iteration: containers as they first appear, within each the
    names as they first appear. *)
Definition order {V} (calls : list (call V)) : list (option Z * string) :=
  flat_map (fun k => map (fun n => (k, n))
    (firsts string_dec (map (fun c => f_name (field_of c)) (filter (fun c => key_eqb (key_of c) k) calls))))
    (firsts key_dec (map key_of calls)).
