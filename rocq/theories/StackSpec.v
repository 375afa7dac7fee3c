(** What it means to put variables one after the other. *)
From Verif Require Import Py NdModel Spec StackModel.
Local Open Scope string_scope.
Local Open Scope list_scope.
Local Open Scope Z_scope.

(** The length of a variable along a dimension. *)
Definition along {A} (name : string) (v : var A) : Z :=
  fold_right (fun d n => if String.eqb (d_name d) name then d_len d else n) 0 (v_dims v).

(** Where the [j]th of some variables begins when they are put one after the other, and the
    total length. *)
Definition offset {A} (name : string) (l : list (var A)) (j : nat) : Z := zsum (map (along name) (firstn j l)).
Definition total {A} (name : string) (l : list (var A)) : Z := zsum (map (along name) l).

(** An index with [off] added along the dimension [name]. *)
Fixpoint shifted (name : string) (dims : list dim) (off : Z) (idx : list Z) : list Z :=
  match dims, idx with
  | d :: dims', i :: idx' => (if String.eqb (d_name d) name then i + off else i) :: shifted name dims' off idx'
  | _, _ => []
  end.

Definition is_masked {A} (v : var A) (idx : list Z) : bool := match v_mask v with Some m => nd_at m idx | None => false end.

(** A variable whose arrays have the shape of its dimensions, each dimension once. *)
Record sound {A} (v : var A) : Prop := {
  sd_names : NoDup (dim_names v);
  sd_lens : Forall (fun d => 0 <= d_len d) (v_dims v);
  sd_value : nd_shape (v_value v) = map d_len (v_dims v);
  sd_mask : forall m, v_mask v = Some m -> nd_shape m = map d_len (v_dims v) }.

(** The same dimensions in the same order, and the same lengths but along [name]. *)
Definition alike {A} (name : string) (v w : var A) : Prop :=
  Forall2 (fun d e => d_name d = d_name e /\ (d_name d <> name -> d_len d = d_len e)) (v_dims v) (v_dims w).

(** [r] has the variables [l] one after the other, and nothing else. *)
Record one_after_other {A} (name : string) (l : list (var A)) (r : var A) : Prop := {
  oa_value : forall j v idx, nth_error l j = Some v -> IndexOf (map d_len (v_dims v)) idx ->
    nd_at (v_value r) (shifted name (v_dims v) (offset name l j) idx) = nd_at (v_value v) idx;
  oa_mask : forall j v idx, nth_error l j = Some v -> IndexOf (map d_len (v_dims v)) idx ->
    is_masked r (shifted name (v_dims v) (offset name l j) idx) = is_masked v idx;
  oa_index : forall j v idx, nth_error l j = Some v -> IndexOf (map d_len (v_dims v)) idx ->
    IndexOf (map d_len (v_dims r)) (shifted name (v_dims v) (offset name l j) idx);
  oa_only : forall idx, IndexOf (map d_len (v_dims r)) idx ->
    exists j v idx', nth_error l j = Some v /\ IndexOf (map d_len (v_dims v)) idx' /\ idx = shifted name (v_dims v) (offset name l j) idx' }.

(** A collection has each name once, and each variable under its own name. *)
Definition keyed {A} (c : coll A) : Prop := NoDup (map fst c) /\ Forall (fun nv => v_name (snd nv) = fst nv) c.
