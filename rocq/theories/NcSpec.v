(** What it means that a file holds the arrays that were written: a vocabulary for whole arrays, for
    their parts on ranks or in pieces, and for what a reader sees. *)
From Verif Require Import Py NcModel.
Local Open Scope string_scope.
Local Open Scope Z_scope.

(** A whole array, no matter how it is spread out. *)
Record gdim := mkgdim { g_name : string; g_unlimited : bool; g_len : nat }.
Record gvar := mkgvar {
  gname : string;
  gdims : list gdim;
  gbyte : bool;
  gdefault : Z;
  gfill : Z;
  gvalue : list nat -> Z;
  gmask : list nat -> bool;
  gattrs : list (string * attr);
  gunits : option string }.

(** Positions in an array. *)
Definition in_array (g : gvar) (idx : list nat) : Prop := Forall2 (fun i d => i < g_len d)%nat idx (gdims g).

(** [idx] is in the block of the array held by a part, and its place in that block. *)
Definition in_block (ds : list dim) (idx : list nat) : Prop := Forall2 (fun i d => d_lo d <= i < d_hi d)%nat idx ds.
Definition place (ds : list dim) (idx : list nat) : list nat := map (fun p => fst p - d_lo (snd p))%nat (combine idx ds).

Definition mask_at (m : option (list nat -> bool)) (i : list nat) : bool := match m with Some m => m i | None => false end.

(** [v] is a block of [g] with its values, mask and metadata. *)
Record part_of (g : gvar) (v : var) : Prop := {
  po_name : v_name v = gname g;
  po_dims : Forall2 (fun gd d => d_name d = g_name gd /\ d_unlimited d = g_unlimited gd /\ (d_lo d <= d_hi d <= g_len gd)%nat) (gdims g) (v_dims v);
  po_type : v_byte v = gbyte g /\ v_default v = gdefault g /\ v_fill v = gfill g;
  po_meta : v_attrs v = gattrs g /\ v_units v = gunits g;
  po_value : exists value, v_value v = Some value /\
               forall idx, in_block (v_dims v) idx -> gmask g idx = false -> value (place (v_dims v) idx) = gvalue g idx;
  po_mask : forall idx, in_block (v_dims v) idx -> mask_at (v_mask v) (place (v_dims v) idx) = gmask g idx }.

(** A collection of arrays as a user has it: dictionaries, one length for a dimension's name, no
    empty array. *)
Record proper (G : list gvar) : Prop := {
  pr_names : NoDup (map gname G);
  pr_attrs : forall g, In g G -> NoDup (map fst (gattrs g));
  pr_dims : forall g h d e, In g G -> In h G -> In d (gdims g) -> In e (gdims h) -> g_name d = g_name e -> d = e;
  pr_full : forall g d, In g G -> In d (gdims g) -> (0 < g_len d)%nat }.

(** Parts that together hold everything. *)
Definition parts_of (G : list gvar) (cs : list coll) : Prop :=
  (forall c, In c cs -> Forall2 part_of G (c_vars c)) /\
  forall g idx, In g G -> in_array g idx -> exists c v, In c cs /\ In v (c_vars c) /\ v_name v = gname g /\ in_block (v_dims v) idx.

(** The dimensions of a part know the length of the whole. *)
Definition knows (len : dim -> nat) (G : list gvar) (c : coll) : Prop :=
  Forall2 (fun g v => Forall2 (fun gd d => len d = g_len gd) (gdims g) (v_dims v)) G (c_vars c).

(** No value that is not masked looks like a missing one. *)
Definition no_clash (g : gvar) : Prop :=
  forall idx, in_array g idx -> gmask g idx = false ->
    gvalue g idx <> gfill g /\ gvalue g idx <> gdefault g /\ ~ In ("missing_value", ANum (gvalue g idx)) (gattrs g).

(** The file can tell masked values of [g] from others: any type but a byte, or a fill value, either asked for or needed
    already for the first part [v]. *)
Definition can_mask (g : gvar) (v : var) : Prop :=
  gbyte g = false \/ (exists a, In ("_FillValue", a) (gattrs g)) \/ (forall idx, in_array g idx -> gmask g idx = false) \/
  (gdims g <> [] /\ exists idx, in_block (v_dims v) idx /\ gmask g idx = true).

(** The attributes a file has to show. *)
Definition public (k : string) : Prop := prefix "_" k = false.
Definition shows (g : gvar) (k : string) (a : attr) : Prop :=
  match gunits g with
  | Some u => (k = "units" /\ a = AStr u) \/ (k <> "units" /\ In (k, a) (gattrs g) /\ a <> ANone /\ public k)
  | None => In (k, a) (gattrs g) /\ a <> ANone /\ public k
  end.

(** What a reader sees of an array when it asks for any block of it. *)
Definition block_of (g : gvar) (bounds : list (nat * nat)) : Prop := Forall2 (fun b d => fst b <= snd b <= g_len d)%nat bounds (gdims g).
Definition in_bounds (bounds : list (nat * nat)) (i : list nat) : Prop := Forall2 (fun k b => fst b + k < snd b)%nat i bounds.
Definition shift (bounds : list (nat * nat)) (i : list nat) : list nat := map (fun p => fst p + fst (snd p))%nat (combine i bounds).

Definition reads_dims (f : nfile) (g : gvar) : Prop :=
  forall bounds, block_of g bounds -> exists r, read_variable bounds (gname g) f = Ok r /\
    r_dims r = map (fun d => (g_name d, mkncdim (g_unlimited d) (g_len d))) (gdims g).
Definition reads_values (f : nfile) (g : gvar) : Prop :=
  forall bounds r, block_of g bounds -> read_variable bounds (gname g) f = Ok r ->
    forall i, in_bounds bounds i -> gmask g (shift bounds i) = false -> r_value r i = gvalue g (shift bounds i).
Definition reads_mask (f : nfile) (g : gvar) : Prop :=
  forall bounds r, block_of g bounds -> read_variable bounds (gname g) f = Ok r ->
    forall i, in_bounds bounds i -> mask_at (r_mask r) i = gmask g (shift bounds i).
Definition reads_attrs (f : nfile) (g : gvar) : Prop :=
  forall bounds r, block_of g bounds -> read_variable bounds (gname g) f = Ok r ->
    forall k a, k <> "_FillValue" -> k <> "add_offset" -> k <> "scale_factor" ->
      (dget String.eqb (r_attrs r) k = Some a <-> shows g k a).

(** Strings as rows of characters: [None] stands after the end. *)
Definition spells (c : schars) (row : nat) (s : string) : Prop :=
  (row < ch_rows c)%nat /\ (String.length s <= ch_width c)%nat /\ forall j, ch_at c row j = String.get j s.

(** A file keeps a collection: its variables, its own attributes and all that is read of the arrays. *)
Definition keeps (G : list gvar) (attrs : list (string * attr)) (f : nfile) : Prop :=
  map fst (f_vars f) = map gname G /\
  (forall k a, dget String.eqb (f_attrs f) k = Some a <-> In (k, a) attrs /\ a <> ANone /\ public k) /\
  forall g, In g G -> reads_dims f g /\ reads_values f g /\ reads_mask f g /\ reads_attrs f g.

Definition readable (G : list gvar) (c1 : coll) : Prop :=
  NoDup (map fst (c_attrs c1)) /\
  forall g v, In g G -> In v (c_vars c1) -> v_name v = gname g -> no_clash g /\ can_mask g v.

(** One collection that holds the arrays whole. *)
Definition whole (G : list gvar) (c : coll) : Prop :=
  proper G /\ parts_of G [c] /\ knows d_size G c /\ knows d_global G c /\ NoDup (map fst (c_attrs c)) /\
  forall g, In g G -> no_clash g /\ (gbyte g = false \/ gdims g <> [] \/ exists a, In ("_FillValue", a) (gattrs g)).

(** The collections in a tree and the groups in a file, with the names that lead to them. *)
Inductive node : tree -> list string -> coll -> Prop :=
| node_here : forall c ch, node (Tree c ch) [] c
| node_child : forall c0 ch k t p c, In (k, t) ch -> node t p c -> node (Tree c0 ch) (k :: p) c.
Inductive gnode : gfile -> list string -> nfile -> Prop :=
| gnode_here : forall f gs, gnode (GFile f gs) [] f
| gnode_child : forall f0 gs k g p f, In (k, g) gs -> gnode g p f -> gnode (GFile f0 gs) (k :: p) f.

(** The same array without unlimited dimensions. *)
Definition fixed_array (g : gvar) : gvar :=
  mkgvar (gname g) (map (fun d => mkgdim (g_name d) false (g_len d)) (gdims g)) (gbyte g) (gdefault g) (gfill g) (gvalue g) (gmask g) (gattrs g) (gunits g).

(** Parts of a list of strings. *)
Definition string_part (l : list string) (s : svar) : Prop :=
  (d_lo (s_dim s) <= d_hi (s_dim s) <= List.length l)%nat /\ d_global (s_dim s) = List.length l /\
  s_vals s = firstn (d_hi (s_dim s) - d_lo (s_dim s)) (skipn (d_lo (s_dim s)) l).
Definition string_parts (l : list string) (parts : list svar) : Prop :=
  (forall s, In s parts -> string_part l s) /\
  forall i, (i < List.length l)%nat -> exists s, In s parts /\ (d_lo (s_dim s) <= i < d_hi (s_dim s))%nat.

(** Places in a session. *)
Definition visible (e : event) : bool := match e with Open _ => false | _ => true end.
Definition place_of (before : list event) : nat := List.length (filter visible before).
