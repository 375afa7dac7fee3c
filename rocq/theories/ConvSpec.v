(** Vocabulary of C67, C68 and C69: tables. *)
From Verif Require Import Py ConvModel.
From Coq Require Import Permutation.

(** ** What is empty *)

(** Something in the collection is empty: it was created as empty, or, unless it
    was created as not empty, one of its variables or children is. *)
Inductive HasEmpty : vtree -> Prop :=
| HFlag vars children : HasEmpty (VT (Some true) vars children)
| HVar vars children : In true vars -> HasEmpty (VT None vars children)
| HChild vars children c : In c children -> HasEmpty c -> HasEmpty (VT None vars children).

(** No collection in it has more than one child. *)
Inductive Chain : vtree -> Prop :=
| CLeaf flag vars : Chain (VT flag vars [])
| CNode flag vars c : Chain c -> Chain (VT flag vars [c]).

(** Nothing in the collection is empty. *)
Definition Whole (c : coll) : Prop :=
  co_flag c <> Some true /\ (co_flag c = None -> ~ In true (co_vars c)) /\
  Forall (fun k => ct_flag k <> Some true /\ (ct_flag k = None -> ~ In true (ct_vars k)) /\
                   Forall (fun t => pt_empty t = false) (ct_fields k)) (co_containers c).

(** The collection as a whole is empty, or all it holds is. *)
Definition VoidContainer (k : container) : Prop :=
  ct_flag k = Some true \/
  (ct_flag k = None /\ (In true (ct_vars k) \/ (ct_fields k <> [] /\ Forall (fun t => pt_empty t = true) (ct_fields k)))).
Definition Void (c : coll) : Prop :=
  co_flag c = Some true \/
  (co_flag c = None /\ (In true (co_vars c) \/ (co_containers c <> [] /\ Forall VoidContainer (co_containers c)))).

(** ** The records to be written *)

(** The fields of a collection, container by container, and the records of a
    field, rank by rank. *)
Definition fields_of (c : coll) : list ptable := concat (map ct_fields (co_containers c)).
Definition records_of (c : coll) : list record := concat (map (fun t => concat (pt_parts t)) (fields_of c)).

(** The output due for a sequence of collections: the records of those that are
    not empty, in order. *)
Inductive Due : list coll -> list record -> Prop :=
| DNil : Due [] []
| DVoid c cs rs : Void c -> Due cs rs -> Due (c :: cs) rs
| DWhole c cs rs : Whole c -> Due cs rs -> Due (c :: cs) (records_of c ++ rs).

(** Every field that is not empty has a rank, and every rank a record. *)
Definition Filled (cs : list coll) : Prop :=
  forall c t, In c cs -> In t (fields_of c) -> pt_empty t = false -> pt_parts t <> [] /\ Forall (fun p => p <> []) (pt_parts t).

(** The first collection that is not empty holds one field. *)
Inductive FirstSingle : list coll -> Prop :=
| FSkip c cs : Void c -> FirstSingle cs -> FirstSingle (c :: cs)
| FHere c cs t : Whole c -> fields_of c = [t] -> FirstSingle (c :: cs).

(** The last of the collections that are not empty holds fields, and [t] is the
    last of these. *)
Inductive LastField : list coll -> ptable -> Prop :=
| LHere c cs l t : Whole c -> fields_of c = (l ++ [t])%list -> Forall Void cs -> LastField (c :: cs) t
| LNext c cs t : LastField cs t -> LastField (c :: cs) t.

(** The rows have the columns [cols], in this order. *)
Definition HaveColumns (cols : list string) (rs : list record) : Prop := Forall (fun r => map fst r = cols) rs.

(** A record with its columns renamed. *)
Definition renamed (f : string -> string) (r : record) : record := map (fun p => (f (fst p), snd p)) r.

(** A column name in a shapefile: its first ten characters. *)
Definition ten (k : string) : string := substring 0 10 k.

(** The cells of a column. *)
Definition Column (name : string) (rs : list record) (l : list string) : Prop :=
  Forall2 (fun r v => In (name, v) r) rs l.

(** Ranks that hold consecutive rows from [lo] to [hi]. *)
Inductive Tiles : Z -> Z -> list (Z * Z) -> Prop :=
| TNil lo : Tiles lo lo []
| TCons lo mid hi bs : lo <= mid -> Tiles mid hi bs -> Tiles lo hi ((lo, mid) :: bs).

(** A table file: a header of different names and rows of its length. *)
Definition TableFile (f : csv_file) (cols : list string) (rows : list (list string)) : Prop :=
  f = cols :: rows /\ NoDup cols /\ Forall (fun r => List.length r = List.length cols) rows.
