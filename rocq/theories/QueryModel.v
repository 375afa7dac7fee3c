(** Model of the datasets of a request: src/ocgis/ops/parms/definition.py. *)
From Verif Require Import Py.
From Coq Require Import String Ascii.
Local Open Scope string_scope.
Local Notation length := List.length.

(** ** Identifiers *)

(** definition.py:474-497 [Dataset.__iter__]: the identifiers of the elements as they are given to
    those that have none; the copies, dictionaries and ESMF fields are left out. *)
Fixpoint dataset_uids (uid : Z) (l : list (option Z)) : list Z :=
  match l with
  | [] => []
  | e :: t => match e with Some u => u | None => uid end :: dataset_uids (uid + 1)%Z t
  end.

(** ** Datasets of a query string *)

(** [value.split('|')]. *)
Fixpoint split_bar (s : string) : list string :=
  match s with
  | EmptyString => [""]
  | String c t =>
      if Ascii.eqb c "|"%char then "" :: split_bar t
      else match split_bar t with
           | w :: r => String c w :: r
           | [] => [String c ""]
           end
  end.

(** The arguments of one request dataset. *)
Record rdargs := mkrdargs { ra_uri : string; ra_variable : option string; ra_field_name : option string; ra_rename : option string }.

(** The values of one key at an index: absent, or [store[k][idx]]. *)
Definition at_index (store : option (list string)) (idx : nat) : res (option string) :=
  match store with
  | None => Ok None
  | Some l => match nth_error l idx with Some x => Ok (Some x) | None => Err IndexError end
  end.

(** definition.py:518-539 [Dataset.from_query]: the query has the first string given for each of
    the keys 'uri', 'variable', 'field_name' and 'rename_variable', if any; what the request dataset
    makes of the arguments is left out. *)
Fixpoint query_rows (variable field_name rename : option (list string)) (idx : nat) (uris : list string) : res (list rdargs) :=
  match uris with
  | [] => Ok []
  | u :: t =>
      do v <- at_index variable idx; do f <- at_index field_name idx; do r <- at_index rename idx;
      do rest <- query_rows variable field_name rename (S idx) t;
      Ok (mkrdargs u v f r :: rest)
  end.
Definition from_query (uri variable field_name rename : option string) : res (list rdargs) :=
  let store := option_map split_bar in
  match store uri with
  | None => Err KeyError                                                                          (* 532 *)
  | Some uris => query_rows (store variable) (store field_name) (store rename) O uris             (* 532-538 *)
  end.
