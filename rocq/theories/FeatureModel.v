(** Model of [Field.from_records] (src/ocgis/collection/field.py:388-536), of what it takes from
    driver/vector.py, and of the geometry parameter of the operations (ops/parms/definition.py:678-778).

    Geometries, coordinate systems and the reading of numbers in strings are given.  Properties
    are None, integers, floats (exact rationals), strings and lists; booleans, dates, NumPy
    scalars and NaN are left out, and so are data models.  No property has the name of the
    geometry or of the coordinate system variable, and the keys of dictionaries are unique. *)
From Coq Require Import QArith.
From Verif Require Import Py NdModel.
Local Open Scope string_scope.
Local Open Scope list_scope.
Local Open Scope Z_scope.

Inductive pval := PNone | PInt (z : Z) | PFloat (q : Q) | PStr (s : string) | PList.
Definition props := list (string * pval).

Record record (G : Type) := mkrecord { r_geom : G; r_props : props }.
Arguments mkrecord {G}. Arguments r_geom {G}. Arguments r_props {G}.

(** The types of a schema: int, float, and str with a width. *)
Inductive ftype := TInt | TFloat | TStr (width : Z).

(** [get_fiona_type_from_pydata], driver/vector.py:331-375. *)
Definition fiona_type (v : pval) : res ftype :=
  match v with
  | PNone | PInt _ => Ok TInt
  | PFloat _ => Ok TFloat
  | PStr s => Ok (TStr (Z.of_nat (String.length s)))
  | PList => Err KeyError
  end.

Definition trunc (q : Q) : Z := Z.quot (Qnum q) (Zpos (Qden q)).

(** [int(v)] of an identifier, field.py:451; [read] reads an integer in a string. *)
Definition to_int (read : string -> option Z) (v : pval) : res Z :=
  match v with
  | PInt z => Ok z
  | PFloat q => Ok (trunc q)
  | PStr s => match read s with Some z => Ok z | None => Err ValueError end
  | PNone | PList => Err TypeError
  end.

(** [array[idx] = v] for an array of the type of the schema: NumPy converts, objects are kept. *)
Definition store (read : string -> option Z) (readq : string -> option Q) (t : ftype) (v : pval) : res pval :=
  match t, v with
  | TStr _, _ => Ok v
  | _, PNone => Err TypeError
  | _, PList => Err ValueError
  | TInt, PInt z => Ok (PInt z)
  | TInt, PFloat q => Ok (PInt (trunc q))
  | TInt, PStr s => match read s with Some z => Ok (PInt z) | None => Err ValueError end
  | TFloat, PInt z => Ok (PFloat (inject_Z z))
  | TFloat, PFloat q => Ok (PFloat q)
  | TFloat, PStr s => match readq s with Some q => Ok (PFloat q) | None => Err ValueError end
  end.

(** A cell is the fill of a new array (variable/base.py:746-759: a number, and 0 for objects) or a value. *)
Inductive cell := Fill | Val (v : pval).
Record column := mkcolumn { c_type : ftype; c_cells : list cell; c_mask : option (list bool) }.

(** [Variable(name=k, dtype=dtype, dimensions=dim)], field.py:511. *)
Definition new_column (n : nat) (t : ftype) : column := mkcolumn t (repeat Fill n) None.

(** [get_mask(create=True)[idx] = None], field.py:524 with variable/base.py:1004-1053: the mask
    made by the first call is a copy of the array it returns, and None is false. *)
Definition null_at (c : column) (idx : nat) : column :=
  match c_mask c with
  | None => mkcolumn (c_type c) (c_cells c) (Some (repeat false (length (c_cells c))))
  | Some m => mkcolumn (c_type c) (c_cells c) (Some (set_nth m idx false))
  end.

Definition value_at (c : column) (idx : nat) (v : pval) : column :=
  mkcolumn (c_type c) (set_nth (c_cells c) idx (Val v)) (c_mask c).

Section Read.
Variables (read : string -> option Z) (readq : string -> option Q).
Context {G : Type}.
Variable union2 : G -> G -> G.

(** The first loop, field.py:428-454, for the identifiers. *)
Fixpoint read_ids (has : bool) (uid : string) (ctr : Z) (rs : list (record G)) : res (list Z) :=
  match rs with
  | [] => Ok []
  | r :: t =>
      do i <- (if has then match dget String.eqb (r_props r) uid with None => Err KeyError | Some v => to_int read v end else Ok ctr);
      do l <- read_ids has uid (ctr + 1) t;
      Ok (i :: l)
  end.

(** The schema of the first record and the properties left out, field.py:493-501. *)
Fixpoint make_schema (strict : bool) (p : props) : res (list (string * ftype) * list string) :=
  match p with
  | [] => Ok ([], [])
  | (k, v) :: t =>
      match strict, v with
      | false, PList => do st <- make_schema strict t; Ok (fst st, k :: snd st)
      | _, _ => do ft <- fiona_type v; do st <- make_schema strict t; Ok ((k, ft) :: fst st, snd st)
      end
  end.

Definition left_out (uid : string) (skips : list string) (k : string) : bool :=
  (String.eqb k uid || existsb (String.eqb k) skips)%bool.

(** One record of the second loop, field.py:514-527. *)
Fixpoint set_record (uid : string) (skips : list string) (idx : nat) (p : props) (cols : list (string * column)) : res (list (string * column)) :=
  match p with
  | [] => Ok cols
  | (k, v) :: t =>
      if left_out uid skips k then set_record uid skips idx t cols
      else
        match dget String.eqb cols k with
        | None => Err KeyError
        | Some c =>
            do c' <- (match v with PNone => Ok (null_at c idx) | _ => do w <- store read readq (c_type c) v; Ok (value_at c idx w) end);
            set_record uid skips idx t (dset String.eqb cols k c')
        end
  end.
Fixpoint set_records (uid : string) (skips : list string) (idx : nat) (rs : list (record G)) (cols : list (string * column)) : res (list (string * column)) :=
  match rs with
  | [] => Ok cols
  | r :: t => do cols' <- set_record uid skips idx (r_props r) cols; set_records uid skips (S idx) t cols'
  end.

(** The field: geometries, identifiers, attribute variables, and the names tagged as data. *)
Record feature := mkfeature { f_geoms : list (option G); f_ids : list Z; f_cols : list (string * column); f_tags : list string }.

Definition union_all (rs : list (record G)) : option G :=
  match rs with [] => None | r :: t => Some (fold_left (fun g x => union2 g (r_geom x)) t (r_geom r)) end.

(** [again] is what a second reading of the records gives: the same for a list, nothing for an
    iterator that is used up.  Coordinate systems are left out here. *)
Definition from_records (records again : list (record G)) (schema : option (list (string * ftype))) (uid : string) (union strict : bool) : res feature :=
  if union then Ok (mkfeature [union_all records] [1] [] [uid])
  else
    match records with
    | [] => Err NameError
    | r0 :: _ =>
        do ids <- read_ids (dmem String.eqb (r_props r0) uid) uid 1 records;
        let geoms := map (fun r => Some (r_geom r)) records in
        match again with
        | [] =>
            match schema with
            | None => Err TypeError
            | Some s => Ok (mkfeature geoms ids [] (uid :: filter (fun k => negb (String.eqb k uid)) (map fst s)))
            end
        | first :: _ =>
            do st <- match schema with Some s => Ok (s, []) | None => make_schema strict (r_props first) end;
            let cols := map (fun kt => (fst kt, new_column (length records) (snd kt))) (filter (fun kt => negb (left_out uid (snd st) (fst kt))) (fst st)) in
            do cols' <- set_records uid (snd st) 0 again cols;
            Ok (mkfeature geoms ids cols' (uid :: filter (fun k => (negb (String.eqb k uid) || existsb (String.eqb k) (snd st))%bool) (map fst (fst st))))
        end
    end.
End Read.
Arguments feature : clear implicits.

(** ** The geometry parameter *)

(** A dictionary of the user, with its keys geom, properties and crs. *)
Record elem (G C : Type) := mkelem { e_geom : option G; e_props : option props; e_crs : option C }.
Arguments mkelem {G C}. Arguments e_geom {G C}. Arguments e_props {G C}. Arguments e_crs {G C}.

Definition ugid_key : string := "UGID".

(** definition.py:680-690: the records, and the coordinate system given to [from_records]
    (None stands for the default one). *)
Fixpoint parse_elems {G C} (ii : Z) (l : list (elem G C)) (crs : option (option C)) : res (list (record G) * option C) :=
  match l with
  | [] => match crs with None => Err NameError | Some c => Ok ([], c) end
  | e :: t =>
      match e_geom e with
      | None => Err DefinitionValidationError
      | Some g =>
          do rc <- parse_elems (ii + 1) t (Some (e_crs e));
          Ok (mkrecord g (match e_props e with Some p => p | None => [(ugid_key, PInt ii)] end) :: fst rc, snd rc)
      end
  end.
Definition parse_dicts {G C} (l : list (elem G C)) : res (list (record G) * option C) := parse_elems 1 l None.

(** definition.py:691-700: two or four numbers. *)
Definition parse_numbers {G} (point : Q -> Q -> G) (ring : list (Q * Q) -> G) (valid : G -> bool) (l : list Q) : res (record G) :=
  do g <- match l with
          | [x; y] => Ok (point x y)
          | [minx; miny; maxx; maxy] => Ok (ring [(minx, miny); (minx, maxy); (maxx, maxy); (maxx, miny)])
          | _ => Err NameError
          end;
  if valid g then Ok (mkrecord g [(ugid_key, PInt 1)]) else Err DefinitionValidationError.

(** [parse_string], definition.py:729-778: the parts between bars, each as a number if it is one;
    the answer is a record or a file or key to look for. *)
Inductive parsed (G : Type) := Geometry (r : record G) | File.
Arguments Geometry {G}. Arguments File {G}.

Fixpoint all_numbers (l : list (option Q)) : option (list Q) :=
  match l with
  | [] => Some []
  | None :: _ => None
  | Some q :: t => match all_numbers t with Some r => Some (q :: r) | None => None end
  end.
Definition parse_string {G} (point : Q -> Q -> G) (ring : list (Q * Q) -> G) (valid : G -> bool) (parts : list (option Q)) : res (parsed G) :=
  match all_numbers parts with
  | None => Ok File
  | Some l =>
      match match l with
            | [x; y] => Some (point x y)
            | [minx; miny; maxx; maxy] => Some (ring [(minx, miny); (minx, maxy); (maxx, maxy); (maxx, miny)])
            | _ => None
            end with
      | None => Ok File
      | Some g => if valid g then Ok (Geometry (mkrecord g [("ugid", PInt 1)])) else Err DefinitionValidationError
      end
  end.
