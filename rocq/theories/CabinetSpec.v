(** Vocabulary of C70 and C71: the features of a vector file. *)
From Verif Require Import Py Spec DimensionModel DimensionSpec CabinetModel.

(** Every feature has the columns of the file. *)
Definition Regular (f : gfile) : Prop :=
  NoDup (gf_columns f) /\ Forall (fun ft => map fst (ft_props ft) = gf_columns f) (gf_features f).

(** As in a shapefile, the features are numbered from zero. *)
Definition Numbered (f : gfile) : Prop :=
  forall i ft, nth_error (gf_features f) i = Some ft -> ft_fid ft = Z.of_nat i.

(** The column [u] holds an integer for each feature. *)
Definition HasIds (f : gfile) (u : string) : Prop :=
  In u (gf_columns f) /\ Forall (fun ft => exists z, In (u, CInt z) (ft_props ft)) (gf_features f).

(** The identifier in the output: the column named by the user, the default
    column, or one that is added. *)
Inductive Identifies (f : gfile) : option string -> string -> bool -> Prop :=
| IdGiven u : HasIds f u -> Identifies f (Some u) u false
| IdDefault : HasIds f "UGID" -> Identifies f None "UGID" false
| IdAdded : ~ In "UGID"%string (gf_columns f) -> Identifies f None "UGID" true.

(** A row of the output: the properties of the feature, with the number of the
    feature as its identifier if it has none. *)
Definition Yields (u : string) (add : bool) (ft : feature) (r : row) : Prop :=
  rw_uid r = u /\ rw_props r = if add then (ft_props ft ++ [(u, CInt (ft_fid ft))])%list else ft_props ft.

(** [l'] is [l] without the elements that do not satisfy [P]. *)
Inductive Sifted {A} (P : A -> Prop) : list A -> list A -> Prop :=
| SiNil : Sifted P [] []
| SiKeep x l l' : P x -> Sifted P l l' -> Sifted P (x :: l) (x :: l')
| SiDrop x l l' : ~ P x -> Sifted P l l' -> Sifted P (x :: l) l'.

(** Somewhere the list goes up by more than one. *)
Definition Gap (l : list Z) : Prop := exists l1 x y l2, l = (l1 ++ x :: y :: l2)%list /\ y - x > 1.

(** Index arrays that are read as written: with a gap, or consecutive. *)
Definition ReadAsWritten (f : gfile) (l : list Z) : Prop :=
  Forall (fun i => 0 <= i < zlen (gf_features f)) l /\
  ((gf_gdb f = false /\ Numbered f /\ Gap l) \/ exists a b, a < b /\ l = zrange a b).

(** Slices that are read as written. *)
Definition SliceAsWritten (f : gfile) (raw : rawslc) : Prop :=
  match raw with
  | RInt i => 0 <= i < zlen (gf_features f)
  | RSlice (mkslice (Some a) (Some b)) => 0 <= a < b
  | RSlice (mkslice (Some a) None) => 0 <= a
  | RInts l => ReadAsWritten f l
  | _ => False
  end.

(** The source index of a dimension that is read as written. *)
Definition SourceAsWritten (f : gfile) (s : srcidx) : Prop :=
  match s with
  | SrcBounds a b => 0 <= a < b /\ b <= zlen (gf_features f)
  | SrcFancy l => ReadAsWritten f l
  end.

(** The identifier of the feature is one of [l]. *)
Definition Chosen (u : string) (l : list Z) (ft : feature) : Prop := exists z, In z l /\ In (u, CInt z) (ft_props ft).

(** Each identifier asked for belongs to one feature. *)
Definition OneEach (f : gfile) (u : string) (l : list Z) : Prop :=
  NoDup l /\ Forall (fun z => exists ft, In ft (gf_features f) /\ In (u, CInt z) (ft_props ft)) l /\
  NoDup (gf_features f) /\
  forall z a b, In a (gf_features f) -> In b (gf_features f) -> In (u, CInt z) (ft_props a) -> In (u, CInt z) (ft_props b) -> a = b.
