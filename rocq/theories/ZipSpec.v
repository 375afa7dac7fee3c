(** Archives of output folders. *)
From Verif Require Import Py ZipModel.
From Coq Require Import String.

(** The files of a folder have different paths. *)
Definition Paths (f : folder) : Prop := NoDup (map e_path f).

(** The file is in a directory called "shp". *)
Definition InShp (base : string) (e : entry) : Prop :=
  (exists ds, e_dir e = ds ++ ["shp"%string]) \/ (e_dir e = [] /\ base = "shp"%string).

(** Two files of the same name are one, or exactly one of them is in such a directory. *)
Definition NamesApart (base : string) (f : folder) : Prop :=
  forall e1 e2, In e1 f -> In e2 f -> e_name e1 = e_name e2 -> (InShp base e1 <-> InShp base e2) -> e1 = e2.

(** An archive holds a file under a name that ends with its own. *)
Definition Holds (l : list (list string * content)) (e : entry) : Prop :=
  exists ds, member l (ds ++ [e_name e]) = Some (e_content e).
(** An archive holds the files of a folder: different files under different names. *)
Definition HoldsAll (l : list (list string * content)) (f : folder) : Prop :=
  exists name, (forall e, In e f -> member l (name e) = Some (e_content e) /\ exists ds, name e = ds ++ [e_name e]) /\
               (forall e1 e2, In e1 f -> In e2 f -> name e1 = name e2 -> e1 = e2) /\
               (forall n c, In (n, c) l -> exists e, In e f /\ n = name e).
