(** * What is asked of requests for datasets: notions used in the statements. *)
From Verif Require Import Py RequestModel.
From Coq Require Import String Ascii Bool List ZArith.
Import ListNotations.
Local Open Scope string_scope.
Local Open Scope list_scope.

(** The text [ext] occurs in [u], and no line break comes before it. *)
Definition mentions (ext u : string) : Prop :=
  exists a b, u = (a ++ ext ++ b)%string /\ ~ In newline (list_ascii_of_string a).

Definition starts (lit u : string) : Prop := exists b, u = (lit ++ b)%string.

(** A URI taken to be netCDF data. *)
Definition netcdf_uri (u : string) : Prop := mentions ".nc" u \/ starts "http" u.

(** A URI of one type of file only. *)
Definition only_csv (u : string) : Prop := mentions ".csv" u /\ ~ mentions ".shp" u /\ ~ netcdf_uri u.
Definition only_shp (u : string) : Prop := mentions ".shp" u /\ ~ mentions ".csv" u /\ ~ netcdf_uri u.
Definition only_nc (u : string) : Prop := netcdf_uri u /\ ~ mentions ".csv" u /\ ~ mentions ".shp" u.

(** [p] is the path of a file with the name [n] somewhere below the directory [d],
    whose own path is [path]. *)
Inductive file_at : string -> dir -> string -> string -> Prop :=
| file_here path files subs n : In n files -> file_at path (Dir files subs) n (path ++ "/" ++ n)%string
| file_below path files subs s c n p :
    In (s, c) subs -> file_at (path ++ "/" ++ s)%string c n p -> file_at path (Dir files subs) n p.

Definition holds_file (root : string * dir) (n : string) : Prop :=
  exists p, file_at (fst root) (snd root) n p.

(** No file below the directory has a name with a separator in it. *)
Inductive plain_names : dir -> Prop :=
| plain_dir files subs : (forall x, In x files -> contains "/" x = false) ->
    (forall s c, In (s, c) subs -> plain_names c) -> plain_names (Dir files subs).

(** A name written like the address of a remote source. *)
Definition remote (u : string) : Prop := exists a b, u = (a ++ "://" ++ b)%string.

(** The metadata of a file: one entry for each name, under its own name. *)
Definition from_file (m : meta) : Prop :=
  NoDup (map fst m) /\ (forall k v, In (k, v) m -> vm_name v = k).

(** The fields read from a sequence of datasets, numbered from [i]. *)
Inductive got : nat -> list rd -> list field -> Prop :=
| got_nil i : got i [] []
| got_cons i r f rs fs : rd_get i r = Ok f -> got (S i) rs fs -> got i (r :: rs) (f :: fs).
