(** Model of src/ocgis/util/zipper.py: outputs returned as archives. *)
From Verif Require Import Py.
From Coq Require Import String.
Local Open Scope nat_scope.
Local Notation length := List.length.
Local Notation concat := List.concat.

(** What a file holds: bytes, an archive of names and contents, or, for an archive that is
    read while it is being written, an unfinished part of it. *)
Inductive content :=
| Bytes (z : Z)
| Archive (l : list (list string * content))
| Unfinished
| Directory.

(** A file of a folder: the directories between the folder and the file, its name, its content.
    A folder is the list of its files in the order in which [os.walk] visits them;
    directories without files are left out. *)
Record entry := mkentry { e_dir : list string; e_name : string; e_content : content }.
Definition folder : Type := list entry.

(** The path of a file in the folder. *)
Definition e_path (e : entry) : list string := e_dir e ++ [e_name e].

(** zipper.py:40-50 [get_items]: the name in the archive; [base] is the name of the folder
    itself ([os.path.split(dirpath)[1]] of the files that are directly in it). *)
Definition arcname (base : string) (e : entry) : list string :=
  if String.eqb (last (e_dir e) base) "shp" then ["shp"%string; e_name e] else [e_name e].
(** An item: the path of the file and its name in the archive. *)
Definition get_items (base : string) (f : folder) : list (list string * list string) :=
  map (fun e => (e_path e, arcname base e)) f.

Fixpoint path_eqb (a b : list string) : bool :=
  match a, b with
  | [], [] => true
  | x :: a', y :: b' => String.eqb x y && path_eqb a' b'
  | _, _ => false
  end.

(** The content of the file at a path. *)
Fixpoint read_file (f : folder) (p : list string) : option content :=
  match f with
  | [] => None
  | e :: t => if path_eqb (e_path e) p then Some (e_content e) else read_file t p
  end.
(** A file written directly in the folder; one that is there is replaced. *)
Fixpoint write_file (f : folder) (name : string) (c : content) : folder :=
  match f with
  | [] => [mkentry [] name c]
  | e :: t => if path_eqb (e_path e) [name] then mkentry [] name c :: t else e :: write_file t name c
  end.

(** zipper.py:30-37 [Zipper.compress_path]: the archive is opened (and emptied) first, then
    the items are added one by one, so that an item that is the archive is read unfinished.
    IOError if a file is missing. *)
Fixpoint add_items (f : folder) (items : list (list string * list string)) : res (list (list string * content)) :=
  match items with
  | [] => Ok []
  | i :: t =>
      match read_file f (fst i) with
      | Some c => do r <- add_items f t; Ok ((snd i, c) :: r)
      | None => Err IOError
      end
  end.
Definition compress_path (f : folder) (zip : string) (items : list (list string * list string)) : res folder :=
  do l <- add_items (write_file f zip Unfinished) items; Ok (write_file f zip (Archive l)).

(** zipper.py:53-56 [get_zipped_path]: the items are collected before the archive is opened. *)
Definition get_zipped_path (base zip : string) (f : folder) : res folder :=
  compress_path f zip (get_items base f).

(** The output formats (constants.py: OutputFormatName), as far as they are told apart here. *)
Inductive oformat := FOcgis | FCsv | FNc | FOther.
(** What is returned: the path that was given, or that of the archive. *)
Inductive returned := GivenPath | ZipPath.

(** zipper.py:59-96 [format_return], on the folder of the returned path; [zip] is the prefix
    of the operations followed by '.zip'. *)
Definition format_return (fmt : oformat) (with_auxiliary_files : bool) (base zip : string) (f : folder) : res (returned * folder) :=
  match fmt with
  | FOcgis => Err NotImplementedError                                                            (* 79-80 *)
  | FCsv | FNc =>
      if with_auxiliary_files then do f' <- get_zipped_path base zip f; Ok (ZipPath, f')         (* 87-88 *)
      else Ok (GivenPath, f)                                                                     (* 90-91 *)
  | FOther => do f' <- get_zipped_path base zip f; Ok (ZipPath, f')                              (* 93-94 *)
  end.

(** A member of an archive as [zipfile] gives it: the last one of that name. *)
Fixpoint member (l : list (list string * content)) (name : list string) : option content :=
  match l with
  | [] => None
  | (n, c) :: t =>
      match member t name with
      | Some c' => Some c'
      | None => if path_eqb n name then Some c else None
      end
  end.

(** zipper.py:12-28 [Zipper.get_zip_stream] of a folder: [os.listdir] gives the files and the
    directories that are directly in it; [zipfile.write] of a directory adds its name only. *)
Definition top_name (e : entry) : string := match e_dir e with [] => e_name e | d :: _ => d end.
Definition add_name (n : string) (l : list string) : list string := if existsb (String.eqb n) l then l else n :: l.
Definition list_dir (f : folder) : list string := fold_right add_name [] (map top_name f).
Definition zip_stream (f : folder) : list (list string * content) :=
  map (fun n => ([n], match read_file f [n] with Some c => c | None => Directory end)) (list_dir f).
