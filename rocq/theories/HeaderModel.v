(** Model of what Field.iter prepares before records are made: src/ocgis/collection/field.py:636-750.
    The records themselves are in RecordModel.v. *)
From Verif Require Import Py.
From Coq Require Import String.
Local Open Scope string_scope.
Local Notation length := List.length.

(** A follower: a variable by name, or an iterator over the variable of a name. *)
Inductive follower := FName (n : string) | FIter (n : string).

(** The field: the names of its variables and of those with the tag, and its geometry (with the name
    of its unique identifier), realization, time and level (with whether they have bounds). *)
Record hfield := mkhfield {
  hf_names : list string;
  hf_tagged : list string;
  hf_geom : option (string * option string);
  hf_realization : option string;
  hf_time : option (string * bool);
  hf_level : option (string * bool) }.

(** What the caller gives.  [a_followers] is a list of the caller, which the call may change. *)
Record hargs := mkhargs {
  a_standardize : bool;
  a_melted : bool;
  a_variable : option string;
  a_followers : option (list follower);
  a_header_map : option (list (string * string)) }.

Record prepared := mkprepared {
  p_variable : string;
  p_followers : list follower;
  p_header_map : option (list (string * string));
  p_melted : option (list string) }.

(** field.py:664-671: names are looked up in the field. *)
Fixpoint find_followers (names : list string) (l : list follower) : res (list follower) :=
  match l with
  | [] => Ok []
  | FIter n :: t => do r <- find_followers names t; Ok (FIter n :: r)
  | FName n :: t => if existsb (String.eqb n) names then do r <- find_followers names t; Ok (FName n :: r) else Err KeyError
  end.

(** field.py:685-707: the followers for the geometry, realization, time and level. *)
Definition coordinate_followers (f : hfield) : list follower :=
  ((match hf_geom f with Some (n, _) => [FIter n] | None => [] end) ++
   (match hf_realization f with Some n => [FIter n] | None => [] end) ++
   (match hf_time f with Some (n, _) => [FIter n] | None => [] end) ++
   (match hf_level f with Some (n, _) => [FIter n] | None => [] end))%list.

(** field.py:1143-1146 [update_header_rename_bounds_names] with variable/base.py:2358-2359. *)
Definition bounds_headers (n : string) (has_bounds : bool) (lower upper : string) : list (string * string) :=
  if has_bounds then [("lb_" ++ n, lower); ("ub_" ++ n, upper)] else [].

(** field.py:717-737: the header map that is made, as the assignments in their order; [repeaters]
    are the headers of repeaters. *)
Definition header_assignments (f : hfield) (repeaters : list string) : list (string * string) :=
  (map (fun k => (k, k)) repeaters ++
   (match hf_geom f with Some (_, Some u) => [(u, u)] | _ => [] end) ++
   (match hf_realization f with Some n => [(n, "RLZ")] | None => [] end) ++
   (match hf_time f with
    | Some (n, b) => (n, "TIME") :: bounds_headers n b "LB_TIME" "UB_TIME" ++ [("YEAR", "YEAR"); ("MONTH", "MONTH"); ("DAY", "DAY")]
    | None => [] end) ++
   (match hf_level f with Some (n, b) => (n, "LEVEL") :: bounds_headers n b "LB_LEVEL" "UB_LEVEL" | None => [] end))%list.
Definition assign (l : list (string * string)) : list (string * string) :=
  fold_left (fun d kv => dset String.eqb d (fst kv) (snd kv)) l [].

(** field.py:645-748: what is handed to the iteration, and the list of the caller afterwards (it
    is the list that is extended). *)
Definition prepare (f : hfield) (a : hargs) (repeaters : list string) : res (prepared * option (list follower)) :=
  if a_melted a && negb (a_standardize a) then Err ValueError                                            (* 656-657 *)
  else
  do fs <- match a_followers a with None => Ok [] | Some l => find_followers (hf_names f) l end;
  do vf <- match a_variable a with
           | None => match hf_tagged f with [] => Err ValueError | t :: ts => Ok (t, (fs ++ map FName ts)%list) end   (* 673-681 *)
           | Some v => if existsb (String.eqb v) (hf_names f) then Ok (v, fs) else Err KeyError             (* 683 *)
           end;
  let followers := (snd vf ++ coordinate_followers f)%list in
  let hm := if a_standardize a
            then match a_header_map a with Some m => Some m | None => Some (assign (header_assignments f repeaters)) end
            else a_header_map a in
  do melted <- (if a_melted a
                then match a_variable a with Some _ => Err NameError | None => Ok (Some (hf_tagged f)) end   (* 739-740 *)
                else Ok None);
  Ok (mkprepared (fst vf) followers hm melted, match a_followers a with None => None | Some _ => Some followers end).
