(** Model of operation parameters (src/ocgis/ops/parms/base.py and
    definition.py), of the process environment (src/ocgis/environment.py) and
    of four helpers of src/ocgis/util/helpers.py. *)
From Coq Require Import QArith Ascii.
From Verif Require Import Py TimeModel CalcModel.
Local Open Scope string_scope.
Local Open Scope Z_scope.

(** ** Python values a user may pass

    [PFloat] is a finite float, as a rational; [PNan] the float nan; [PDate] a
    [datetime.datetime], as its seconds.  [POther] is an object of any other
    type (a dictionary, a slice, a function): it equals nothing and is taken to
    be unhashable. *)
Inductive pv :=
| PNone | PBool (b : bool) | PInt (z : Z) | PFloat (q : Q) | PNan
| PStr (s : string) | PDate (t : Z)
| PList (l : list pv) | PTuple (l : list pv) | POther (n : Z).

(** The value of a number; [True] is 1 and [False] is 0 as in Python. *)
Definition num_of (a : pv) : option Q :=
  match a with
  | PBool b => Some (if b then 1 else 0)%Q
  | PInt z => Some (inject_Z z)
  | PFloat q => Some q
  | _ => None
  end.

(** [a == b]. *)
Fixpoint py_eq (a b : pv) {struct a} : bool :=
  match a, b with
  | PNone, PNone => true
  | PStr s, PStr t => String.eqb s t
  | PDate s, PDate t => s =? t
  | PList l, PList m | PTuple l, PTuple m =>
      (fix go (l m : list pv) : bool :=
         match l, m with
         | [], [] => true
         | x :: l', y :: m' => py_eq x y && go l' m'
         | _, _ => false
         end) l m
  | _, _ => match num_of a, num_of b with Some x, Some y => Qeq_bool x y | _, _ => false end
  end.

Fixpoint hashable (a : pv) : bool :=
  match a with
  | PList _ | POther _ => false
  | PTuple l => forallb hashable l
  | _ => true
  end.

(** [set(l)]: TypeError if an element is unhashable; the members in order of
    first appearance. *)
Definition set_add (acc : list pv) (x : pv) : list pv :=
  if existsb (fun y => py_eq y x) acc then acc else (acc ++ [x])%list.
Definition py_set (l : list pv) : res (list pv) :=
  if forallb hashable l then Ok (fold_left set_add l []) else Err TypeError.

Definition chars (s : string) : list ascii := list_ascii_of_string s.
Definition of_chars (l : list ascii) : string := string_of_list_ascii l.

(** [iter(a)]. *)
Definition py_iter (a : pv) : res (list pv) :=
  match a with
  | PList l | PTuple l => Ok l
  | PStr s => Ok (map (fun c => PStr (of_chars [c])) (chars s))
  | _ => Err TypeError
  end.

(** [s.lower()], [s.strip()] and [s.split(c)] on ASCII text. *)
Definition lower_char (c : ascii) : ascii :=
  let n := Z.of_nat (nat_of_ascii c) in
  if (65 <=? n) && (n <=? 90) then ascii_of_nat (Z.to_nat (n + 32)) else c.
Definition is_space (c : ascii) : bool :=
  let n := Z.of_nat (nat_of_ascii c) in ((9 <=? n) && (n <=? 13)) || ((28 <=? n) && (n <=? 32)).
Fixpoint drop_spaces (l : list ascii) : list ascii :=
  match l with [] => [] | c :: t => if is_space c then drop_spaces t else l end.
Definition strip_chars (l : list ascii) : list ascii := rev (drop_spaces (rev (drop_spaces l))).
Fixpoint split_chars (sep : ascii) (l acc : list ascii) : list (list ascii) :=
  match l with
  | [] => [rev acc]
  | c :: t => if Ascii.eqb c sep then rev acc :: split_chars sep t [] else split_chars sep t (c :: acc)
  end.

(** [int(text)]: optional surrounding blanks and sign, decimal digits
    (simplification: no underscores). *)
Definition digit_of (c : ascii) : option Z :=
  let n := Z.of_nat (nat_of_ascii c) in if (48 <=? n) && (n <=? 57) then Some (n - 48) else None.
Fixpoint digits_value (acc : Z) (l : list ascii) : option Z :=
  match l with
  | [] => Some acc
  | c :: t => match digit_of c with Some d => digits_value (10 * acc + d) t | None => None end
  end.
Definition parse_int (s : string) : option Z :=
  match strip_chars (chars s) with
  | "-"%char :: c :: t => option_map Z.opp (digits_value 0 (c :: t))
  | "+"%char :: c :: t => digits_value 0 (c :: t)
  | c :: t => digits_value 0 (c :: t)
  | [] => None
  end.
(** [int(a)]. *)
Definition py_int (a : pv) : res Z :=
  match a with
  | PBool b => Ok (if b then 1 else 0)
  | PInt z => Ok z
  | PFloat q => Ok (Z.quot (Qnum q) (Zpos (Qden q)))
  | PNan => Err ValueError
  | PStr s => match parse_int s with Some z => Ok z | None => Err ValueError end
  | _ => Err TypeError
  end.

(** [type(a)]. *)
Inductive ptype := TNone | TBool | TInt | TFloat | TStr | TDate | TList | TTuple | TOther.
Definition type_of (a : pv) : ptype :=
  match a with
  | PNone => TNone | PBool _ => TBool | PInt _ => TInt | PFloat _ | PNan => TFloat
  | PStr _ => TStr | PDate _ => TDate | PList _ => TList | PTuple _ => TTuple | POther _ => TOther
  end.
Definition ptype_code (t : ptype) : Z :=
  match t with TNone => 0 | TBool => 1 | TInt => 2 | TFloat => 3 | TStr => 4 | TDate => 5 | TList => 6 | TTuple => 7 | TOther => 8 end.
Definition type_mem (t : ptype) (l : list ptype) : bool := existsb (fun u => ptype_code t =? ptype_code u) l.

(** ** ops/parms/base.py *)

(** base.py:134-145 [AbstractParameter.parse_string] up to the call of
    [_parse_string_]: the lower-cased, stripped text, or [None] for "none". *)
Definition parse_string (s : string) : option string :=
  let modified := of_chars (strip_chars (map lower_char (chars s))) in
  if String.eqb modified "none" then None else Some modified.

(** base.py:206-212 [BooleanParameter._parse_string_]. *)
Definition boolean_of_string (s : string) : pv :=
  if existsb (String.eqb s) ["true"; "t"; "1"] then PBool true
  else if existsb (String.eqb s) ["false"; "f"; "0"] then PBool false
  else PNone.

(** base.py:62-93 [_set_value_] for a [BooleanParameter] (177-212). *)
Definition boolean_set (v : pv) : res bool :=
  do v <- match v with                                                       (* 63-74 *)
          | PStr s => Ok (match parse_string s with Some t => boolean_of_string t | None => PNone end)
          | PBool _ | PInt _ | PNone => Ok v
          | _ => Err DefinitionValidationError
          end;
  let ret := if py_eq v (PInt 0) then PBool false                            (* 197-204 *)
             else if py_eq v (PInt 1) then PBool true else v in
  match ret with
  | PNone => Err DefinitionValidationError                                   (* 152-154 *)
  | PBool b => Ok b
  | PInt z => Ok (negb (z =? 0))                                             (* 81-82: bool(ret) *)
  | _ => Err DefinitionValidationError
  end.

(** base.py:302-307 [IterableParameter.parse_string]: the elements of a
    "|"-separated text ([None] alone gives [None]); [elem] is the parameter's
    own [_parse_string_]. *)
Definition parse_string_list (elem : string -> res pv) (s : string) : res pv :=
  do ret <- map_res (fun l => match parse_string (of_chars l) with
                              | None => Ok PNone
                              | Some t => elem t
                              end) (split_chars "|"%char (chars s) []);
  Ok (match ret with [PNone] => PNone | _ => PList ret end).

(** base.py:63-75: what a sequence parameter does with the value before
    [parse]; [None] is [Ok None]. *)
Definition sequence_input (elem : string -> res pv) (v : pv) : res (option (list pv)) :=
  match v with
  | PNone => Ok None
  | PList l | PTuple l => Ok (Some l)
  | PStr s => do p <- parse_string_list elem s;
              Ok (match p with PList l => Some l | _ => None end)
  | _ => Err DefinitionValidationError
  end.

Definition is_str (a : pv) : bool := match a with PStr _ => true | _ => false end.

(** base.py:269-283: unhashable elements are compared as sets. *)
Fixpoint sets_disjoint (check_basestrings : bool) (value : list pv) : res unit :=
  match value with
  | [] => Ok tt
  | element :: rest =>
      if negb check_basestrings && is_str element then sets_disjoint check_basestrings rest   (* 272-274 *)
      else
        do items <- py_iter element;
        do element_set <- py_set items;                                                       (* 275 *)
        if negb (zlen element_set =? zlen items) then Err DefinitionValidationError           (* 277-278 *)
        else
          do _ <- map_res (fun other =>                                                       (* 281-283 *)
                    do oi <- py_iter other;
                    do os <- py_set oi;
                    if existsb (fun x => existsb (py_eq x) os) element_set
                    then Err DefinitionValidationError else Ok tt) rest;
          sets_disjoint check_basestrings rest
  end.

(** base.py:263-283: the check made for [unique] parameters.  [ret] are the
    parsed elements. *)
Definition check_unique (check_basestrings : bool) (value ret : list pv) : res unit :=
  match py_set ret with
  | Ok s => if zlen s <? zlen value then Err DefinitionValidationError else Ok tt
  | Err TypeError => sets_disjoint check_basestrings value
  | Err e => Err e
  end.

(** base.py:284-294 with a list of types as [element_type]: calling a list
    raises TypeError, so the type must be a member. *)
Definition check_types (types : list ptype) (ret : list pv) : res (list pv) :=
  map_res (fun x => if type_mem (type_of x) types then Ok x else Err DefinitionValidationError) ret.

(** base.py:284-294 with [element_type = int]: a TypeError of [int] leads to
    [type in int], a TypeError again; ValueError is reported. *)
Definition convert_ints (ret : list pv) : res (list Z) :=
  map_res (fun x => match py_int x with
                    | Err ValueError => Err DefinitionValidationError
                    | r => r
                    end) ret.

(** ** ops/parms/definition.py *)

(** definition.py:820-827 [GeomSelectUid]. *)
Definition geom_select_uid_set (v : pv) : res (option (list Z)) :=
  do value <- sequence_input (fun s => Ok (PStr s)) v;
  match value with
  | None => Ok None
  | Some value =>
      do _ <- check_unique true value value;
      do ret <- convert_ints value;
      Ok (Some ret)
  end.

(** [a > b] for the values that reach the comparison; other pairs raise TypeError. *)
Definition py_gt (a b : pv) : res bool :=
  match a, b with
  | PDate s, PDate t => Ok (t <? s)
  | PNan, PNan => Ok false
  | PNan, _ => match num_of b with Some _ => Ok false | None => Err TypeError end
  | _, PNan => match num_of a with Some _ => Ok false | None => Err TypeError end
  | _, _ => match num_of a, num_of b with
            | Some x, Some y => Ok (negb (Qle_bool x y))
            | _, _ => Err TypeError
            end
  end.

(** definition.py:869-875 and 1266-1272 [validate_all] of the two range parameters. *)
Definition validate_range (value : list pv) : res unit :=
  match value with
  | [a; b] => do g <- py_gt a b; if g then Err DefinitionValidationError else Ok tt
  | _ => Err DefinitionValidationError
  end.

(** definition.py:860-875 [LevelRange] and 1257-1293 [TimeRange]; the parsed
    value is the tuple of its elements. *)
Definition range_set (types : list ptype) (elem : string -> res pv) (v : pv) : res (option (list pv)) :=
  do value <- sequence_input elem v;
  match value with
  | None => Ok None
  | Some value =>
      do ret <- check_types types value;
      do _ <- validate_range ret;
      Ok (Some ret)
  end.
Definition level_range_set (v : pv) : res (option (list pv)) :=
  range_set [TInt; TFloat] (fun s => Ok (PStr s)) v.
(** [strptime] stands for the two formats tried at 1281-1291; AssertionError
    at 1292 if neither fits. *)
Definition time_range_set (strptime : string -> option Z) (v : pv) : res (option (list pv)) :=
  range_set [TDate] (fun s => match strptime s with Some t => Ok (PDate t) | None => Err AssertionError end) v.

(** definition.py:296-382 [CalcGrouping]. *)
Definition standard_groups : list pv := [PStr "day"; PStr "month"; PStr "year"].
Definition grouping_flags : list pv := [PStr "unique"; PStr "year"].
Definition pv_mem (x : pv) (l : list pv) : bool := existsb (fun y => py_eq x y) l.
Fixpoint list_remove (x : pv) (l : list pv) : list pv :=
  match l with [] => [] | y :: t => if py_eq y x then t else y :: list_remove x t end.

(** 329-333: each flag is taken out once; the last one found is remembered. *)
Definition take_flags (value : list pv) : list pv * option pv :=
  fold_left (fun st flag => let '(pvs, back) := st in
               if pv_mem flag pvs then (list_remove flag pvs, Some flag) else st)
            grouping_flags (value, None).

(** 358-381 [_validate_]. *)
Definition validate_grouping (value : list pv) : res unit :=
  if match value with [x] => py_eq x (PStr "all") | _ => false end then Ok tt
  else if forallb (fun x => pv_mem x standard_groups) value then Ok tt
  else
    do _ <- map_res (fun element =>
              if pv_mem element grouping_flags then Ok tt
              else if is_str element then Err DefinitionValidationError
              else do ms <- py_iter element;
                   if forallb (fun m => pv_mem m (map PInt (zrange 1 13))) ms then Ok tt
                   else Err DefinitionValidationError) value;
    Ok tt.

(** The value after [finalize] (347-349): the text "all" or a tuple. *)
Definition finalize_grouping (value : list pv) : pv :=
  match value with [x] => if py_eq x (PStr "all") then PStr "all" else PTuple value | _ => PTuple value end.

(** 324-345 [parse], then validation and [finalize]. *)
Definition calc_grouping_set (v : pv) : res (option pv) :=
  do value <- sequence_input (fun s => Ok (PStr s)) v;
  match value with
  | None => Ok None
  | Some value =>
      let '(parse_value, add_back) := take_flags value in                     (* 327-333 *)
      do _ <- check_unique false parse_value parse_value;
      do ret <- check_types [TStr; TList] parse_value;                        (* 335 *)
      let ret := (ret ++ match add_back with Some f => [f] | None => [] end)%list in  (* 337-338 *)
      do _ <- validate_grouping ret;
      Ok (Some (finalize_grouping ret))
  end.

(** definition.py:1135-1190 [Slice]: a slice object as its arguments. *)
Definition slice_elem (v : pv) : res (list pv) :=
  match v with
  | PNone => Ok [PNone]                                                       (* 1177-1178 *)
  | PInt z => if z <? 0 then Ok [v; PNone] else Ok [v; PInt (z + 1)]          (* 1179-1183 *)
  | PList l | PTuple l =>                                                     (* 1184-1185: slice( *value ) *)
      if (1 <=? zlen l) && (zlen l <=? 3) then Ok l else Err TypeError
  | _ => Err DefinitionValidationError
  end.
(** 1159-1174: the first five slices under the names of the dimensions; fewer
    are refused. *)
Definition slice_keys : list string := ["realization"; "time"; "level"; "y"; "x"].
Definition slice_set (v : pv) : res (option (list (string * list pv))) :=
  do value <- sequence_input (fun s => Ok (PStr s)) v;
  match value with
  | None => Ok None
  | Some value =>
      do ret <- map_res slice_elem value;
      if zlen ret <? 5 then Err DefinitionValidationError
      else Ok (Some (combine slice_keys ret))
  end.
(** A slice of a list for the arguments [(stop)] and [(start, stop)];
    a step is not modelled. *)
Definition slice_end (a : pv) : option (option Z) :=
  match a with PNone => Some None | PInt z => Some (Some z) | _ => None end.
Definition apply_slice {A} (args : list pv) (l : list A) : option (list A) :=
  match args with
  | [b] => option_map (fun b => py_slice l (mkslice None b)) (slice_end b)
  | [a; b] => match slice_end a, slice_end b with
              | Some a, Some b => Some (py_slice l (mkslice a b))
              | _, _ => None
              end
  | _ => None
  end.

(** definition.py:118-293 [Calc].  An element is an expression text or a
    dictionary with text or other values; [registered] tells the keys of the
    function registry and [valid] stands for the class-level
    [validate_definition] of a function.  Keyword values and metadata
    attributes are kept as they are. *)
Inductive calc_in := CText (s : string) | CDict (d : list (string * pv)).
Record calc_out := mkcalc { co_func : pv; co_name : pv; co_keys : list string }.
Definition has_equals (s : string) : bool := existsb (Ascii.eqb "="%char) (chars s).
Definition smem (x : string) (l : list string) : bool := existsb (String.eqb x) l.

(** 162-168: the test for an expression; it sets the instance flag. *)
Definition calc_is_eval (v : calc_in) : bool :=
  match v with
  | CText s => has_equals s
  | CDict d => dmem String.eqb d "="
               || match dget String.eqb d "func" with Some (PStr s) => has_equals s | _ => false end
  end.
(** 161-250 [_parse_]. *)
Definition calc_parse (registered : string -> bool) (v : calc_in) : res calc_out :=
  let final := ["func"; "ref"; "name"; "kwds"; "meta_attrs"] in
  if calc_is_eval v then
    match v with
    | CText s => Ok (mkcalc (PStr s) PNone final)                             (* 173-193 *)
    | CDict d =>
        match dget String.eqb d "func" with
        | None => Err KeyError
        | Some f => if dmem String.eqb d "meta_attrs" then Ok (mkcalc f PNone final)
                    else Err KeyError                                         (* 188: KeyError is not caught *)
        end
    end
  else
    match v with
    | CText _ => Err TypeError                                                (* 208: text indexed by text *)
    | CDict d =>
        match dget String.eqb d "name", dget String.eqb d "func" with
        | Some n, Some (PStr f) =>                                            (* 199-203 *)
            if registered f
            then let ks := map fst d in
                 let add := fun ks k => if smem k ks then ks else (ks ++ [k])%list in
                 Ok (mkcalc (PStr f) n (add (add (add ks "ref") "kwds") "meta_attrs"))
            else Err DefinitionValidationError                                (* 213-227 *)
        | Some _, Some _ => Err AttributeError
        | _, _ => Err DefinitionValidationError
        end
    end.
Definition calc_final_keys : list string := ["ref"; "meta_attrs"; "name"; "func"; "kwds"].
Definition same_keys (l m : list string) : bool := forallb (fun k => smem k m) l && forallb (fun k => smem k l) m.
(** 279-293: the whole assignment of a sequence; the flag is that of the last
    element parsed. *)
Definition calc_set (registered : string -> bool) (valid : calc_out -> bool) (value : list calc_in) : res (list calc_out) :=
  do ret <- map_res (calc_parse registered) value;
  let flag := match rev value with [] => false | v :: _ => calc_is_eval v end in
  if flag then Ok ret                                                         (* 280 *)
  else
    do s <- py_set (map co_name ret);                                         (* 282-286 *)
    if negb (zlen s =? zlen ret) then Err DefinitionValidationError
    else
      do _ <- map_res (fun c => if same_keys (co_keys c) calc_final_keys && valid c   (* 288-293 *)
                                then Ok tt else Err DefinitionValidationError) ret;
      Ok ret.

(** definition.py:1296-1322 [TimeRegion], for a dictionary. *)
Definition time_region_set (d : list (string * option (list Z))) : res (option (list (string * option (list Z)))) :=
  let d := fold_left (fun d k => if dmem String.eqb d k then d else dset String.eqb d k None) ["month"; "year"] d in
  if negb (forallb (fun kv => smem (fst kv) ["month"; "year"]) d) then Err DefinitionValidationError
  else if forallb (fun kv => match snd kv with None => true | Some _ => false end) d then Ok None
  else Ok (Some d).

(** ** environment.py *)

(** helpers.py:69-87 [format_bool], for the text of a process variable. *)
Definition format_bool (s : string) : res bool :=
  match parse_int s with
  | Some z => Ok (negb (z =? 0))
  | None =>
      let t := of_chars (map lower_char (chars s)) in
      if existsb (String.eqb t) ["t"; "true"] then Ok true
      else if existsb (String.eqb t) ["f"; "false"] then Ok false
      else Err ValueError
  end.

(** environment.py:205-239 [EnvParm] and 242-275 [EnvParmImport].  For the latter the default is
    whether the module can be imported and the format is [format_bool].
    Reading the process environment is reading [os]. *)
Record eparm := mkeparm {
  ep_name : string;
  ep_default : pv;
  ep_format : option (string -> res pv);
  ep_value : pv }.
Definition use_env : pv := PStr "use_env".
Definition osenv := string -> option string.

(** 217-232 [EnvParm.value]. *)
Definition parm_value (os : osenv) (p : eparm) : res pv :=
  if py_eq (ep_value p) use_env then
    match os (String.append "OCGIS_" (ep_name p)) with
    | None => Ok (ep_default p)
    | Some s => match ep_format p with Some f => f s | None => Ok (PStr s) end
    end
  else Ok (ep_value p).
Definition with_value (p : eparm) (v : pv) : eparm := mkeparm (ep_name p) (ep_default p) (ep_format p) v.

(** The attributes of an [Environment]: the parameters, and the attributes set
    directly ([ops] and names with a leading underscore). *)
Record environment := mkenv { en_parms : list (string * eparm); en_plain : list (string * pv) }.

(** 55-110: the parameters created by [__init__], those it then fixes if they
    are [None], with the value found by inspection, and the properties that
    make a new parameter at every access (137-141). *)
Record esetup := mksetup {
  su_table : list eparm;
  su_detect : list (string * pv);
  su_computed : list eparm }.

Definition find_computed (su : esetup) (name : string) : option eparm :=
  find (fun p => String.eqb (ep_name p) name) (su_computed su).

Definition is_direct (name : string) : bool :=
  String.eqb name "ops" || match name with String "_"%char _ => true | _ => false end.

(** 120-126 [__getattribute__]. *)
Definition env_get (su : esetup) (os : osenv) (st : environment) (name : string) : res pv :=
  match find_computed su name with
  | Some p => parm_value os (with_value p use_env)
  | None =>
      match dget String.eqb (en_parms st) name with
      | Some p => parm_value os p
      | None => match dget String.eqb (en_plain st) name with
                | Some v => Ok v
                | None => Err AttributeError
                end
      end
  end.

(** 128-135 [__setattr__], for values that are not themselves parameters; no
    parameter of the environment has an [on_change]. *)
Definition env_set (su : esetup) (st : environment) (name : string) (v : pv) : environment * option exc :=
  if is_direct name then (mkenv (en_parms st) (dset String.eqb (en_plain st) name v), None)
  else match find_computed su name with
       | Some _ => (st, None)                              (* the parameter assigned to is dropped *)
       | None =>
           match dget String.eqb (en_parms st) name with
           | Some p => (mkenv (dset String.eqb (en_parms st) name (with_value p v)) (en_plain st), None)
           | None => (st, Some AttributeError)
           end
       end.

(** 98-107: fix the parameters that are [None]. *)
Fixpoint env_detect (su : esetup) (os : osenv) (st : environment) (l : list (string * pv)) : environment * option exc :=
  match l with
  | [] => (st, None)
  | (name, found) :: t =>
      match env_get su os st name with
      | Err e => (st, Some e)
      | Ok PNone => env_detect su os (fst (env_set su st name found)) t
      | Ok _ => env_detect su os st t
      end
  end.

(** 55-110 [__init__], also run by 175-180 [reset] on the existing object: all
    parameters are made anew, other attributes stay. *)
Definition env_init (su : esetup) (os : osenv) (st : environment) : environment * option exc :=
  let st := mkenv (fold_left (fun d p => dset String.eqb d (ep_name p) (with_value p use_env)) (su_table su) (en_parms st))
                  (en_plain st) in
  let '(st, e) := env_detect su os st (su_detect su) in
  match e with
  | Some e => (st, Some e)
  | None => (mkenv (en_parms st) (dset String.eqb (dset String.eqb (en_plain st) "ops" PNone) "_optimize_store" (POther 0)), None)
  end.

(** What happens to an environment: an assignment or a reset, each with the
    process environment of the moment. *)
Inductive eevent := ESet (name : string) (v : pv) | EReset (os : osenv).
Definition env_step (su : esetup) (st : environment) (e : eevent) : environment :=
  match e with
  | ESet name v => fst (env_set su st name v)
  | EReset os => fst (env_init su os st)
  end.
Definition env_run (su : esetup) (os0 : osenv) (h : list eevent) : environment :=
  fold_left (env_step su) h (fst (env_init su os0 (mkenv [] []))).

(** The setup of environment.py:55-107, for a machine with the given working
    directory, home directory and installed modules; [netCDF4] inspection gives
    the last two.  Types used as defaults (NP_INT, NP_FLOAT, the coordinate
    system) are opaque objects. *)
Definition fmt_bool (s : string) : res pv := do b <- format_bool s; Ok (PBool b).
Definition fmt_str (s : string) : res pv := Ok (PStr s).
Definition ocgis_setup (cwd conf : string) (float : string -> res pv) (rtree cfunits esmf icclim mpi4py : bool)
    (prefer nc_par : bool) : esetup :=
  let b := Some fmt_bool in
  mksetup
    [mkeparm "OVERWRITE" (PBool false) b use_env;
     mkeparm "DIR_OUTPUT" (PStr cwd) None use_env;
     mkeparm "DIR_GEOMCABINET" PNone None use_env;
     mkeparm "DIR_SHPCABINET" PNone None use_env;
     mkeparm "DIR_DATA" PNone None use_env;
     mkeparm "DIR_TEST_DATA" PNone None use_env;
     mkeparm "MELTED" PNone b use_env;
     mkeparm "MODE" (PStr "raw") None use_env;
     mkeparm "PREFIX" (PStr "ocgis_output") None use_env;
     mkeparm "FILL_VALUE" (PFloat (inject_Z (10 ^ 20))) (Some float) use_env;
     mkeparm "VERBOSE" (PBool false) b use_env;
     mkeparm "OPTIMIZE_FOR_CALC" (PBool false) b use_env;
     mkeparm "ENABLE_FILE_LOGGING" (PBool false) b use_env;
     mkeparm "DEBUG" (PBool false) b use_env;
     mkeparm "DIR_BIN" PNone None use_env;
     mkeparm "USE_SPATIAL_INDEX" (PBool rtree) b use_env;
     mkeparm "USE_CFUNITS" (PBool cfunits) b use_env;
     mkeparm "USE_ESMF" (PBool esmf) b use_env;
     mkeparm "USE_ICCLIM" (PBool icclim) b use_env;
     mkeparm "USE_MPI4PY" (PBool mpi4py) b use_env;
     mkeparm "USE_MEMORY_OPTIMIZATIONS" (PBool false) b use_env;
     mkeparm "USE_NETCDF4_MPI" PNone b use_env;
     mkeparm "CONF_PATH" (PStr conf) None use_env;
     mkeparm "SUPPRESS_WARNINGS" (PBool true) b use_env;
     mkeparm "DEFAULT_GEOM_UID" (PStr "UGID") (Some fmt_str) use_env;
     mkeparm "NETCDF_FILE_FORMAT" (PStr "NETCDF4") (Some fmt_str) use_env;
     mkeparm "NP_INT" (POther 1) None use_env;
     mkeparm "NP_FLOAT" (POther 2) None use_env;
     mkeparm "ADD_OPS_MPI_BARRIER" (PBool true) b use_env;
     mkeparm "PREFER_NETCDFTIME" PNone b use_env;
     mkeparm "CLOBBER_UNITS_ON_BOUNDS" (PBool true) b use_env;
     mkeparm "SET_GRID_AXIS_ATTRS" (PBool true) b use_env;
     mkeparm "COORDSYS_ACTUAL" PNone None use_env;
     mkeparm "STRING_MAX_LENGTH" (PInt 255) None use_env]
    [("PREFER_NETCDFTIME", PBool prefer); ("USE_NETCDF4_MPI", PBool nc_par)]
    [mkeparm "DEFAULT_COORDSYS" (POther 3) None use_env].

(** ** util/helpers.py *)

(** [str(n)] as character codes; [-1] is no character: it marks an exhausted
    bound, which does not occur (see [digits_ok]). *)
Fixpoint digits (fuel : nat) (n : Z) : list Z :=
  match fuel with
  | O => [-1]
  | S f => if n <? 10 then [48 + n] else (digits f (n / 10) ++ [48 + n mod 10])%list
  end.
Definition str_of_int (n : Z) : list Z :=
  if n <? 0 then 45 :: digits (S (Z.to_nat (Z.log2 (- n)))) (- n) else digits (S (Z.to_nat (Z.log2 n))) n.

(** helpers.py:335-343 [create_zero_padded_integer]. *)
Definition create_zero_padded_integer (integer nzeros : Z) : list Z :=
  let sint := str_of_int integer in
  let nstr_zeros := nzeros - zlen sint in
  if nstr_zeros <=? 0 then sint
  else (repeat 48 (Z.to_nat nstr_zeros) ++ sint)%list.

(** helpers.py:666-689 [get_sorted_uris_by_time_dimension]; [max_time] reads
    the later end of the time extent of a dataset (in seconds). *)
Fixpoint sort_insert (x : Z) (l : list Z) : list Z :=
  match l with [] => [x] | y :: t => if x <=? y then x :: l else y :: sort_insert x t end.
Definition py_sorted (l : list Z) : list Z := fold_right sort_insert [] l.
Definition get_sorted_uris_by_time_dimension {U} (max_time : U -> res Z) (uris : list U) : res (list U) :=
  do to_sort <- fold_res (fun d uri => do t <- max_time uri; Ok (dset Z.eqb d t uri)) uris [];   (* 683-686 *)
  map_res (fun sk => match dget Z.eqb to_sort sk with Some u => Ok u | None => Err KeyError end)
          (py_sorted (map fst to_sort)).                                                          (* 687-688 *)

(** The month of a day number, after [datetime.date.fromordinal]. *)
Definition month_of_ordinal (ord : Z) : Z :=
  let n := ord - 1 in
  let n400 := n / 146097 in let n := n mod 146097 in
  let n100 := n / 36524 in let n := n mod 36524 in
  let n4 := n / 1461 in let n := n mod 1461 in
  let n1 := n / 365 in let n := n mod 365 in
  let year := n400 * 400 + 1 + n100 * 100 + n4 * 4 + n1 in
  if (n1 =? 4) || (n100 =? 4) then 12
  else zlen (filter (fun m => days_before_month year m <=? n) (zrange 1 13)).
Definition max_seconds : Z := seconds_of (mkdate 9999 12 31 23 59 59).
Definition month_delta : Z := 29 * 86400 + 12 * 3600.

(** helpers.py:1178-1185: the months collected for the range; a date after the
    year 9999 raises OverflowError. *)
Fixpoint collect_months (fuel : nat) (current last : Z) (months : list Z) : res (list Z) :=
  match fuel with
  | O => Err OutOfFuel
  | S f =>
      if current <=? last then
        let current := current + month_delta in
        if max_seconds <? current then Err OverflowError
        else
          let m := month_of_ordinal (current / 86400) in
          let months := if z_mem m months then months else (months ++ [m])%list in
          if zlen months =? 12 then Ok months else collect_months f current last months
      else Ok months
  end.

(** [min(l)], [max(l)] of integers. *)
Definition zs_min (l : list Z) : res Z := match l with [] => Err ValueError | x :: t => Ok (fold_left Z.min t x) end.
Definition zs_max (l : list Z) : res Z := match l with [] => Err ValueError | x :: t => Ok (fold_left Z.max t x) end.
(** [min(v), max(v)] of an entry; TypeError for [None]. *)
Definition entry_bounds (v : option (list Z)) : res (Z * Z) :=
  match v with
  | None => Err TypeError
  | Some l => do a <- zs_min l; do b <- zs_max l; Ok (a, b)
  end.

(** helpers.py:1126-1203 [validate_time_subset]; the region is given by its
    month and year entries. *)
Definition check_months (b : Z * Z) (months : list Z) : bool := z_mem (fst b) months && z_mem (snd b) months.
Definition check_years (b : Z * Z) (lo hi : Z) : bool :=
  ((lo <=? fst b) && (fst b <=? hi)) && ((lo <=? snd b) && (snd b <=? hi)).
Definition validate_time_subset (time_range : option (date * date))
    (time_region : option (option (list Z) * option (list Z))) : res bool :=
  match time_range, time_region with
  | None, _ | _, None => Ok true
  | Some (t0, t1), Some (month, year) =>
      let lo := dt_year t0 in let hi := dt_year t1 in
      let s0 := seconds_of t0 in let s1 := seconds_of t1 in
      do months <- collect_months (S (S (Z.to_nat ((s1 - s0) / month_delta)))) s0 s1 [];
      match month, year with
      | Some _, None => do b <- entry_bounds month; Ok (check_months b months)                   (* 1187-1189 *)
      | None, Some _ => do b <- entry_bounds year; Ok (check_years b lo hi)                      (* 1191-1193 *)
      | _, _ =>                                                                                  (* 1195-1201 *)
          do mb <- entry_bounds month;
          do yb <- entry_bounds year;
          Ok (check_months mb months && check_years yb lo hi)
      end
  end.
