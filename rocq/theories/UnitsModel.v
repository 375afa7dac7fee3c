(** Conversion of units: [Variable.cfunits_conform], its use by time variables, by
    request datasets and by operations.

    Units are affine, as far as this model goes: a unit has a kind of quantity, a scale
    and an offset, and the number [q] in it stands for [scale * q + offset] in the base
    unit of the kind.  Temperatures, lengths and "days since ..." are of this form;
    logarithmic units and calendars are not modelled.  Numbers are exact rationals.
    What a units string means is the parameter [tbl] (the UDUNITS database): a string is
    a key, and [None] is a string the database does not know, for which the units class
    raises ValueError.  A units object is represented by the string it prints. *)
From Coq Require Import QArith Qround.
From Verif Require Import Py.
Local Close Scope Q_scope.
Local Open Scope nat_scope.

Record cfu := { u_dim : Z; u_scale : Q; u_off : Q }.

Definition to_base (u : cfu) (q : Q) : Q := (u_scale u * q + u_off u)%Q.
Definition of_base (u : cfu) (b : Q) : Q := ((b - u_off u) / u_scale u)%Q.

(** The number the units library returns for [q] in [s] expressed in [d]. *)
Definition lib_convert (s d : cfu) (q : Q) : Q := of_base d (to_base s q).

(** [Unit.is_convertible] and [Unit.__eq__]. *)
Definition convertible (s d : cfu) : bool := (u_dim s =? u_dim d)%Z.
Definition cfu_eqb (s d : cfu) : bool :=
  ((u_dim s =? u_dim d)%Z && Qeq_bool (u_scale s) (u_scale d) && Qeq_bool (u_off s) (u_off d))%bool.

(** * Arrays

    numpy arrays share memory: an array is a buffer and the positions of its elements in
    that buffer; a slice of an array is another array on the same buffer. *)
Definition heap := list (list Q).
Record arr := { a_buf : nat; a_idx : list nat; a_int : bool }.

Definition read_at (h : heap) (b i : nat) : Q := nth i (nth b h []) 0%Q.
Definition read (h : heap) (a : arr) : list Q := map (read_at h (a_buf a)) (a_idx a).

(** A new array with the elements [l]. *)
Definition alloc (h : heap) (l : list Q) (is_int : bool) : heap * arr :=
  (h ++ [l], {| a_buf := length h; a_idx := seq 0 (length l); a_int := is_int |}).

Fixpoint set_nth {A} (i : nat) (x : A) (l : list A) : list A :=
  match l, i with
  | [], _ => []
  | _ :: t, O => x :: t
  | y :: t, S j => y :: set_nth j x t
  end.

(** [a[...] = f(a)]. *)
Definition write_map (f : Q -> Q) (h : heap) (a : arr) : heap :=
  fold_left (fun h' i => set_nth (a_buf a) (set_nth i (f (read_at h' (a_buf a) i)) (nth (a_buf a) h' [])) h') (a_idx a) h.

(** [astype(int)] drops the fraction. *)
Definition qtrunc (q : Q) : Q := if Qle_bool 0 q then inject_Z (Qfloor q) else inject_Z (Qceiling q).

(** The data type asked for: [_dtype] is 'auto', a float type or an integer type. *)
Inductive dty := DAuto | DFloat | DInt.

(** The optional packages: [cf_units] converts into a new array, [cfunits] is asked to
    convert in place. *)
Inductive backend := CfUnits | Cfunits.

Section Units.
Variable tbl : Z -> option cfu.

(** util/units.py:91-98 [get_units_object] of a string or of None (the units class makes
    an unknown unit of None, which is convertible to nothing). *)
Definition get_units_object (s : option Z) : res (option cfu) :=
  match s with
  | None => Ok None
  | Some k => match tbl k with Some u => Ok (Some u) | None => Err ValueError end
  end.

Definition convertible_o (s d : option cfu) : bool :=
  match s, d with Some x, Some y => convertible x y | _, _ => false end.

(** The ordered pairs of elements at different positions ([itertools.permutations(l, 2)],
    the order of the pairs aside). *)
Fixpoint pairs {A} (l : list A) : list (A * A) :=
  match l with
  | [] => []
  | x :: t => flat_map (fun y => [(x, y); (y, x)]) t ++ pairs t
  end.

(** util/units.py:6-18. *)
Definition get_are_units_equivalent (l : list (option cfu)) : res bool :=
  if length l <? 2 then Err ValueError
  else Ok (forallb (fun p => convertible_o (fst p) (snd p)) (pairs l)).

(** util/units.py:21-30, for units the database knows. *)
Definition get_are_units_equal (l : list cfu) : res bool :=
  if length l <? 2 then Err ValueError
  else Ok (forallb (fun p => cfu_eqb (fst p) (snd p)) (pairs l)).

(** util/units.py:33-59.  [lower] is [str.lower]; [installed] tells whether a units
    package can be imported (lines 50-51 are outside the [try]). *)
Definition units_equal_by_string_or_cfunits (lower : Z -> Z) (installed : bool) (source target : Z) (try_cfunits : bool)
  : res bool :=
  if try_cfunits then
    if installed then
      match tbl source, tbl target with
      | Some a, Some b => get_are_units_equal [a; b]
      | _, _ => Err ValueError
      end
    else Err RuntimeError (* ImportError *)
  else Ok (lower source =? lower target)%Z.

(** util/units.py:62-73 [get_conformed_units] (units objects are made of the strings in
    lines 65-66).  The array asked for is returned as it is when the units are equal. *)
Definition get_conformed_units (bk : backend) (h : heap) (a : arr) (src dst : Z) : res (heap * arr) :=
  match tbl src, tbl dst with
  | Some s, Some d =>
      if convertible s d then
        if cfu_eqb s d then Ok (h, a)
        else match bk with
             | CfUnits => Ok (alloc h (map (lib_convert s d) (read h a)) false)
             | Cfunits => if a_int a then Ok (alloc h (map (lib_convert s d) (read h a)) false)
                          else Ok (write_map (lib_convert s d) h a, a)
             end
      else Err ValueError
  | _, _ => Err ValueError
  end.

(** * Variables

    Of a variable only what conversion touches: units attribute, data type asked for,
    value, mask and bounds (a second such variable). *)
Record uvar := { v_units : option Z; v_dt : dty; v_arr : arr; v_mask : list bool }.
Record bvar := { b_main : uvar; b_bounds : option uvar }.

Definition with_units (v : uvar) (k : option Z) : uvar :=
  {| v_units := k; v_dt := v_dt v; v_arr := v_arr v; v_mask := v_mask v |}.

(** variable/base.py:731-736 [_set_units_]. *)
Definition set_units (v : bvar) (k : Z) : bvar :=
  {| b_main := with_units (b_main v) (Some k);
     b_bounds := match b_bounds v with Some b => Some (with_units b (Some k)) | None => None end |}.

(** variable/base.py:765-823 [set_value] with a masked array: the array is cast to the
    data type asked for (lines 792-812) and the mask is the one of the array. *)
Definition set_value (h : heap) (v : uvar) (a : arr) : heap * uvar :=
  let '(h', a') :=
    match v_dt v, a_int a with
    | DInt, false => alloc h (map qtrunc (read h a)) true
    | DFloat, true => alloc h (read h a) false
    | _, _ => (h, a)
    end in
  (h', {| v_units := v_units v; v_dt := v_dt v; v_arr := a'; v_mask := v_mask v |}).

(** variable/base.py:914-915: the data type loads from the value afterwards. *)
Definition auto_dtype (v : uvar) : uvar :=
  {| v_units := v_units v; v_dt := DAuto; v_arr := v_arr v; v_mask := v_mask v |}.

(** variable/base.py:895-899: the source units.  [self.cfunits] makes a units object of
    the units of the variable. *)
Definition source_units (v : uvar) (from : option Z) : res Z :=
  match from, v_units v with
  | None, None => Err NoUnitsError
  | Some k, _ => Ok k
  | None, Some k => match tbl k with Some _ => Ok k | None => Err ValueError end
  end.

(** variable/base.py:883-917 [cfunits_conform] of the bounds, which have no bounds. *)
Definition conform_bounds (bk : backend) (h : heap) (v : uvar) (to : Z) (from : option Z) : heap * uvar * res unit :=
  match source_units v from with
  | Err e => (h, v, Err e)
  | Ok s =>
      let v1 := with_units v (Some to) in
      match get_conformed_units bk h (v_arr v) s to with
      | Err e => (h, v1, Err e)
      | Ok (h1, a) => let '(h2, v2) := set_value h1 v1 a in (h2, auto_dtype v2, Ok tt)
      end
  end.

(** variable/base.py:883-917 [cfunits_conform].  The result is the memory and the variable
    after the call, also after one that raises. *)
Definition cfunits_conform (bk : backend) (h : heap) (v : bvar) (to : Z) (from : option Z) : heap * bvar * res unit :=
  match source_units (b_main v) from with
  | Err e => (h, v, Err e)
  | Ok s =>
      let v1 := set_units v to in
      match get_conformed_units bk h (v_arr (b_main v)) s to with
      | Err e => (h, v1, Err e)
      | Ok (h1, a) =>
          let '(h2, m2) := set_value h1 (b_main v1) a in
          let m3 := auto_dtype m2 in
          match b_bounds v1 with
          | None => (h2, {| b_main := m3; b_bounds := None |}, Ok tt)
          | Some b =>
              let '(h3, b', r) := conform_bounds bk h2 b to (Some s) in
              (h3, {| b_main := m3; b_bounds := Some b' |}, r)
          end
      end
  end.

(** ops/engine.py:277-283: the units of all data variables of the selections are
    converted one after the other; the first exception ends it. *)
Fixpoint conform_all (bk : backend) (h : heap) (vs : list bvar) (to : Z) : heap * list bvar * res unit :=
  match vs with
  | [] => (h, [], Ok tt)
  | v :: t =>
      match cfunits_conform bk h v to None with
      | (h1, v1, Err e) => (h1, v1 :: t, Err e)
      | (h1, v1, Ok _) => let '(h2, t2, r) := conform_all bk h1 t to in (h2, v1 :: t2, r)
      end
  end.

(** * Time variables

    A value of a time variable is a number in its units or a date; dates are in base
    units (seconds).  Times are one-dimensional here, masks are as long as the values. *)
Inductive tval := Num (q : Q) | Dat (s : Q).

Record tvar := { t_units : Z; t_val : list tval; t_mask : list bool;
                 t_num : option (list Q * list bool);   (* _value_numtime *)
                 t_dat : option (list Q * list bool) }. (* _value_datetime *)

(** variable/temporal.py:768-780: the first element tells whether all are dates. *)
Definition is_dates (l : list tval) : bool := match l with Dat _ :: _ => true | _ => false end.

Definition raw (x : tval) : Q := match x with Num q => q | Dat s => s end.

(** variable/temporal.py:277-299 [get_numtime] (netCDF4's date2num; units the library does
    not know raise ValueError). *)
Definition get_numtime (k : Z) (l : list Q) : res (list Q) :=
  match tbl k with Some u => Ok (map (of_base u) l) | None => Err ValueError end.

(** variable/temporal.py:200-225 [get_datetime]: the fractions of seconds are dropped
    (line 219).  Month units are not modelled. *)
Definition get_datetime (k : Z) (l : list Q) : res (list Q) :=
  match tbl k with
  | Some u => Ok (map (fun q => inject_Z (Qfloor (to_base u q))) l)
  | None => Err ValueError
  end.

Definition with_num (v : tvar) (c : list Q * list bool) : tvar :=
  {| t_units := t_units v; t_val := t_val v; t_mask := t_mask v; t_num := Some c; t_dat := t_dat v |}.
Definition with_dat (v : tvar) (c : list Q * list bool) : tvar :=
  {| t_units := t_units v; t_val := t_val v; t_mask := t_mask v; t_num := t_num v; t_dat := Some c |}.

(** variable/temporal.py:125-136 [value_numtime]: computed once. *)
Definition value_numtime (v : tvar) : tvar * res (list Q * list bool) :=
  match t_num v with
  | Some c => (v, Ok c)
  | None =>
      match t_val v with
      | [] => (v, Err IndexError)
      | _ =>
          if is_dates (t_val v) then
            match get_numtime (t_units v) (map raw (t_val v)) with
            | Ok l => (with_num v (l, t_mask v), Ok (l, t_mask v))
            | Err e => (v, Err e)
            end
          else (with_num v (map raw (t_val v), t_mask v), Ok (map raw (t_val v), t_mask v))
      end
  end.

(** variable/temporal.py:109-123 [value_datetime] with [format_time]: computed once. *)
Definition value_datetime (v : tvar) : tvar * res (list Q * list bool) :=
  match t_dat v with
  | Some c => (v, Ok c)
  | None =>
      match t_val v with
      | [] => (v, Err IndexError)
      | _ =>
          if is_dates (t_val v) then
            (with_dat v (map raw (t_val v), t_mask v), Ok (map raw (t_val v), t_mask v))
          else
            match get_datetime (t_units v) (map raw (t_val v)) with
            | Ok l => (with_dat v (l, t_mask v), Ok (l, t_mask v))
            | Err e => (v, Err e)
            end
      end
  end.

Definition t_set_units (v : tvar) (k : Z) : tvar :=
  {| t_units := k; t_val := t_val v; t_mask := t_mask v; t_num := t_num v; t_dat := t_dat v |}.

(** variable/temporal.py:735-741 [set_value] (the template units aside): base.py:765-823
    with an array that is not masked. *)
Definition t_set_value (v : tvar) (l : list tval) : tvar :=
  {| t_units := t_units v; t_val := l; t_mask := t_mask v; t_num := t_num v; t_dat := t_dat v |}.

Definition t_set_mask (v : tvar) (m : list bool) : tvar :=
  {| t_units := t_units v; t_val := t_val v; t_mask := m; t_num := t_num v; t_dat := t_dat v |}.

(** The elements of [l] at the positions [ix] ([array.__getitem__]). *)
Definition picks {A} (ix : list nat) (l : list A) : list A :=
  flat_map (fun i => match nth_error l i with Some x => [x] | None => [] end) ix.

(** variable/base.py:322-334 and variable/temporal.py:55-59: a slice, here as the positions
    it selects. *)
Definition t_slice (v : tvar) (ix : list nat) : tvar :=
  let both := fun c : list Q * list bool => (picks ix (fst c), picks ix (snd c)) in
  {| t_units := t_units v; t_val := picks ix (t_val v); t_mask := picks ix (t_mask v);
     t_num := option_map both (t_num v); t_dat := option_map both (t_dat v) |}.

(** variable/temporal.py:704-711 [_set_to_conform_value_]. *)
Definition t_conformed (v : tvar) (l : list Q) (m : list bool) : tvar :=
  {| t_units := t_units v; t_val := map Num l; t_mask := m; t_num := None; t_dat := None |}.

(** util/units.py:62-73 on the numbers of a time variable. *)
Definition convert_list (l : list Q) (src dst : Z) : res (list Q) :=
  match tbl src, tbl dst with
  | Some s, Some d => if convertible s d then Ok (map (lib_convert s d) l) else Err ValueError
  | _, _ => Err ValueError
  end.

(** variable/base.py:883-914 for a time variable without its bounds, given the source
    units (a time variable always has units, temporal.py:52-53). *)
Definition t_conform_from (v : tvar) (to from : Z) : tvar * res unit :=
  match value_numtime v with
  | (v1, Err e) => (v1, Err e)
  | (v1, Ok (l, m)) =>
      let v2 := t_set_units v1 to in
      match convert_list l from to with
      | Err e => (v2, Err e)
      | Ok l' => (t_conformed v2 l' m, Ok tt)
      end
  end.

Definition t_conform (v : tvar) (to : Z) : tvar * res unit :=
  match tbl (t_units v) with
  | None => (v, Err ValueError)
  | Some _ => t_conform_from v to (t_units v)
  end.

(** variable/base.py:883-917 for a time variable with bounds: line 906 sets the units of
    both, line 917 converts the bounds. *)
Definition tb_conform (v b : tvar) (to : Z) : tvar * tvar * res unit :=
  match tbl (t_units v) with
  | None => (v, b, Err ValueError)
  | Some _ =>
      let from := t_units v in
      match value_numtime v with
      | (v1, Err e) => (v1, b, Err e)
      | (v1, Ok (l, m)) =>
          let v2 := t_set_units v1 to in
          let b2 := t_set_units b to in
          match convert_list l from to with
          | Err e => (v2, b2, Err e)
          | Ok l' =>
              let '(b3, r) := t_conform_from b2 to from in
              (t_conformed v2 l' m, b3, r)
          end
      end
  end.

(** What may be done with a time variable. *)
Inductive top :=
| ReadNum | ReadDates
| SetUnits (k : Z) | SetValue (l : list tval) | SetMask (m : list bool)
| SliceAt (ix : list nat) | Conform (to : Z).

Definition t_step (v : tvar) (o : top) : tvar :=
  match o with
  | ReadNum => fst (value_numtime v)
  | ReadDates => fst (value_datetime v)
  | SetUnits k => t_set_units v k
  | SetValue l => t_set_value v l
  | SetMask m => t_set_mask v m
  | SliceAt ix => t_slice v ix
  | Conform to => fst (t_conform v to)
  end.

Definition t_run (v : tvar) (os : list top) : tvar := fold_left t_step os v.

(** * Requests

    Of a request dataset only its data variables: name, the units attribute in the
    metadata, and the units to conform to.  A units value is None, a string or a units
    object ([true]). *)
Definition uval := option (Z * bool).
Record rvar := { r_name : Z; r_units : uval; r_conform : uval }.

(** The argument of [units] and [conform_units_to]. *)
Inductive uarg := UNone | UOne (k : Z) (is_object : bool) | USeq (l : list uval).

(** util/helpers.py:788-799 [get_tuple]: a units object is not iterable. *)
Definition get_tuple_uarg (x : uarg) : res (list uval) :=
  match x with
  | UNone => Ok [None]
  | UOne k false => Ok [Some (k, false)]
  | UOne k true => Err TypeError
  | USeq l => Ok l
  end.

Definition obj_of (x : uval) : res (option cfu) := get_units_object (option_map fst x).

(** driver/request/core.py:552-557 [validate_units]: the handler reads [e.message], which
    exceptions of Python 3 do not have. *)
Definition validate_units (l : list uval) : res unit :=
  match map_res obj_of l with Ok _ => Ok tt | Err _ => Err AttributeError end.

(** driver/request/core.py:560-567. *)
Fixpoint validate_unit_equivalence (src dst : list uval) : res unit :=
  match src, dst with
  | s :: ss, d :: dd =>
      do s' <- obj_of s; do d' <- obj_of d;
      do e <- get_are_units_equivalent [s'; d'];
      if e : bool then validate_unit_equivalence ss dd else Err RequestValidationError
  | _, _ => Ok tt
  end.

(** driver/request/core.py:428-434 [units]: [get_first_or_tuple] of the attributes; then
    [get_tuple] of it (line 274). *)
Definition units_tuple (vs : list rvar) : res (list uval) :=
  match map r_units vs with
  | [Some (k, true)] => Err TypeError
  | l => Ok l
  end.

(** driver/request/core.py:436-448 [units.setter].  [vs] are the variables of the request in its order; their
    names are distinct. *)
Definition set_request_units (use_cfunits : bool) (vs : list rvar) (x : uarg) : res (list rvar) :=
  match x with
  | UNone => Ok vs
  | _ =>
      do l <- get_tuple_uarg x;
      if negb (length l =? length vs) then Err RequestValidationError
      else
        do _ <- (if use_cfunits then validate_units l else Ok tt);
        Ok (map (fun p => {| r_name := r_name (fst p); r_units := snd p; r_conform := r_conform (fst p) |}) (combine vs l))
  end.

(** driver/request/core.py:264-278 [conform_units_to.setter]. *)
Definition set_request_conform (use_cfunits : bool) (vs : list rvar) (x : uarg) : res (list rvar) :=
  match x with
  | UNone => Ok vs
  | _ =>
      do l <- get_tuple_uarg x;
      if negb (length l =? length vs) then Err RequestValidationError
      else
        do _ <- (if use_cfunits then validate_units l else Ok tt);
        do us <- units_tuple vs;
        do _ <- validate_unit_equivalence us l;
        Ok (map (fun p => {| r_name := r_name (fst p); r_units := r_units (fst p); r_conform := snd p |}) (combine vs l))
  end.

(** driver/request/core.py:216-217: [units] first, then [conform_units_to]. *)
Definition request (use_cfunits : bool) (vs : list rvar) (units conform : uarg) : res (list rvar) :=
  do vs1 <- set_request_units use_cfunits vs units;
  set_request_conform use_cfunits vs1 conform.

(** driver/nc.py:571-602 and driver/base.py:624-643 (and driver/vector.py:36-59): the
    variable as read from the file, its units attribute being the one to conform to, then
    conformed on load. *)
Definition load (bk : backend) (h : heap) (r : rvar) (dt : dty) (a : arr) (m : list bool) : heap * bvar * res unit :=
  match r_conform r with
  | None => (h, {| b_main := {| v_units := option_map fst (r_units r); v_dt := dt; v_arr := a; v_mask := m |};
                   b_bounds := None |}, Ok tt)
  | Some (k, _) =>
      let v := {| b_main := {| v_units := Some k; v_dt := dt; v_arr := a; v_mask := m |}; b_bounds := None |} in
      match r_units r with
      | Some (s, _) => cfunits_conform bk h v k (Some s)
      | None => cfunits_conform bk h v k None
      end
  end.

End Units.
