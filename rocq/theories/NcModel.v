(** Writing variable collections to netCDF files and reading them: driver/nc.py,
    driver/base.py, variable/attributes.py.

    What the netCDF library does is written down in the definitions that start with [nc_]: a
    new variable holds its fill value, or the default of its type, everywhere; masked
    values are written as the attribute missing_value, the fill value or the
    default, whichever is there first; they read as masked when equal to one of them, except
    that a type of one byte has no default; an index past the end of a dimension of
    fixed size is refused and one past the end of an unlimited dimension makes it longer.

    Simplifications.  Numbers are integers and an array is a function of its index.  The
    file format is NETCDF4 and the library is not built for parallel writes
    ([env.USE_NETCDF4_MPI] is false).  The attributes scale_factor and add_offset,
    variables of variable length and times held as dates do not occur.  Variables are
    not geometry variables, and none is empty. *)
From Verif Require Import Py AverModel.
Local Open Scope string_scope.
Local Open Scope Z_scope.

(** variable/dimension.py:31-200.  [d_size] is the length without regard to ranks,
    [d_global] the upper global bound, [d_lo] and [d_hi] the local bounds. *)
Record dim := mkdim { d_name : string; d_unlimited : bool; d_size : nat; d_global : nat; d_lo : nat; d_hi : nat }.

Inductive attr := ANone | ANum (z : Z) | AStr (s : string).

(** variable/base.py:238-320; [v_byte] and [v_default] tell what the netCDF library knows
    about the type, [v_fill] is [fill_value] (517-530). *)
Record var := mkvar {
  v_name : string;
  v_dims : list dim;
  v_byte : bool;
  v_default : Z;
  v_fill : Z;
  v_value : option (list nat -> Z);
  v_mask : option (list nat -> bool);
  v_attrs : list (string * attr);
  v_units : option string }.

Record coll := mkcoll { c_attrs : list (string * attr); c_vars : list var }.

(** A file, or a group in a file.  A dimension has a fixed size or the present length
    of an unlimited one. *)
Record ncdim := mkncdim { nd_unlimited : bool; nd_len : nat }.
Record ncvar := mkncvar {
  n_dims : list string;
  n_byte : bool;
  n_default : Z;
  n_fill : option Z;
  n_data : list nat -> Z;
  n_attrs : list (string * attr) }.
Record nfile := mkfile { f_attrs : list (string * attr); f_dims : list (string * ncdim); f_vars : list (string * ncvar) }.
Definition empty_file : nfile := mkfile [] [] [].

(** constants.py:282-288; [APPEND] is another name of [FILL]. *)
Inductive mode := NORMAL | TEMPLATE | FILL.

Definition shape (ds : list dim) : list nat := map (fun d => d_hi d - d_lo d)%nat ds.

(** variable/base.py:577-588 [has_masked_values]. *)
Definition has_masked_values (v : var) : bool :=
  match v_mask v with None => false | Some m => existsb m (indices (shape (v_dims v))) end.

(** driver/nc.py:110-114. *)
Fixpoint to_fixed (ds : list dim) : list dim :=
  match ds with
  | [] => []
  | d :: t =>
      if d_unlimited d then let n := (d_hi d - d_lo d)%nat in mkdim (d_name d) false n n 0 n :: t
      else d :: to_fixed t
  end.

(** driver/nc.py:688-697 [create_dimension_or_pass]. *)
Definition create_dimension (m : mode) (f : nfile) (d : dim) : nfile :=
  if dmem String.eqb (f_dims f) (d_name d) then f
  else
    let nd := if d_unlimited d then mkncdim true 0
              else mkncdim false (match m with TEMPLATE => d_global d | _ => d_size d end) in
    mkfile (f_attrs f) (f_dims f ++ [(d_name d, nd)]) (f_vars f).

(** driver/nc.py:92-138: the variable in the file, without values. *)
Definition create_variable (m : mode) (fixed file_only : bool) (v : var) (f : nfile) : res nfile :=
  let ds := if fixed then to_fixed (v_dims v) else v_dims v in
  let f1 := fold_left (create_dimension m) ds f in                                        (* 115-117 *)
  let fill :=
    if (negb (Nat.eqb (List.length ds) 0) && has_masked_values v
        && (match m with TEMPLATE => true | _ => false end || negb file_only))
       || dmem String.eqb (v_attrs v) "_FillValue"
    then Some (v_fill v) else None in                                                     (* 120-133 *)
  if dmem String.eqb (f_vars f1) (v_name v) then Err RuntimeError
  else
    let start := match fill with Some z => z | None => v_default v end in
    Ok (mkfile (f_attrs f1) (f_dims f1)
          (f_vars f1 ++ [(v_name v, mkncvar (map d_name ds) (v_byte v) (v_default v) fill (fun _ => start) [])])).

(** variable/base.py:2451-2457 [get_slice_sequence_using_local_bounds]. *)
Definition inside (ds : list dim) (idx : list nat) : bool :=
  Nat.eqb (List.length idx) (List.length ds) &&
  forallb (fun p => Nat.leb (d_lo (snd p)) (fst p) && Nat.ltb (fst p) (d_hi (snd p))) (combine idx ds).
Definition local_index (ds : list dim) (idx : list nat) : list nat :=
  map (fun p => fst p - d_lo (snd p))%nat (combine idx ds).

Definition missing_value (n : ncvar) : option Z :=
  match dget String.eqb (n_attrs n) "missing_value" with Some (ANum z) => Some z | _ => None end.
Definition nc_write_missing (n : ncvar) : Z :=
  match missing_value n with
  | Some z => z
  | None => match n_fill n with Some z => z | None => n_default n end
  end.
Definition nc_is_missing (n : ncvar) (z : Z) : bool :=
  match missing_value n with Some w => Z.eqb z w | None => false end
  || match n_fill n with
     | Some w => Z.eqb z w
     | None => negb (n_byte n) && Z.eqb z (n_default n)
     end.

(** Making the dimensions of a file long enough for local bounds. *)
Fixpoint nc_extend (names : list string) (ds : list dim) (fd : list (string * ncdim)) : res (list (string * ncdim)) :=
  match names, ds with
  | n :: names', d :: ds' =>
      match dget String.eqb fd n with
      | None => Err KeyError
      | Some nd =>
          if Nat.leb (d_hi d) (nd_len nd) then nc_extend names' ds' fd
          else if nd_unlimited nd then nc_extend names' ds' (dset String.eqb fd n (mkncdim true (d_hi d)))
          else Err IndexError
      end
  | _, _ => Ok fd
  end.

(** driver/nc.py:148-170, driver/base.py:582-594 [get_variable_write_value]. *)
Definition cell (n : ncvar) (v : var) (value : list nat -> Z) (i : list nat) : Z :=
  match v_mask v with
  | Some m => if m i then nc_write_missing n else value i
  | None => value i
  end.
Definition write_data (v : var) (f : nfile) : res nfile :=
  match v_value v with
  | None => Ok f
  | Some value =>
      match dget String.eqb (f_vars f) (v_name v) with
      | None => Err KeyError
      | Some n =>
          do fd <- nc_extend (n_dims n) (v_dims v) (f_dims f);
          let data := fun idx => if inside (v_dims v) idx then cell n v value (local_index (v_dims v) idx) else n_data n idx in
          Ok (mkfile (f_attrs f) fd (dset String.eqb (f_vars f) (v_name v)
                (mkncvar (n_dims n) (n_byte n) (n_default n) (n_fill n) data (n_attrs n))))
      end
  end.

(** variable/attributes.py:38-61 [write_attributes_to_netcdf_object]. *)
Definition is_private (k : string) : bool := prefix "_" k.
Definition write_attributes (attrs target : list (string * attr)) : list (string * attr) :=
  fold_left (fun t p => match snd p with
                        | ANone => t
                        | a => if is_private (fst p) then t else dset String.eqb t (fst p) a
                        end) attrs target.

(** driver/nc.py:171-175. *)
Definition write_var_attributes (v : var) (f : nfile) : res nfile :=
  match dget String.eqb (f_vars f) (v_name v) with
  | None => Err KeyError
  | Some n =>
      let a := write_attributes (v_attrs v) (n_attrs n) in
      let a' := match v_units v with Some u => dset String.eqb a "units" (AStr u) | None => a end in
      Ok (mkfile (f_attrs f) (f_dims f) (dset String.eqb (f_vars f) (v_name v)
            (mkncvar (n_dims n) (n_byte n) (n_default n) (n_fill n) (n_data n) a')))
  end.

(** driver/nc.py:59-177 [write_variable] of an orphaned variable. *)
Definition write_variable (m : mode) (fixed file_only : bool) (f : nfile) (v : var) : res nfile :=
  let file_only := match m with TEMPLATE => true | _ => file_only end in                  (* 86-87 *)
  do f1 <- match m with FILL => if dmem String.eqb (f_vars f) (v_name v) then Ok f else Err KeyError
                      | _ => create_variable m fixed file_only v f end;                  (* 94-138 *)
  do f2 <- (if file_only : bool then Ok f1 else write_data v f1);
  match m with FILL => Ok f2 | _ => write_var_attributes v f2 end.

(** driver/nc.py:205-218: one collection on one rank; a mode other than [FILL] starts a
    new file. *)
Definition write_collection (m : mode) (fixed file_only : bool) (c : coll) (f : nfile) : res nfile :=
  let f0 := match m with FILL => f | _ => mkfile (write_attributes (c_attrs c) []) [] [] end in
  fold_res (write_variable m fixed file_only) (c_vars c) f0.

(** driver/base.py:775-800, driver/nc.py:179-228: on one rank, a collection with its children,
    and on several. *)
Inductive tree := Tree (c : coll) (children : list (string * tree)).
Inductive gfile := GFile (f : nfile) (groups : list (string * gfile)).

Fixpoint write_tree (fixed file_only : bool) (t : tree) : res gfile :=
  match t with
  | Tree c children =>
      do f <- write_collection NORMAL fixed file_only c empty_file;
      do gs <- (fix go l := match l with
                            | [] => Ok []
                            | (k, t') :: l' => do g <- write_tree fixed file_only t'; do r <- go l'; Ok ((k, g) :: r)
                            end) children;
      Ok (GFile f gs)
  end.

(** The ranks take turns.  A group is an open object, which is refused on more than one
    rank (driver/base.py:783-785). *)
Definition write_parallel (fixed file_only : bool) (ranks : list tree) : res gfile :=
  match ranks with
  | [] => Err ValueError
  | [t] => write_tree fixed file_only t
  | Tree c0 ch0 :: _ =>
      do f <- write_collection TEMPLATE fixed file_only c0 empty_file;
      match ch0 with
      | _ :: _ => Err ValueError
      | [] =>
          do g <- fold_res (fun f t => match t with
                                       | Tree c [] => write_collection FILL fixed file_only c f
                                       | Tree c (_ :: _) => Err ValueError
                                       end) ranks f;
          Ok (GFile g [])
      end
  end.

(** conv/base.py:160-198: collections one after the other on one rank. *)
Definition write_append (fixed file_only : bool) (cs : list coll) : res nfile :=
  match cs with
  | [] => Err ValueError
  | c :: t =>
      do f <- write_collection NORMAL fixed file_only c empty_file;
      fold_res (fun f c' => write_collection FILL fixed file_only c' f) t f
  end.

(** A variable read from a file: names, lengths and kinds of dimensions, values, mask, attributes. *)
Record rvar := mkrvar {
  r_dims : list (string * ncdim);
  r_value : list nat -> Z;
  r_mask : option (list nat -> bool);
  r_attrs : list (string * attr) }.

(** driver/nc.py:822-882 [update_group_metadata], 553-590 [init_variable_using_metadata_for_netcdf],
    655-685 [get_variable_value] with local bounds [(lo, hi)] for each dimension; the file is opened
    with [set_always_mask(False)] (265-266). *)
Definition read_variable (bounds : list (nat * nat)) (name : string) (f : nfile) : res rvar :=
  match dget String.eqb (f_vars f) name with
  | None => Err KeyError
  | Some n =>
      do ds <- map_res (fun k => match dget String.eqb (f_dims f) k with Some d => Ok (k, d) | None => Err KeyError end) (n_dims n);
      let at_ (i : list nat) := map (fun p => fst p + fst (snd p))%nat (combine i bounds) in
      let value (i : list nat) := n_data n (at_ i) in
      let masked (i : list nat) := nc_is_missing n (value i) in
      let shape := map (fun b => snd b - fst b)%nat bounds in
      Ok (mkrvar ds value (if existsb masked (indices shape) then Some masked else None)
            (filter (fun p => negb (String.eqb (fst p) "add_offset" || String.eqb (fst p) "scale_factor"))
               (match n_fill n with Some z => [("_FillValue", ANum z)] | None => [] end ++ n_attrs n)))
  end.

(** * Strings *)

(** A variable of strings on one rank (variable/base.py:318, 620-629): the local values along its first
    dimension and the length kept from an earlier write. *)
Record svar := mksvar { s_dim : dim; s_vals : list string; s_max : option nat }.

(** Characters in a file: [None] is the fill character. *)
Record schars := mkschars { ch_rows : nat; ch_width : nat; ch_at : nat -> nat -> option Ascii.ascii }.

Definition longest (l : list string) : nat := fold_right Nat.max 0%nat (map String.length l).

(** variable/base.py:1471-1489 [set_string_max_length_global], driver/base.py:794-797; on all ranks. *)
Definition string_max (ranks : list svar) : nat :=
  match ranks with
  | [] => 0%nat
  | r :: _ => match s_max r with
              | Some n => n
              | None => fold_right Nat.max 0%nat (map (fun r => longest (s_vals r)) ranks)
              end
  end.

(** driver/nc.py:153-163: character by character. *)
Fixpoint put_chars (row col : nat) (s : string) (c : schars) : res schars :=
  match s with
  | EmptyString => Ok c
  | String a s' =>
      if Nat.ltb row (ch_rows c) && Nat.ltb col (ch_width c)
      then put_chars row (S col) s'
             (mkschars (ch_rows c) (ch_width c)
                (fun i j => if Nat.eqb i row && Nat.eqb j col then Some a else ch_at c i j))
      else Err IndexError
  end.
Fixpoint put_strings (row : nat) (l : list string) (c : schars) : res schars :=
  match l with
  | [] => Ok c
  | s :: l' => do c' <- put_chars row 0 s c; put_strings (S row) l' c'
  end.

(** One file for all ranks (driver/nc.py:104-108), and one for parts written one after the other, where
    the first part decides (conv/base.py:160-198). *)
Definition write_strings (ranks : list svar) : res schars :=
  match ranks with
  | [] => Err ValueError
  | r :: _ =>
      fold_res (fun c s => put_strings (d_lo (s_dim s)) (s_vals s) c) ranks
               (mkschars (d_global (s_dim r)) (string_max ranks) (fun _ _ => None))
  end.
Definition append_strings (parts : list svar) : res schars :=
  match parts with
  | [] => Err ValueError
  | r :: _ =>
      fold_res (fun c s => put_strings (d_lo (s_dim s)) (s_vals s) c) parts
               (mkschars (d_global (s_dim r)) (string_max [r]) (fun _ _ => None))
  end.

(** * The coordinate system of the file *)

(** environment.py:92-95: what readers leave for writers. *)
Record envst := mkenv { e_crs : option string; e_axis : bool }.
Definition fresh_env : envst := mkenv None true.

(** A dataset that is opened: the coordinate system its metadata describe, whether that is a rotated pole,
    whether spherical coordinates are there as well, and the request's [rotated_pole_priority]. *)
Record source := mksource { so_crs : string; so_rotated : bool; so_spherical : bool; so_priority : bool }.

(** driver/nc.py:388-390. *)
Definition swaps (s : source) : bool := negb (so_priority s) && so_rotated s && so_spherical s.

(** driver/nc.py:373-399 [create_dimension_map]. *)
Definition open_source (e : envst) (s : source) : envst :=
  if swaps s then mkenv (Some (so_crs s)) false else e.

(** The coordinate system of a field made from a dataset (driver/nc.py:334-335, 700-742 [get_crs_variable]). *)
Definition field_crs (s : source) : string := if swaps s then "latitude_longitude" else so_crs s.

(** driver/nc.py:475-509 [_get_field_write_target_]: the coordinate system in the file. *)
Definition written_crs (e : envst) (own : string) : string :=
  match e_crs e with Some c => c | None => own end.

(** spatial/grid.py:234-238: the axis attributes a new grid sets on its coordinates. *)
Definition grid_axis_attrs (e : envst) : list (string * string) :=
  if e_axis e then [("x", "X"); ("y", "Y")] else [].

(** A session: datasets are opened, fields made from them are written, grids are made. *)
Inductive event := Open (s : source) | Write (s : source) | NewGrid.
Inductive effect := Wrote (crs : string) | Axes (l : list (string * string)).

Fixpoint session (e : envst) (l : list event) : list effect :=
  match l with
  | [] => []
  | Open s :: t => session (open_source e s) t
  | Write s :: t => Wrote (written_crs e (field_crs s)) :: session e t
  | NewGrid :: t => Axes (grid_axis_attrs e) :: session e t
  end.
