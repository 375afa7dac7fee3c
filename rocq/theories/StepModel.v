(** Model of subsetting time by a function and of the subsets of time and level of a request:
    src/ocgis/variable/temporal.py and src/ocgis/ops/engine.py. *)
From Verif Require Import Py PartitionModel DimensionModel BetweenModel TimeModel.

(** Time steps: the numeric time and the date. *)
Record tstep := mktstep { ts_time : Q; ts_date : date }.

(** Slicing with a formatted slice. *)
Definition select_items {A} (l : list A) (s : slc) : res (list A) :=
  match s with
  | SSlice s => Ok (py_slice l s)
  | SInts idx => map_res (py_index l) idx
  | SBools m => if zlen m =? zlen l then Ok (bool_select m l) else Err IndexError
  end.

(** variable/temporal.py:345-378 [get_subset_by_function], of a time variable without bounds: [self[indices]]
    formats the indices as any other slice (util/helpers.py:435-490). *)
Definition get_subset_by_function (func : list date -> list Z) (steps : list tstep) : res (list tstep) :=
  do s <- format_singleton (RInts (func (map ts_date steps)));                                    (* 374-375 *)
  select_items steps s.

(** A field: its time steps and its levels, if it has them. *)
Record sfield := mksfield { sf_steps : list tstep; sf_levels : option (list Q) }.

(** ops/engine.py:387-406 [_get_nonspatial_subset_]; times and levels without bounds, and the range in
    the numbers of the time variable. *)
Definition subset_range (time_range : option (Q * Q)) (l : list tstep) : res (list tstep) :=
  match time_range with
  | None => Ok l
  | Some (lower, upper) => do r <- get_between l (map ts_time l) None lower upper false false true; Ok (fst r)   (* 397-398 *)
  end.
Definition subset_region (region : option (list (dpart * option (list Z)))) (l : list tstep) : res (list tstep) :=
  match region with
  | None => Ok l
  | Some reg => do r <- get_time_region l (mktvar (map ts_date l) None) reg; Ok (fst r)           (* 399-400 *)
  end.
Definition subset_func (func : option (list date -> list Z)) (l : list tstep) : res (list tstep) :=
  match func with
  | None => Ok l
  | Some fn => get_subset_by_function fn l                                                        (* 401-402 *)
  end.
Definition subset_level (level_range : option (Q * Q)) (levels : option (list Q)) : res (option (list Q)) :=
  match level_range with
  | None => Ok levels
  | Some (lower, upper) =>
      match levels with
      | None => Err AttributeError
      | Some l => do r <- get_between l l None lower upper false false true; Ok (Some (fst r))    (* 403-404 *)
      end
  end.
Definition nonspatial_subset (time_range : option (Q * Q)) (region : option (list (dpart * option (list Z))))
  (func : option (list date -> list Z)) (level_range : option (Q * Q)) (f : sfield) : res sfield :=
  do s1 <- subset_range time_range (sf_steps f);
  do s2 <- subset_region region s1;
  do s3 <- subset_func func s2;
  do l <- subset_level level_range (sf_levels f);
  Ok (mksfield s3 l).
