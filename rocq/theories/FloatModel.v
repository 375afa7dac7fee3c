(** Longitude wrapping in binary64, the arithmetic NumPy uses for coordinates: IEEE 754
    with rounding to nearest even, from the standard library's SpecFloat. *)
From Coq Require Import ZArith List Floats.SpecFloat.
Import ListNotations.
Local Open Scope Z_scope.

Definition prec := 53.
Definition emax := 1024.
Definition fl (m e : Z) : spec_float := binary_normalize prec emax m e false.
Definition fadd := SFadd prec emax.
Definition fsub := SFsub prec emax.

(** spatial/wrap.py:53-72 [CoordinateArrayWrapper.wrap], wrap axis 180, with
    NaN comparing false. *)
Definition wrap_float (arr : list spec_float) : list spec_float :=
  map (fun x => if SFltb (fl 180 0) x then fsub x (fl 360 0) else x) arr.
(** spatial/wrap.py:74-82 [CoordinateArrayWrapper.unwrap], centre axis 0. *)
Definition unwrap_float (arr : list spec_float) : list spec_float :=
  map (fun x => if SFltb x (fl 0 0) then fadd x (fl 360 0) else x) arr.
