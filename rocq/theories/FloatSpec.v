(** Vocabulary of the binary64 part of C32. *)
From Coq Require Import ZArith Floats.SpecFloat.
From Verif Require Import FloatModel.
Local Open Scope Z_scope.

(** A finite double; its value as a number of units of 2^-1074, the smallest positive
    double, which every finite double is a whole multiple of. *)
Definition Double (x : spec_float) : Prop :=
  match x with S754_zero _ => True | S754_finite _ m e => bounded prec emax m e = true | _ => False end.
Definition units (x : spec_float) : Z :=
  match x with S754_finite s m e => cond_Zopp s (Zpos m * 2 ^ (e + 1074)) | _ => 0 end.
Definition degrees (n : Z) : Z := n * 2 ^ 1074.
