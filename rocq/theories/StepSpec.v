(** Subsets of time and level as a user sees them. *)
From Verif Require Import Py BetweenModel TimeModel StepModel.
From Coq Require Import QArith.
Local Open Scope Z_scope.

(** A number is in the range asked for. *)
Definition in_range (r : option (Q * Q)) (x : Q) : bool :=
  match r with None => true | Some (lower, upper) => Qle_bool lower x && Qle_bool x upper end.
(** A date has a part among those asked for, for every part that is restricted. *)
Definition in_region (r : option (list (dpart * option (list Z)))) (d : date) : bool :=
  match r with
  | None => true
  | Some l => forallb (fun kv => match snd kv with None => true | Some v => existsb (Z.eqb (part (fst kv) d)) v end) l
  end.

(** What a request asks for: ranges in order, and a region that restricts something. *)
Definition Ordered (r : option (Q * Q)) : Prop := match r with None => True | Some (lower, upper) => (lower <= upper)%Q end.
Definition Restricts (r : option (list (dpart * option (list Z)))) : Prop := match r with None => True | Some l => exists p v, In (p, Some v) l end.

(** The steps asked for, in order. *)
Definition asked_steps (time_range : option (Q * Q)) (region : option (list (dpart * option (list Z)))) (l : list tstep) : list tstep :=
  filter (fun s => in_range time_range (ts_time s) && in_region region (ts_date s)) l.
