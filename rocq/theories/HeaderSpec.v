(** The columns of the records of a field as a user sees them. *)
From Verif Require Import Py HeaderModel.
From Coq Require Import String.
Local Open Scope string_scope.

Definition follower_name (x : follower) : string := match x with FName n => n | FIter n => n end.

(** The variables of the records, in order. *)
Definition columns (p : prepared) : list string := p_variable p :: map follower_name (p_followers p).

(** The coordinates of the field in the order of records. *)
Definition coordinates (f : hfield) : list string :=
  ((match hf_geom f with Some (n, _) => [n] | None => [] end) ++
   (match hf_realization f with Some n => [n] | None => [] end) ++
   (match hf_time f with Some (n, _) => [n] | None => [] end) ++
   (match hf_level f with Some (n, _) => [n] | None => [] end))%list.

(** The headers that the coordinates are to have. *)
Definition Standard (f : hfield) (old new : string) : Prop :=
  (exists u n, hf_geom f = Some (n, Some u) /\ old = u /\ new = u) \/
  (hf_realization f = Some old /\ new = "RLZ") \/
  (exists b, hf_time f = Some (old, b) /\ new = "TIME") \/
  (exists n, hf_time f = Some (n, true) /\ (old = "lb_" ++ n /\ new = "LB_TIME" \/ old = "ub_" ++ n /\ new = "UB_TIME")) \/
  (exists t, hf_time f = Some t /\ In old ["YEAR"; "MONTH"; "DAY"] /\ new = old) \/
  (exists b, hf_level f = Some (old, b) /\ new = "LEVEL") \/
  (exists n, hf_level f = Some (n, true) /\ (old = "lb_" ++ n /\ new = "LB_LEVEL" \/ old = "ub_" ++ n /\ new = "UB_LEVEL")).
