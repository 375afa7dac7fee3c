(** Concrete units, variables and histories. *)
From Coq Require Import QArith Qround Lia.
From Verif Require Import Py UnitsModel UnitsSpec UnitsProofs UnitsMore UnitsTime.
Local Close Scope Q_scope.
Local Open Scope nat_scope.

(** 1 kelvin, 2 degrees Celsius, 3 metres, 4 days since an epoch, 5 days since ten days
    later, 6 hours since the epoch; other strings are unknown. *)
Definition units_db (k : Z) : option cfu :=
  match k with
  | 1%Z => Some {| u_dim := 0; u_scale := 1; u_off := 0 |}
  | 2%Z => Some {| u_dim := 0; u_scale := 1; u_off := 5463 # 20 |}
  | 3%Z => Some {| u_dim := 1; u_scale := 1; u_off := 0 |}
  | 4%Z => Some {| u_dim := 2; u_scale := 86400 # 1; u_off := 0 |}
  | 5%Z => Some {| u_dim := 2; u_scale := 86400 # 1; u_off := 864000 # 1 |}
  | 6%Z => Some {| u_dim := 2; u_scale := 3600 # 1; u_off := 0 |}
  | _ => None
  end.

Lemma units_db_good : GoodTable units_db.
Proof.
  intros k u H. destruct (Z.eq_dec k 1) as [->|]; [injection H as <-; discriminate|].
  destruct (Z.eq_dec k 2) as [->|]; [injection H as <-; discriminate|].
  destruct (Z.eq_dec k 3) as [->|]; [injection H as <-; discriminate|].
  destruct (Z.eq_dec k 4) as [->|]; [injection H as <-; discriminate|].
  destruct (Z.eq_dec k 5) as [->|]; [injection H as <-; discriminate|].
  destruct (Z.eq_dec k 6) as [->|]; [injection H as <-; discriminate|].
  exfalso. revert H. unfold units_db. destruct k as [|[[[p|p|]|[p|p|]|]|[[p|p|]|[p|p|]|]|]|]; try discriminate; congruence.
Qed.

(** Memory: three temperatures in kelvin, their bounds, and two spare numbers. *)
Definition kelvin_heap : heap := [[300; 301; 302]; [299; 301; 300; 302; 301; 303]; [10; 20]]%Q.
Definition kelvin_main : uvar := {| v_units := Some 1%Z; v_dt := DFloat; v_arr := {| a_buf := 0; a_idx := [0; 1; 2]; a_int := false |}; v_mask := [false; true; false] |}.
Definition kelvin_bounds : uvar := {| v_units := None; v_dt := DAuto; v_arr := {| a_buf := 1; a_idx := [0; 1; 2; 3; 4; 5]; a_int := false |}; v_mask := repeat false 6 |}.
Definition kelvin_var : bvar := {| b_main := kelvin_main; b_bounds := Some kelvin_bounds |}.

Lemma in_memory_dec h b l i : b < length h -> NoDup l -> (forall j, In j l -> j < length (nth b h [])) -> InMemory h {| a_buf := b; a_idx := l; a_int := i |}.
Proof. intros H1 H2 H3. split; [exact H1|]. split; [exact H2|exact H3]. Qed.

Ltac nodup := repeat (constructor; [cbn; intuition lia|]); constructor.

Lemma kelvin_good : GoodBvar kelvin_heap kelvin_var.
Proof.
  split.
  - intros a [<-|[<-|[]]]; (apply in_memory_dec; [cbn; lia | nodup | cbn; intuition lia]).
  - intros b X. injection X as <-. left. cbn. lia.
Qed.

Lemma kelvin_not_int : NotInt kelvin_var.
Proof. split; [discriminate|]. intros b X. injection X as <-. discriminate. Qed.

(** An integer variable of 300 and 301 kelvin. *)
Definition int_heap : heap := [[300; 301]]%Q.
Definition int_var : bvar :=
  {| b_main := {| v_units := Some 1%Z; v_dt := DInt; v_arr := {| a_buf := 0; a_idx := [0; 1]; a_int := true |}; v_mask := [false; false] |};
     b_bounds := None |}.

(** Two overlapping selections of the three temperatures. *)
Definition sel (ix : list nat) : bvar :=
  {| b_main := {| v_units := Some 1%Z; v_dt := DFloat; v_arr := {| a_buf := 0; a_idx := ix; a_int := false |}; v_mask := repeat false (length ix) |};
     b_bounds := None |}.

Lemma sel_good ix : NoDup ix -> (forall i, In i ix -> i < 3) -> GoodBvar kelvin_heap (sel ix).
Proof.
  intros N H. split; [|cbn; congruence]. intros a [<-|[]]. apply in_memory_dec; [cbn; lia | exact N | exact H].
Qed.

Lemma sel_ok ix : NoDup ix -> (forall i, In i ix -> i < 3) ->
  GoodBvar kelvin_heap (sel ix) /\ NotInt (sel ix) /\ CanConform units_db 2 (sel ix).
Proof.
  intros N H. split; [now apply sel_good|]. split; [split; [discriminate | cbn; congruence]|].
  exists 1%Z. do 2 eexists. repeat (split; [reflexivity|]). reflexivity.
Qed.

Definition numbers (r : heap * list bvar * res unit) : option (list (list Q)) :=
  let '(h, vs, e) := r in if is_ok e then Some (map (fun v => map Qred (read h (v_arr (b_main v)))) vs) else None.

(** Times: the days 0 and 1 since the epoch with bounds. *)
Definition two_days : tvar := {| t_units := 4; t_val := [Num 0; Num 1]%Q; t_mask := [false; false]; t_num := None; t_dat := None |}.
Definition day_bounds : tvar := {| t_units := 4; t_val := [Num 0; Num 1; Num 1; Num 2]%Q; t_mask := repeat false 4; t_num := None; t_dat := None |}.
Definition day_bounds_dates : tvar :=
  {| t_units := 4; t_val := [Dat 0; Dat 86400; Dat 86400; Dat 172800]%Q; t_mask := repeat false 4; t_num := None; t_dat := None |}.

Lemma two_days_fresh : FreshTime units_db 2 two_days.
Proof.
  split; [discriminate|]. split; [reflexivity|]. split; [left; intros x [<-|[<-|[]]]; eauto|]. split; [reflexivity|]. split; [reflexivity|].
  eexists. split; reflexivity.
Qed.

Lemma day_bounds_fresh : FreshTime units_db 2 day_bounds.
Proof.
  split; [discriminate|]. split; [reflexivity|]. split; [left; intros x [<-|[<-|[<-|[<-|[]]]]]; eauto|]. split; [reflexivity|]. split; [reflexivity|].
  eexists. split; reflexivity.
Qed.

Definition bound_dates (r : tvar * tvar * res unit) : option (list Q) :=
  let '(_, b, e) := r in
  match e, units_db (t_units b) with Ok _, Some u => Some (map Qred (instants u (t_val b))) | _, _ => None end.

(** A history that keeps to the order. *)
Definition orderly_history : list top :=
  [SetUnits 6; SetValue [Num 24; Num 48]%Q; SetMask [true; false]; ReadNum; ReadDates; SliceAt [1; 0]; Conform 5; SetUnits 4; SetValue [Dat 0; Dat 86400]%Q; ReadNum].

Lemma orderly_ok : Orderly units_db 2 false 2 orderly_history.
Proof.
  cbn. split; [reflexivity|]. split; [eexists; split; reflexivity|]. split; [reflexivity|]. split; [reflexivity|].
  split; [left; intros x [<-|[<-|[]]]; eauto|]. split; [reflexivity|]. split; [reflexivity|]. split; [discriminate|].
  split; [intros i [<-|[<-|[]]]; lia|]. split; [eexists; split; reflexivity|]. split; [reflexivity|]. split; [eexists; split; reflexivity|].
  split; [reflexivity|]. split; [reflexivity|]. split; [right; intros x [<-|[<-|[]]]; eauto|]. exact I.
Qed.

(** Requests: two variables, in kelvin and in metres. *)
Definition two_vars : list rvar :=
  [{| r_name := 10; r_units := Some (1%Z, false); r_conform := None |}; {| r_name := 11; r_units := Some (3%Z, false); r_conform := None |}].
