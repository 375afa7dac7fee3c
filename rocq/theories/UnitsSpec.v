(** What conversion of units should do, said without the functions of the model that do
    it.  Only the meaning of a unit ([to_base]) and the way arrays are read are used. *)
From Coq Require Import QArith Qround.
From Verif Require Import Py UnitsModel.
Local Close Scope Q_scope.
Local Open Scope nat_scope.

(** The units of the database have a scale. *)
Definition GoodTable (tbl : Z -> option cfu) : Prop := forall k u, tbl k = Some u -> ~ (u_scale u == 0)%Q.

(** The numbers [l] in the units [s] and the numbers [l'] in the units [d] are the same
    quantities. *)
Definition SameQuantities (s d : cfu) (l l' : list Q) : Prop :=
  Forall2 (fun q q' => (to_base s q == to_base d q')%Q) l l'.

(** The same numbers. *)
Definition SameNumbers (l l' : list Q) : Prop := Forall2 Qeq l l'.

(** The array lies in memory, each element once. *)
Definition InMemory (h : heap) (a : arr) : Prop :=
  a_buf a < length h /\ NoDup (a_idx a) /\ forall i, In i (a_idx a) -> i < length (nth (a_buf a) h []).

(** Two arrays without an element in common. *)
Definition Apart (a b : arr) : Prop := a_buf a <> a_buf b \/ forall i, In i (a_idx a) -> ~ In i (a_idx b).

Definition arrays_of (v : bvar) : list arr :=
  v_arr (b_main v) :: match b_bounds v with Some b => [v_arr b] | None => [] end.

(** A variable whose value and bounds lie in memory, apart from each other. *)
Definition GoodBvar (h : heap) (v : bvar) : Prop :=
  (forall a, In a (arrays_of v) -> InMemory h a) /\
  forall b, b_bounds v = Some b -> Apart (v_arr (b_main v)) (v_arr b).

(** No integer data type was asked for. *)
Definition NotInt (v : bvar) : Prop :=
  v_dt (b_main v) <> DInt /\ forall b, b_bounds v = Some b -> v_dt b <> DInt.

(** The units the numbers of a variable are in, for a call of [cfunits_conform]. *)
Definition FromUnits (v : bvar) (from : option Z) (s : Z) : Prop :=
  from = Some s \/ (from = None /\ v_units (b_main v) = Some s).

(** The variable [v'] in the memory [h'] says in the units [d] (named [to]) what [v] said in
    [s]: the same quantities, masked alike, and the units attribute tells the units. *)
Definition SaysTheSame (s d : cfu) (to : Z) (h : heap) (v : uvar) (h' : heap) (v' : uvar) : Prop :=
  SameQuantities s d (read h (v_arr v)) (read h' (v_arr v')) /\ v_mask v' = v_mask v /\ v_units v' = Some to.

Definition BothSayTheSame (s d : cfu) (to : Z) (h : heap) (v : bvar) (h' : heap) (v' : bvar) : Prop :=
  SaysTheSame s d to h (b_main v) h' (b_main v') /\
  match b_bounds v, b_bounds v' with
  | None, None => True
  | Some b, Some b' => SaysTheSame s d to h b h' b'
  | _, _ => False
  end.

(** The units attribute is known and of the kind of the units asked for. *)
Definition CanConform (tbl : Z -> option cfu) (t : Z) (v : bvar) : Prop :=
  exists s su du, v_units (b_main v) = Some s /\ tbl s = Some su /\ tbl t = Some du /\ u_dim su = u_dim du.

(** [v'] in [h'] says in the units [t] what [v] said in [h] in its own. *)
Definition Converted (tbl : Z -> option cfu) (t : Z) (h : heap) (v : bvar) (h' : heap) (v' : bvar) : Prop :=
  exists s su du, v_units (b_main v) = Some s /\ tbl s = Some su /\ tbl t = Some du /\ BothSayTheSame su du t h v h' v'.

(** Variables apart from each other. *)
Fixpoint AllApart (vs : list bvar) : Prop :=
  match vs with
  | [] => True
  | v :: t => (forall w a b, In w t -> In a (arrays_of v) -> In b (arrays_of w) -> Apart a b) /\ AllApart t
  end.

(** * Times *)

(** All elements are numbers, or all are dates. *)
Definition AllNum (l : list tval) : Prop := forall x, In x l -> exists q, x = Num q.
Definition AllDat (l : list tval) : Prop := forall x, In x l -> exists s, x = Dat s.
Definition Uniform (l : list tval) : Prop := AllNum l \/ AllDat l.

(** The instants that the values of a time variable stand for. *)
Definition instant (u : cfu) (x : tval) : Q := match x with Num q => to_base u q | Dat s => s end.
Definition instants (u : cfu) (l : list tval) : list Q := map (instant u) l.

(** What reading the numbers and the dates of a value should give: the number of the
    instant, and the instant in whole seconds (dates are given as they are). *)
Definition number_of (u : cfu) (x : tval) (q : Q) : Prop := (to_base u q == instant u x)%Q.
Definition date_of (u : cfu) (x : tval) (s : Q) : Prop :=
  match x with Num q => s = inject_Z (Qfloor (to_base u q)) | Dat d => s = d end.

(** A history of a time variable of [n] values that keeps to time units the library knows
    (those of the dimension [D]) and in which units, value and mask are set only while
    nothing has been read since the beginning or since the last conversion ([read] tells
    whether something has). *)
Fixpoint Orderly (tbl : Z -> option cfu) (D : Z) (read : bool) (n : nat) (os : list top) : Prop :=
  match os with
  | [] => True
  | ReadNum :: t | ReadDates :: t => Orderly tbl D true n t
  | SetUnits k :: t => read = false /\ (exists u, tbl k = Some u /\ u_dim u = D) /\ Orderly tbl D read n t
  | SetValue l :: t => read = false /\ length l = n /\ Uniform l /\ Orderly tbl D read n t
  | SetMask m :: t => read = false /\ length m = n /\ Orderly tbl D read n t
  | SliceAt ix :: t => ix <> [] /\ (forall i, In i ix -> i < n) /\ Orderly tbl D read (length ix) t
  | Conform k :: t => (exists u, tbl k = Some u /\ u_dim u = D) /\ Orderly tbl D false n t
  end.

(** Neither converted nor sliced. *)
Definition plain (o : top) : Prop := match o with SliceAt _ | Conform _ => False | _ => True end.

(** A time variable just made: as many mask values as values, uniform, nothing read. *)
Definition FreshTime (tbl : Z -> option cfu) (D : Z) (v : tvar) : Prop :=
  t_val v <> [] /\ length (t_mask v) = length (t_val v) /\ Uniform (t_val v) /\
  t_num v = None /\ t_dat v = None /\ exists u, tbl (t_units v) = Some u /\ u_dim u = D.

(** * Requests *)

(** The units given: one string for one variable, or as many as there are variables. *)
Definition given (x : uarg) (l : list uval) : Prop :=
  match x with UNone => False | UOne k false => l = [Some (k, false)] | UOne _ true => False | USeq l' => l = l' end.

(** The variable [r] has units that can be conformed to the units [c]. *)
Definition AskedFor (tbl : Z -> option cfu) (r : rvar) (c : uval) : Prop :=
  exists s d su du, r_units r = Some (s, false) /\ c = Some (d, false) /\ tbl s = Some su /\ tbl d = Some du /\ u_dim su = u_dim du.
