From Coq Require Import QArith Lqa.
From Verif Require Import Py Lib NdModel AverModel AverSpec AverProofs AverRanks.
Local Close Scope Q_scope.
Local Open Scope string_scope.
Local Open Scope Z_scope.

Definition qn (n : nat) : Q := inject_Z (Z.of_nat n).

(** Two rows of three cells: areas 1, 2 and 1, the last cell of the second row masked. *)
Definition grid : geometry :=
  mkG [("y", 2%nat); ("x", 3%nat)] (fun idx => match idx with [_; 1%nat] => 2%Q | _ => 1%Q end)
      (fun idx => match idx with [1%nat; 2%nat] => true | _ => false end).
Definition still : variable :=
  mkV [("y", 2%nat); ("x", 3%nat)] (fun p => match p with [j; i] => qn (10 * j + i) | _ => 0%Q end)
      (fun p => match p with [0%nat; 0%nat] => true | _ => false end).
Definition moving : variable :=
  mkV [("y", 2%nat); ("time", 2%nat); ("x", 3%nat)]
      (fun p => match p with [j; t; i] => qn (10 * j + i + 5 * t) | _ => 0%Q end)
      (fun p => match p with [0%nat; 0%nat; 2%nat] => true | [0%nat; 1%nat; 0%nat] => true | _ => false end).
Definition blank : variable := mkV [("y", 2%nat); ("x", 3%nat)] (fun _ => 7%Q) (fun _ => true).
Definition night : variable :=
  mkV [("time", 2%nat); ("y", 2%nat); ("x", 3%nat)] (fun _ => 7%Q) (fun p => match p with 1%nat :: _ => true | _ => false end).
Definition turned : variable := mkV [("time", 2%nat); ("x", 3%nat); ("y", 2%nat)] (fun _ => 7%Q) (fun _ => false).

Lemma grid_ok : WellFormed grid.
Proof.
  split.
  - intro idx. cbn. destruct idx as [|a [|[|[|b]] [|c t]]]; discriminate.
  - cbn. constructor; [intros [E|[]]; discriminate|]. constructor; [intros []|constructor].
Qed.
Lemma moving_ok : Regular grid moving.
Proof. split; [reflexivity | discriminate]. Qed.

Lemma average_case : WellFormed grid /\ Forall (Static grid) [still] /\ Forall (Regular grid) [moving] /\
  Live grid moving [1%nat] [0%nat; 1%nat] /\
  exists out, spatial_average grid [still; moving] = Ok out /\
    map (fun a => map (fun p => (Qred (fst p), snd p)) (a_vals a)) out = [[(6%Q, false)]; [((17 # 3)%Q, false); (11%Q, false)]].
Proof.
  split; [exact grid_ok|]. split; [repeat constructor|]. split; [constructor; [exact moving_ok | constructor]|]. split.
  - split; [repeat constructor|]. split; [reflexivity|]. exists [0; 1; 1]%nat. split; [|reflexivity].
    apply splits_geom; [now left|]. apply splits_other; [intros [E|[E|[]]]; discriminate|]. apply splits_geom; [right; now left|]. constructor.
  - eexists. split; [reflexivity|]. vm_compute. reflexivity.
Qed.

Lemma masked_case : Static grid blank /\ (forall idx, ~ Live grid blank [] idx) /\
  exists out, spatial_average grid [blank] = Ok out.
Proof.
  split; [reflexivity|]. split.
  - intros idx (_ & _ & p & _ & E). discriminate.
  - eexists. reflexivity.
Qed.

Lemma night_case : Regular grid night /\ InGrid (Other grid night) [1%nat] /\ (forall idx, ~ Live grid night [1%nat] idx) /\
  exists out, spatial_average grid [night] = Ok out.
Proof.
  split; [split; [reflexivity|discriminate]|]. split; [repeat constructor|]. split.
  - intros idx (_ & _ & p & S & E). apply splits_place in S. subst p. discriminate.
  - eexists. reflexivity.
Qed.

Lemma turned_case : spatial_average grid [turned] = Err TypeError.
Proof. vm_compute. reflexivity. Qed.

Lemma after_case : WellFormed grid /\ Regular grid moving /\ Static grid still.
Proof. split; [exact grid_ok|]. split; [exact moving_ok | reflexivity]. Qed.

Lemma union_case : unions grid (names (g_dims grid)) = [([0%nat], [[0; 0]; [0; 1]; [0; 2]; [1; 0]; [1; 1]]%nat)].
Proof. vm_compute. reflexivity. Qed.

Definition wide : geometry := mkG [("y", 2%nat); ("x", 2%nat)] (fun idx => match idx with [0%nat; 1%nat] => 5%Q | _ => 1%Q end) (fun _ => false).

Lemma wide_ok : WellFormed wide.
Proof.
  split.
  - intro idx. cbn. destruct idx as [|[|a] [|[|[|b]] [|c t]]]; discriminate.
  - cbn. constructor; [intros [E|[]]; discriminate|]. constructor; [intros []|constructor].
Qed.

Lemma transposed_refuted : exists g v out a x l q,
  WellFormed g /\ v_dims v = rev (g_dims g) /\ spatial_average g [v] = Ok out /\ nth_error out 0 = Some a /\ a_vals a = [(q, false)] /\
  (forall i j, x [i; j] = v_val v [j; i]) /\ Lists (InGrid (g_dims g)) l /\
  (forall idx, g_masked g idx = false /\ v_masked v idx = false) /\ ~ IsMean (Weight g) x l q.
Proof.
  set (v := mkV [("x", 2%nat); ("y", 2%nat)] (fun p => match p with [0%nat; 1%nat] => 8%Q | _ => 0%Q end) (fun _ => false)).
  exists wide, v. eexists. eexists. exists (fun idx => match idx with [1%nat; 0%nat] => 8%Q | _ => 0%Q end), (indices [2%nat; 2%nat]). eexists.
  split; [exact wide_ok|]. split; [reflexivity|]. split; [reflexivity|]. split; [reflexivity|]. split; [reflexivity|].
  split; [intros [|[|i]] [|j]; reflexivity|]. split.
  - split; [apply nodup_indices|]. intro idx. rewrite in_grid. reflexivity.
  - split; [auto|]. intros [_ H]. vm_compute in H. discriminate.
Qed.

Lemma union_dims_refuted : exists g d n, WellFormed g /\ g_dims g = [n; d] /\ (forall idx, g_masked g idx = false) /\
  exists u1 u2, unions g [fst d] = [u1; u2] /\ fst u1 = [0%nat; 0%nat] /\ fst u2 = [1%nat; 0%nat] /\ snd u1 = snd u2 /\
  (forall idx, In idx (snd u2) -> hd 9%nat idx = 0%nat).
Proof.
  exists wide, ("x", 2%nat), ("y", 2%nat). split; [exact wide_ok|]. split; [reflexivity|]. split; [reflexivity|].
  exists ([0; 0]%nat, [[0; 0]; [0; 1]]%nat), ([1; 0]%nat, [[0; 0]; [0; 1]]%nat). split; [reflexivity|].
  split; [reflexivity|]. split; [reflexivity|]. split; [reflexivity|]. cbn. intros idx [<-|[<-|[]]]; reflexivity.
Qed.

(** Stations on two ranks: [n] on each, with values at two times. *)
Definition station (n : nat) (f : nat -> nat -> Q) : geometry * variable :=
  (mkG [("n", n)] (fun _ => 0%Q) (fun _ => false),
   mkV [("time", 2%nat); ("n", n)] (fun p => match p with [t; i] => f t i | _ => 0%Q end) (fun _ => false)).
Definition stations : list (geometry * variable) := [station 2 (fun t i => qn (6 - 5 * t + i)); station 2 (fun t i => qn (7 * t + i - i * t))].

Lemma station_parts n f g v : In (g, v) [station n f] -> WellFormed g /\ (Regular g v \/ Static g v) /\ Other g v = [("time", 2%nat)].
Proof.
  intros [E|[]]. injection E as <- <-. split; [split; [intros; discriminate | repeat constructor; intros []]|].
  split; [left; split; [reflexivity|discriminate] | reflexivity].
Qed.

Lemma station_points n f g v : (0 < n)%nat -> In (g, v) [station n f] ->
    (exists idx, InGrid (g_dims g) idx) /\
    (forall idx, g_area g idx = 0%Q) /\ (forall idx, g_masked g idx = false) /\ (forall p, v_masked v p = false).
Proof.
  intros Hn [E|[]]. injection E as <- <-. split; [|auto]. exists [0%nat]. repeat constructor. exact Hn.
Qed.

Lemma stations_parts n f m h : Parts [("time", 2%nat)] [station n f; station m h].
Proof. intros g v [E|[E|[]]]; [apply (station_parts n f) | apply (station_parts m h)]; now left. Qed.

Lemma stations_points n f m h : (0 < n)%nat -> (0 < m)%nat -> Points [station n f; station m h].
Proof. intros A B g v [E|[E|[]]]; [apply (station_points n f) | apply (station_points m h)]; auto; now left. Qed.

Lemma stations_case : Parts [("time", 2%nat)] stations /\ Points stations /\
  exists out, parallel_average (map (fun p => (fst p, [snd p])) stations) = Ok out /\ map Qred out = [(7 # 2)%Q; (17 # 4)%Q].
Proof.
  split; [apply stations_parts|]. split; [apply stations_points; lia|]. eexists. split; [reflexivity|]. vm_compute. reflexivity.
Qed.

(** One cell of area 1 on each rank. *)
Definition half (x : Q) (m : bool) : geometry * variable :=
  (mkG [("n", 1%nat)] (fun _ => 1%Q) (fun _ => false), mkV [("n", 1%nat)] (fun _ => x) (fun _ => m)).
Definition halves : list (geometry * variable) := [half 0 false; half 3 false].

Lemma halves_parts x y m n : Parts [] [half x m; half y n].
Proof.
  intros g v [E|[E|[]]]; injection E as <- <-; (split; [split; [intros; discriminate | repeat constructor; intros []]|]);
    (split; [right; reflexivity | reflexivity]).
Qed.

Lemma half_live x : forall g v, In (g, v) [half x false] -> Live g v [] [0%nat].
Proof.
  intros g v [E|[]]. injection E as <- <-. split; [repeat constructor|]. split; [reflexivity|]. exists [0%nat]. split; [|reflexivity].
  apply splits_geom; [now left|]. constructor.
Qed.

Lemma halves_case : Parts [] halves /\ forall g v it, In (g, v) halves -> InGrid [] it -> exists idx, Live g v it idx.
Proof.
  split; [apply halves_parts|]. intros g v it I G. inversion G; subst. exists [0%nat].
  destruct I as [E|[E|[]]]; [apply (half_live 0%Q) | apply (half_live 3%Q)]; now left.
Qed.

Lemma parallel_refuted : exists parts q l x,
  Parts [] parts /\ (forall g v, In (g, v) parts -> (forall idx, g_area g idx = 1%Q /\ g_masked g idx = false) /\ forall p, v_masked v p = false) /\
  parallel_average (map (fun p => (fst p, [snd p])) parts) = Ok [q] /\
  PartValue parts [] x /\ Lists (PartCell parts) l /\ ~ IsMean (fun _ => 1%Q) x l q.
Proof.
  exists halves. eexists. exists (all_cells halves), (fun c => match fst c with 0%nat => 0%Q | _ => 3%Q end).
  split; [apply halves_parts|]. split.
  { intros g v [E|[E|[]]]; injection E as <- <-; auto. }
  split; [reflexivity|]. split.
  { intros [|[|r]] g v idx p E _; cbn in E; try (destruct r; discriminate); injection E as <- <-; reflexivity. }
  split; [apply cells_lists|]. intros [_ H]. vm_compute in H. discriminate.
Qed.

Lemma order_refuted : exists od parts out it q l x,
  Parts od parts /\ Points parts /\ parallel_average (map (fun p => (fst p, [snd p])) parts) = Ok out /\
  InGrid od it /\ nth_error out (position od it) = Some q /\ PartValue parts it x /\ Lists (PartCell parts) l /\ ~ IsMean (fun _ => 1%Q) x l q.
Proof.
  set (parts := [station 1 (fun _ _ => 8%Q); station 3 (fun _ _ => 0%Q)]).
  exists [("time", 2%nat)], parts. eexists. exists [1%nat]. eexists. exists (all_cells parts), (fun c => match fst c with 0%nat => 8%Q | _ => 0%Q end).
  split; [apply stations_parts|]. split; [apply stations_points; lia|]. split; [reflexivity|]. split; [repeat constructor|].
  split; [reflexivity|]. split.
  { intros [|[|r]] g v idx p E S; cbn in E; try (destruct r; discriminate); injection E as <- <-;
      apply splits_place in S; subst p; reflexivity. }
  split; [apply cells_lists|]. intros [_ H]. vm_compute in H. discriminate.
Qed.

Lemma mask_refuted : exists parts q,
  Parts [] parts /\ parallel_average (map (fun p => (fst p, [snd p])) parts) = Ok [q] /\
  (forall g v idx p, In (g, v) parts -> Live g v [] idx -> Splits (names (g_dims g)) (v_dims v) p [] idx -> (v_val v p == 5)%Q) /\
  (exists g v idx, In (g, v) parts /\ Live g v [] idx) /\ ~ (q == 5)%Q.
Proof.
  exists [half 5 false; half 9 true]. eexists. split; [apply halves_parts|]. split; [reflexivity|]. split.
  - intros g v idx p [E|[E|[]]] (_ & _ & p' & _ & M) S; injection E as <- <-; [reflexivity | discriminate].
  - split; [|intro H; vm_compute in H; discriminate]. exists (fst (half 5 false)), (snd (half 5 false)), [0%nat].
    split; [now left|]. apply (half_live 5%Q). now left.
Qed.
