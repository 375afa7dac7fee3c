(** Concrete histories of collections. *)
From Verif Require Import Py Lib CollModel CollSpec CollProofs CollReachProofs.
Local Open Scope string_scope.
Local Open Scope Z_scope.

Lemma run_ok {A} (m : heap * res A) x : snd m = Ok x -> m = (fst m, Ok x).
Proof. destruct m; cbn; intros ->; reflexivity. Qed.

(** A collection with a variable, and another variable on its own: its bounds. *)
Definition s1 := fst (new_coll no_coll empty_heap).
Definition s2 := fst (new_dim (mkdim "time" (Some 3) None None) s1).
Definition s3 := fst (new_variable "temp" (Some [3]) (Some [DObj 1]) (Some 0) s2).
Definition s4 := fst (new_variable "tb" (Some [3; 2]) (Some [DObj 1; DNm "bnds"]) None s3).
(** The bounds move in, and both are tagged. *)
Definition s5 := fst (set_bounds 2 (Some 4) false s4).
Definition s6 := fst (append_to_tags 0 "data" ["temp"; "tb"] true s5).
(** Variables on their own that do not fit. *)
Definition s7 := fst (new_variable "x" (Some [4]) (Some [DNm "time"]) None s6).
Definition s8 := fst (new_variable "temp" None None None s7).

Ltac absent := intros ?; vm_compute; intuition congruence.
Lemma r1 : Reach s1 [0].
Proof. apply (RNewColl empty_heap); [constructor|]. apply run_ok. reflexivity. Qed.
Lemma r2 : Reach s2 [0].
Proof. eapply RNewDim; [apply r1|]. apply run_ok. reflexivity. Qed.
Lemma r3 : Reach s3 [0].
Proof.
  eapply (RNewVar s2 [0] s3 0 "temp" (Some [3]) (Some [DObj 1]) (Ok 2)); [apply r2|now left|absent| | |discriminate].
  - intros l d E; injection E as <-. intros [H|[]]. injection H as <-. reflexivity.
  - apply run_ok. vm_compute. reflexivity.
Qed.
Lemma r4 : Reach s4 [3; 0].
Proof.
  eapply (RNewLone s3 [0] s4 "tb" (Some [3; 2]) (Some [DObj 1; DNm "bnds"]) 4 3); [apply r3| | |vm_compute; reflexivity].
  - intros l d E; injection E as <-. intros [H|[H|[]]]; [|discriminate]. injection H as <-. reflexivity.
  - apply run_ok. vm_compute. reflexivity.
Qed.
Lemma apart4 : Apart s4 0 3.
Proof. intros k v w. vm_compute. intuition congruence. Qed.
Lemma r5 : Reach s5 [0].
Proof.
  change (Reach s5 (filter (fun x => negb (x =? 3)) [3; 0])).
  eapply (RSetBounds s4 [3; 0] s5 0 3 "temp" 2 "tb" 4); [apply r4|now right; left|now left|lia|vm_compute; auto|vm_compute; auto|apply apart4|].
  apply run_ok. vm_compute. reflexivity.
Qed.
Lemma r6 : Reach s6 [0].
Proof. eapply (RAppendTag s5 [0] s6 0 "data"); [apply r5|now left|]. apply run_ok. vm_compute. reflexivity. Qed.
Lemma r7 : Reach s7 [6; 0].
Proof.
  eapply (RNewLone s6 [0] s7 "x" (Some [4]) (Some [DNm "time"]) 7 6); [apply r6| | |vm_compute; reflexivity].
  - intros l d E; injection E as <-. intros [H|[]]; discriminate.
  - apply run_ok. vm_compute. reflexivity.
Qed.
Lemma r8 : Reach s8 [9; 6; 0].
Proof.
  eapply (RNewLone s7 [6; 0] s8 "temp" None None 10 9); [apply r7| | |vm_compute; reflexivity].
  - intros l d E; discriminate.
  - apply run_ok. vm_compute. reflexivity.
Qed.

(** ** Histories that go wrong *)
Definition two : list cop :=
  [CNewColl; CNewDim (mkdim "time" (Some 3) None None); CNewVariable "temp" (Some [3]) (Some [DObj 1]) (Some 0);
   CNewDim (mkdim "level" (Some 5) None None); CNewVariable "wind" (Some [5]) (Some [DObj 3]) (Some 0)].
Lemma two_reach : Reach (crun two) [0].
Proof.
  set (t := fst (new_dim (mkdim "level" (Some 5) None None) s3)).
  eapply (RNewVar t [0] (crun two) 0 "wind" (Some [5]) (Some [DObj 3]) (Ok 4)); [|now left|absent| | |discriminate].
  - eapply RNewDim; [apply r3|]. apply run_ok. reflexivity.
  - intros l d E; injection E as <-. intros [H|[]]. injection H as <-. reflexivity.
  - apply run_ok. vm_compute. reflexivity.
Qed.
Lemma two_fine : Consistent (crun two) 0.
Proof. eapply reach_consistent; [apply two_reach|now left]. Qed.
(** [add_variable] of a variable the collection has already. *)
Lemma own_variable : snd (add_variable 0 2 false (crun two)) = Err VariableInCollectionError
  /\ ~ Consistent (crun (two ++ [CAddVariable 0 2 false])%list) 0.
Proof.
  split; [vm_compute; reflexivity|]. intros H. assert (Hl : Listed (crun (two ++ [CAddVariable 0 2 false])%list) 0 "temp" 2) by (vm_compute; auto).
  apply (cs_parent _ _ H) in Hl. vm_compute in Hl. discriminate.
Qed.
(** Renaming a variable to the name of another. *)
Lemma rename_drops : Listed (crun two) 0 "wind" 4 /\ snd (set_name 2 "wind" (crun two)) = Ok tt
  /\ forall k, ~ Listed (crun (two ++ [CSetName 2 "wind"])%list) 0 k 4.
Proof. split; [vm_compute; auto|]. split; [vm_compute; reflexivity|]. intros k. vm_compute. intuition congruence. Qed.
(** A constructor that raises. *)
Lemma constructor_left : snd (new_variable "bad" (Some [7]) (Some [DObj 1]) (Some 0) (crun two)) = Err ValueError
  /\ ~ Consistent (crun (two ++ [CNewVariable "bad" (Some [7]) (Some [DObj 1]) (Some 0)])%list) 0.
Proof.
  split; [vm_compute; reflexivity|]. set (h := crun (two ++ [CNewVariable "bad" (Some [7]) (Some [DObj 1]) (Some 0)])%list). intros H.
  assert (Hl : Listed h 0 "bad" 5) by (vm_compute; auto).
  assert (Hf := cs_sizes _ _ H "bad" 5 ["time"] [7] Hl eq_refl eq_refl). inversion Hf as [|? ? ? ? Hx _]; subst.
  destruct (Hx 1) as [E|E]; [vm_compute; auto|vm_compute in E; discriminate|vm_compute in E; discriminate].
Qed.
(** Renaming a dimension to the name of another. *)
Lemma dim_overwritten : snd (rename_dimension 0 "time" "level" (crun two)) = Ok tt
  /\ ~ Consistent (crun (two ++ [CRenameDimension 0 "time" "level"])%list) 0.
Proof.
  split; [vm_compute; reflexivity|]. set (h := crun (two ++ [CRenameDimension 0 "time" "level"])%list). intros H.
  assert (Hl : Listed h 0 "wind" 4) by (vm_compute; auto).
  assert (Hf := cs_sizes _ _ H "wind" 4 ["level"] [5] Hl eq_refl eq_refl). inversion Hf as [|? ? ? ? Hx _]; subst.
  destruct (Hx 1) as [E|E]; [vm_compute; auto|vm_compute in E; discriminate|vm_compute in E; discriminate].
Qed.
(** A dimension renamed in a copy. *)
Lemma copy_shares : snd (copy_coll 0 (crun two)) = Ok 5
  /\ ~ Consistent (crun (two ++ [CCopy 0; CRenameDimension 5 "time" "t"])%list) 0.
Proof.
  split; [vm_compute; reflexivity|]. intros H.
  assert (Hr : Registered (crun (two ++ [CCopy 0; CRenameDimension 5 "time" "t"])%list) 0 "time" 1) by (vm_compute; auto).
  apply (cs_dim_name _ _ H) in Hr. vm_compute in Hr. discriminate.
Qed.
(** A forced dimension. *)
Lemma forced_dim : ~ Consistent (crun (two ++ [CNewDim (mkdim "time" (Some 9) None None); CAddDimension 0 5 true true])%list) 0.
Proof.
  set (h := crun _). intros H. assert (Hl : Listed h 0 "temp" 2) by (vm_compute; auto).
  assert (Hf := cs_sizes _ _ H "temp" 2 ["time"] [3] Hl eq_refl eq_refl). inversion Hf as [|? ? ? ? Hx _]; subst.
  destruct (Hx 5) as [E|E]; [vm_compute; auto|vm_compute in E; discriminate|vm_compute in E; discriminate].
Qed.
(** The collection a variable was taken from. *)
Definition moved : list cop := (two ++ [CNewVariable "b" None None None; CAddVariable 0 6 false])%list.
Lemma source_left : snd (add_variable 0 6 false (crun (two ++ [CNewVariable "b" None None None])%list)) = Ok tt
  /\ Listed (crun moved) 5 "b" 6 /\ Listed (crun moved) 0 "b" 6 /\ ~ Consistent (crun moved) 5.
Proof.
  split; [vm_compute; reflexivity|]. assert (Hl : Listed (crun moved) 5 "b" 6) by (vm_compute; auto).
  split; [exact Hl|]. split; [vm_compute; auto|]. intros H. apply (cs_parent _ _ H) in Hl. vm_compute in Hl. discriminate.
Qed.
(** A name clash half way: a variable has moved, the source still lists it. *)
Definition half : list cop :=
  (two ++ [CNewVariable "b" None None None; CNewVariable "temp" None None (Some 5); CAddVariable 0 6 false])%list.
Lemma half_moved : snd (add_variable 0 6 false (crun (two ++ [CNewVariable "b" None None None; CNewVariable "temp" None None (Some 5)])%list)) = Err VariableInCollectionError
  /\ Listed (crun half) 0 "b" 6 /\ Listed (crun half) 5 "b" 6 /\ ~ Consistent (crun half) 5.
Proof.
  split; [vm_compute; reflexivity|]. assert (Hl : Listed (crun half) 5 "b" 6) by (vm_compute; auto).
  split; [vm_compute; auto|]. split; [exact Hl|]. intros H. apply (cs_parent _ _ H) in Hl. vm_compute in Hl. discriminate.
Qed.
(** A clean extraction with bounds, and a stale bounds name. *)
Lemma clean_bounds : Listed s6 0 "temp" 2 /\ BoundsFound s6 0 2 /\ snd (extract 2 true true s6) = Err KeyError.
Proof.
  split; [vm_compute; auto|]. split; [|vm_compute; reflexivity]. intros b. vm_compute. intros E; injection E as <-. exists 4. vm_compute. auto.
Qed.
Lemma stale_bounds : BoundsFound s6 0 2 /\ snd (set_name 4 "edges" s6) = Ok tt /\ ~ BoundsFound (fst (set_name 4 "edges" s6)) 0 2
  /\ snd (extract 2 true false (fst (set_name 4 "edges" s6))) = Err KeyError.
Proof.
  split; [apply clean_bounds|]. split; [vm_compute; reflexivity|]. split; [|vm_compute; reflexivity].
  intros H. destruct (H "tb" eq_refl) as [w Hw]. vm_compute in Hw. intuition congruence.
Qed.
Lemma clean_keeps_dim : exists h' r x,
  extract 2 false true s6 = (h', Ok r) /\ v_parent (h_var h' r) = Some x
  /\ (exists d, Registered h' x "bnds" d) /\ forall k w, Listed h' x k w -> ~ Uses h' w "bnds".
Proof.
  exists (fst (extract 2 false true s6)). destruct (snd (extract 2 false true s6)) as [r|e] eqn:E; [|vm_compute in E; discriminate].
  vm_compute in E. injection E as <-. eexists _, _. split; [apply run_ok; vm_compute; reflexivity|]. split; [vm_compute; reflexivity|].
  split; [exists 5; vm_compute; auto|]. intros k w Hl [names [Hn Hin]]. vm_compute in Hl. destruct Hl as [Hl|[]]. injection Hl as <- <-.
  vm_compute in Hn. injection Hn as <-. destruct Hin as [H|[]]. discriminate.
Qed.

(** Tags. *)
Lemma tag_stale : get_by_tag 0 "data" false false s6 = (s6, Ok [2; 4])
  /\ snd (get_by_tag 0 "data" false false (fst (set_name 2 "t2" s6))) = Ok [4]
  /\ Listed (fst (set_name 2 "t2" s6)) 0 "t2" 2.
Proof. split; [reflexivity|]. split; [vm_compute; reflexivity|vm_compute; auto]. Qed.
Lemma tag_kept : snd (set_bounds 2 None false s6) = Ok tt /\ (forall w, ~ Listed (fst (set_bounds 2 None false s6)) 0 "tb" w)
  /\ Tagged (fst (set_bounds 2 None false s6)) 0 "data" ["temp"; "tb"].
Proof. split; [vm_compute; reflexivity|]. split; [absent|vm_compute; auto]. Qed.
