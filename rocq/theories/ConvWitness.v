(** Cases for C67, C68 and C69. *)
From Verif Require Import Py ConvModel ConvSpec ConvProofs.
From Coq Require Import Permutation.
Local Open Scope string_scope.
Local Open Scope Z_scope.

Definition w_row (time tas : string) : record := [("TIME", time); ("TAS", tas)].
(** A field on two ranks, another on two ranks, and one on one rank. *)
Definition w_a : ptable := mkptable false [[w_row "1" "10"; w_row "2" "20"]; [w_row "3" "30"]].
Definition w_b : ptable := mkptable false [[w_row "4" "40"]; [w_row "5" "50"]].
Definition w_s : ptable := mkptable false [[w_row "6" "60"; w_row "7" "70"]].
Definition w_gone : ptable := mkptable true [].
Definition w_coll (fs : list ptable) : coll := mkcoll None [] [mkcontainer None [false] fs].

(** Nothing selected for the first geometry, one field for the second, two for
    the third. *)
Definition w_run : list coll := [w_coll [w_gone]; w_coll [w_a]; w_coll [w_b; w_s]].
Definition w_due : list record :=
  [w_row "1" "10"; w_row "2" "20"; w_row "3" "30"; w_row "4" "40"; w_row "5" "50"; w_row "6" "60"; w_row "7" "70"].

Lemma w_whole : forall fs, Forall (fun t => pt_empty t = false) fs -> Whole (w_coll fs).
Proof.
  intros fs H. repeat split; cbn; try discriminate; try (intros _ []).
  constructor; [|constructor]. cbn. split; [discriminate|]. split; [|exact H]. intros _ [E|[]]; discriminate.
Qed.
Lemma w_void : Void (w_coll [w_gone]).
Proof.
  right. split; [reflexivity|]. right. split; [discriminate|]. constructor; [|constructor].
  right. split; [reflexivity|]. right. split; [discriminate|]. constructor; [reflexivity|constructor].
Qed.
Lemma w_run_due : Due w_run w_due.
Proof.
  apply DVoid; [exact w_void|].
  apply (DWhole (w_coll [w_a]) _ [w_row "4" "40"; w_row "5" "50"; w_row "6" "60"; w_row "7" "70"]).
  - apply w_whole. repeat constructor.
  - apply (DWhole (w_coll [w_b; w_s]) _ []); [|constructor]. apply w_whole. repeat constructor.
Qed.
Lemma w_run_filled : Filled w_run.
Proof.
  intros c t [<-|[<-|[<-|[]]]] I E; cbn in I.
  - destruct I as [<-|[]]. discriminate.
  - destruct I as [<-|[]]. split; [discriminate|]. repeat constructor; discriminate.
  - destruct I as [<-|[<-|[]]]; (split; [discriminate|]; repeat constructor; discriminate).
Qed.
Lemma w_run_first : FirstSingle w_run.
Proof. apply FSkip; [exact w_void|]. apply (FHere _ _ w_a); [apply w_whole; repeat constructor|reflexivity]. Qed.
Lemma w_run_columns : HaveColumns ["TIME"; "TAS"] w_due.
Proof. repeat constructor. Qed.
Lemma w_cols_nodup : NoDup ["TIME"; "TAS"].
Proof. repeat constructor; cbn; intuition discriminate. Qed.
Lemma w_run_last : LastField w_run w_s.
Proof. apply LNext. apply LNext. apply (LHere _ _ [w_b]); [apply w_whole; repeat constructor|reflexivity|constructor]. Qed.

(** The same with two fields in the first collection. *)
Definition w_run2 : list coll := [w_coll [w_a; w_s]; w_coll [w_b]].
Lemma w_run2_whole : Forall Whole w_run2.
Proof. repeat apply Forall_cons; try apply Forall_nil; apply w_whole; repeat constructor. Qed.
Lemma w_run2_filled : Filled w_run2.
Proof.
  intros c t [<-|[<-|[]]] I E; cbn in I.
  - destruct I as [<-|[<-|[]]]; (split; [discriminate|]; repeat constructor; discriminate).
  - destruct I as [<-|[]]. split; [discriminate|]. repeat constructor; discriminate.
Qed.
Lemma w_run2_columns : HaveColumns ["TIME"; "TAS"] (concat (map records_of w_run2)).
Proof. repeat constructor. Qed.

(** Two data sets with different columns. *)
Definition w_d1 : ptable := mkptable false [[[("TIME", "1"); ("TAS", "10"); ("PR", "0")]]].
Definition w_d2 : ptable := mkptable false [[[("TIME", "1"); ("PR", "5"); ("TAS", "11")]]].
Definition w_mixed : list coll := [w_coll [w_d1]; w_coll [w_d2]].

(** Two columns with the same first ten characters. *)
Definition w_long : list coll := [w_coll [mkptable false [[[("temperature_max", "30"); ("temperature_min", "20")]]]]].
