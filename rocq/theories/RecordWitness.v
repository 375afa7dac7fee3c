(** Concrete cases for record iteration. *)
From Verif Require Import Py Lib Spec PartitionModel NdModel NdSpec RecordModel RecordSpec.
Local Open Scope string_scope.
Local Open Scope Z_scope.

(** A field with dimensions time (2) and place (3), one element of which is
    masked, the coordinate of its second dimension, and a second field in the
    other order of dimensions. *)
Definition case_lead : rvar Z := mkrvar "tas"
  (mknvar [("time", 2); ("place", 3)] (mknd [2; 3] (fun i => 10 * nth 0 i 0 + nth 1 i 0)) (Some (mknd [2; 3] (fun i => (nth 0 i 0 =? 1) && (nth 1 i 0 =? 2)))))
  (Some [("did", FVal 7)]).
Definition case_place : rvar Z := mkrvar "place" (mknvar [("place", 3)] (mknd [3] (fun i => 100 + nth 0 i 0)) None) None.
Definition case_other : rvar Z := mkrvar "pr"
  (mknvar [("place", 3); ("time", 2)] (mknd [3; 2] (fun i => 1000 + 10 * nth 0 i 0 + nth 1 i 0)) None) (Some [("did", FVal 8)]).

Ltac good := unfold GoodVar; cbn; split; [repeat (apply NoDup_cons; [cbn; intuition discriminate|]); apply NoDup_nil|
  split; [repeat (apply Forall_cons; [lia|]); apply Forall_nil|split; [reflexivity|first [exact I|reflexivity]]]].

Lemma case_lead_good : GoodVar (r_var case_lead).
Proof. good. Qed.
Lemma case_shares : Forall (SharesDims case_lead) [case_place; case_other].
Proof.
  repeat (apply Forall_cons || apply Forall_nil); (split; [good|]); cbn; intros x Hx; cbn in *; intuition (subst; auto).
Qed.
