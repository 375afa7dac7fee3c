(** A concrete field for C66. *)
From Verif Require Import Py Lib Spec PartitionModel DimensionModel DimensionSpec NdModel ScopeModel ScopeSpec SliceModel SliceSpec SliceWitness FieldModel FieldSpec.
From Verif Require DmapModel.
From Coq Require Import Lia.
Local Open Scope string_scope.
Local Open Scope Z_scope.

(** Temperature over the dimensions "t" and "lat", the latitudes and a number. *)
Definition fcoll : collst := mkcoll
  (fun d => if d =? 1 then "t" else "lat")
  (fun v => if v =? 10 then "tas" else if v =? 11 then "latitude" else "num")
  (fun v => if v =? 10 then ["t"; "lat"] else if v =? 11 then ["lat"] else [])
  [("t", 1); ("lat", 2)] [("tas", 10); ("latitude", 11); ("num", 12)].
Definition ffield : field Z := mkfield fcoll (fun d => wdim "" (if d =? 1 then 3 else 4))
  (fun v => if v =? 10 then (sv_value wtas, sv_mask wtas) else if v =? 11 then (sv_value wname, None) else (sv_value wnum, None)).
Definition fmap : list (string * list string) := [("time", ["t"]); ("y", ["lat"])].
Definition fslice : list (string * item) :=
  [("y", Given (RInts [1; 3])); ("time", Listed (RSlice (mkslice (Some (-2)) (Some (-1)))))].
Definition fown : list (string * item) :=
  [("lat", Given (RInts [1; 3])); ("t", Listed (RSlice (mkslice (Some (-2)) (Some (-1)))))].

Lemma fcoll_keyed : WellKeyed fcoll.
Proof.
  split; [repeat (apply NoDup_cons; [cbn; intuition discriminate|]); apply NoDup_nil|].
  split; [repeat (apply NoDup_cons; [cbn; intuition discriminate|]); apply NoDup_nil|].
  split; [intros k d [E|[E|[]]]; injection E as <- <-; reflexivity|].
  split; [repeat (apply NoDup_cons; [cbn; intuition discriminate|]); apply NoDup_nil|].
  intros k v [E|[E|[E|[]]]]; injection E as <- <-; reflexivity.
Qed.
Lemma fmap_clean : CleanMapping fmap ["t"; "lat"].
Proof.
  split; [repeat (apply NoDup_cons; [cbn; intuition discriminate|]); apply NoDup_nil|]. split; [|split].
  - intros k v k' v' n [E|[E|[]]] [E'|[E'|[]]]; injection E as <- <-; injection E' as <- <-; intros [<-|[]] [F|[]]; (reflexivity || discriminate).
  - intros k v n n' [E|[E|[]]] _ _; injection E as <- <-; intros [<-|[]] [<-|[]]; reflexivity.
  - intros k v n [E|[E|[]]] _; injection E as <- <-; intros [<-|[]] [F|[F|[]]]; discriminate.
Qed.
Lemma ffield_congruent : Congruent (view ffield).
Proof.
  split; [repeat (apply NoDup_cons; [cbn; intuition discriminate|]); apply NoDup_nil|]. split.
  { intros n d [E|[E|[]]]; injection E as <- <-; (split; [reflexivity|]).
    - exists [0; 1; 2]. split; [reflexivity|exact I].
    - exists [0; 1; 2; 3]. split; [reflexivity|exact I]. }
  split; [repeat (apply NoDup_cons; [cbn; intuition discriminate|]); apply NoDup_nil|].
  intros k v [E|[E|[E|[]]]]; injection E as <- <-.
  - split; [repeat (apply NoDup_cons; [cbn; intuition discriminate|]); apply NoDup_nil|]. exists [3; 4]. split.
    + apply Forall2_cons; [eexists; split; [left; reflexivity|reflexivity]|].
      apply Forall2_cons; [eexists; split; [right; left; reflexivity|reflexivity]|apply Forall2_nil].
    + split; intros a E; injection E as <-; reflexivity.
  - split; [repeat (apply NoDup_cons; [cbn; intuition discriminate|]); apply NoDup_nil|]. exists [4]. split.
    + apply Forall2_cons; [eexists; split; [right; left; reflexivity|reflexivity]|apply Forall2_nil].
    + split; intros a E; [injection E as <-; reflexivity|discriminate].
  - split; [apply NoDup_nil|]. exists []. split; [apply Forall2_nil|]. split; intros a E; [injection E as <-; reflexivity|discriminate].
Qed.
Lemma fslice_translates : Translates fmap ["t"; "lat"] fslice fown.
Proof.
  apply Forall2_cons; [split; [reflexivity|]; split; [right; left; reflexivity|]; left; exists ["lat"]; split; [right; left; reflexivity|left; reflexivity]|].
  apply Forall2_cons; [split; [reflexivity|]; split; [left; reflexivity|]; left; exists ["t"]; split; [left; reflexivity|left; reflexivity]|].
  apply Forall2_nil.
Qed.
Lemma fown_ok : Sliceable (view ffield) fown.
Proof.
  split; [discriminate|]. split; [repeat (apply NoDup_cons; [cbn; intuition discriminate|]); apply NoDup_nil|]. split.
  - intros n i [E|[E|[]]]; injection E as <- <-.
    + eexists. split; [right; left; reflexivity|]. split; [reflexivity|].
      split; [discriminate|]. split; [cbn; lia|]. apply Forall_cons; [cbn; lia|]. apply Forall_cons; [cbn; lia|]. apply Forall_nil.
    + eexists. split; [left; reflexivity|]. split; [reflexivity|]. cbn. lia.
  - intros k v _. split.
    + intros n n' i i' _ _ [E|[E|[]]] [E'|[E'|[]]] B B'; injection E as <- <-; injection E' as <- <-; try reflexivity; contradiction.
    + intros n i _ [E|[E|[]]]; injection E as <- <-; exact I.
Qed.

(** A dictionary with a standard name the field does not have. *)
Definition fextra : list (string * item) := ("level", Given (RInt 0)) :: fslice.
Lemma fextra_keeps : Keeps (fun m => exists n, In n ["t"; "lat"] /\ RenamesTo fmap n m) fextra fslice.
Proof.
  apply KDrop.
  { intros [n [I [[v [[E|[E|[]]] J]]|[N E]]]]; try discriminate. cbn [fst] in E. subst n. destruct I as [E|[E|[]]]; discriminate. }
  apply KKeep; [exists "lat"; split; [right; left; reflexivity|]; left; exists ["lat"]; split; [right; left; reflexivity|left; reflexivity]|].
  apply KKeep; [exists "t"; split; [left; reflexivity|]; left; exists ["t"]; split; [left; reflexivity|left; reflexivity]|].
  apply KNil.
Qed.

(** Nodes of an unstructured grid: both axes have the dimension "node". *)
Definition ucoll : collst := mkcoll (fun _ => "node") (fun v => if v =? 10 then "x" else "y") (fun _ => ["node"]) [("node", 1)] [("x", 10); ("y", 11)].
Definition ufield : field Z := mkfield ucoll (fun _ => wdim "" 4) (fun _ => (sv_value wname, None)).

(** A dimension map that stores no dimension for its latitudes. *)
Definition umap : DmapModel.storage :=
  [("y", DmapModel.IEntry (DmapModel.mkentry (Some (Some "lat")) None (Some []) None None));
   ("time", DmapModel.IEntry (DmapModel.mkentry (Some (Some "time")) None (Some ["t"]) None None))].
Lemma umap_plain : Plain umap.
Proof.
  intros k I i. repeat (destruct I as [<-|I]; [cbn; intros E; try discriminate; injection E as <-; eexists; reflexivity|]). destruct I.
Qed.
