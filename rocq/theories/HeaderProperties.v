From Verif Require Import Py Lib HeaderModel HeaderSpec HeaderProofs.
From Coq Require Import String Lia.
Local Open Scope string_scope.
Local Notation length := List.length.

(** ** C160: the columns of the records of a field *)

(** Without a variable given: the records have the data variables in the order of the tag, the
    followers given after the first of them, then the geometry, realization, time and level; the
    headers given are used. *)
Theorem C160_columns_partial : forall f a t ts r,
  hf_tagged f = t :: ts -> a_variable a = None -> (a_melted a = true -> a_standardize a = true) ->
  (forall l n, a_followers a = Some l -> In (FName n) l -> In n (hf_names f)) ->
  exists p caller, prepare f a r = Ok (p, caller) /\
    columns p = t :: map follower_name (match a_followers a with Some l => l | None => [] end) ++ ts ++ coordinates f /\
    p_melted p = (if a_melted a then Some (t :: ts) else None) /\
    (forall m, a_header_map a = Some m -> p_header_map p = Some m) /\
    (a_standardize a = false -> p_header_map p = a_header_map a).
Proof.
  intros f a t ts r Ht Hv Hm Hf. unfold prepare.
  assert (a_melted a && negb (a_standardize a) = false) as ->.
  { destruct (a_melted a); [rewrite Hm by reflexivity|]; reflexivity. }
  assert (match a_followers a with None => Ok [] | Some l => find_followers (hf_names f) l end =
          Ok (match a_followers a with Some l => l | None => [] end)) as ->.
  { destruct (a_followers a) as [l|]; [|reflexivity]. apply find_all. intros n Hn. apply (Hf l n eq_refl Hn). }
  cbn [bind]. rewrite Hv, Ht. cbn [bind fst snd].
  assert (map follower_name (map FName ts) = ts) as Hts by (rewrite map_map; apply map_id).
  destruct (a_melted a); cbn [bind]; eexists; eexists; (split; [reflexivity|]); unfold columns; cbn [p_variable p_followers p_melted p_header_map];
    rewrite !map_app, coordinate_names, Hts; (split; [f_equal; rewrite <- app_assoc; reflexivity|]); (split; [reflexivity|]); split.
  all: try (intros m ->; destruct (a_standardize a); reflexivity).
  all: intros ->; reflexivity.
Qed.
Print Assumptions C160_columns_partial.

(** When the names are different, the headers that are made are those of the repeaters and the
    standard ones, and no others. *)
Theorem C160_headers_partial : forall f a r p caller,
  a_standardize a = true -> a_header_map a = None -> NoDup (map fst (header_assignments f r)) ->
  prepare f a r = Ok (p, caller) ->
  exists m, p_header_map p = Some m /\
    forall old new, dget String.eqb m old = Some new <-> (In old r /\ new = old) \/ Standard f old new.
Proof.
  intros f a r p caller Hs Hm Hd H. unfold prepare in H. rewrite Hs, Hm in H.
  exists (assign (header_assignments f r)). split; [|intros old new; rewrite assign_iff by exact Hd; apply assignments_standard].
  destruct (a_melted a && negb true); [discriminate|].
  destruct (match a_followers a with None => Ok [] | Some l => find_followers (hf_names f) l end) as [fs|]; [|discriminate]. cbn [bind] in H.
  destruct (match a_variable a with None => _ | Some _ => _ end) as [vf|]; [|discriminate]. cbn [bind] in H.
  destruct (if a_melted a then _ else _) as [ml|]; [|discriminate]. cbn [bind] in H. injection H as <- _. reflexivity.
Qed.
Print Assumptions C160_headers_partial.

Definition example_header_field : hfield :=
  mkhfield ["tas"; "pr"; "time"; "lev"; "shape"] ["tas"; "pr"] (Some ("shape", Some "UGID")) (Some "member") (Some ("time", true)) (Some ("lev", false)).
Example C160_columns_case :
  exists p caller, prepare example_header_field (mkhargs true true None (Some [FName "lev"]) None) ["DID"] = Ok (p, caller) /\
    columns p = ["tas"; "lev"; "pr"; "shape"; "member"; "time"; "lev"] /\
    p_header_map p = Some [("DID", "DID"); ("UGID", "UGID"); ("member", "RLZ"); ("time", "TIME"); ("lb_time", "LB_TIME"); ("ub_time", "UB_TIME");
      ("YEAR", "YEAR"); ("MONTH", "MONTH"); ("DAY", "DAY"); ("lev", "LEVEL")] /\
    NoDup (map fst (header_assignments example_header_field ["DID"])).
Proof. eexists. eexists. split; [reflexivity|]. split; [reflexivity|]. split; [reflexivity|]. cbn. repeat constructor; cbn; intuition discriminate. Qed.

(** Records of one variable cannot be melted: naming the variable raises a NameError. *)
Theorem C160_melted_refuted : forall f a v r, a_variable a = Some v -> In v (hf_names f) -> a_melted a = true -> a_standardize a = true ->
  (forall l n, a_followers a = Some l -> In (FName n) l -> In n (hf_names f)) ->
  prepare f a r = Err NameError.
Proof.
  intros f a v r Hv Hin Hm Hs Hf. unfold prepare. rewrite Hm, Hs. cbn [andb negb].
  assert (match a_followers a with None => Ok [] | Some l => find_followers (hf_names f) l end =
          Ok (match a_followers a with Some l => l | None => [] end)) as ->.
  { destruct (a_followers a) as [l|]; [|reflexivity]. apply find_all. intros n Hn. apply (Hf l n eq_refl Hn). }
  cbn [bind]. rewrite Hv, (proj2 (existsb_in v (hf_names f)) Hin). reflexivity.
Qed.
Print Assumptions C160_melted_refuted.
Example C160_melted_case : prepare example_header_field (mkhargs true true (Some "pr") None None) [] = Err NameError.
Proof. reflexivity. Qed.

(** The list of followers of the caller is extended by the call: giving the same list again gives
    the records the other data variables and the coordinates a second time. *)
Theorem C160_again_refuted : forall f a t ts r l, hf_tagged f = t :: ts -> incl ts (hf_names f) ->
  a_variable a = None -> a_melted a = false -> a_followers a = Some l ->
  (forall n, In (FName n) l -> In n (hf_names f)) ->
  exists p l1 p2 l2, prepare f a r = Ok (p, Some l1) /\
    map follower_name l1 = (map follower_name l ++ ts ++ coordinates f)%list /\
    prepare f (mkhargs (a_standardize a) false None (Some l1) (a_header_map a)) r = Ok (p2, Some l2) /\
    columns p2 = (t :: map follower_name l ++ ts ++ coordinates f ++ ts ++ coordinates f)%list.
Proof.
  intros f a t ts r l Ht Hts Hv Hm Hl Hf.
  assert (map follower_name (map FName ts) = ts) as Hn by (rewrite map_map; apply map_id).
  set (l1 := ((l ++ map FName ts) ++ coordinate_followers f)%list).
  assert (forall n, In (FName n) l1 -> In n (hf_names f)) as H1.
  { intros n H. unfold l1 in H. rewrite !in_app_iff in H. destruct H as [[H|H]|H]; [apply Hf; exact H| |exfalso; exact (coordinate_iters f n H)].
    apply in_map_iff in H. destruct H as [m [[= ->] H]]. apply Hts. exact H. }
  eexists. exists l1. eexists. eexists. split; [|split; [|split]].
  - unfold prepare. rewrite Hm, Hl, Hv, Ht. cbn [andb]. rewrite find_all by exact Hf. cbn [bind fst snd]. reflexivity.
  - unfold l1. rewrite !map_app, Hn, coordinate_names, <- app_assoc. reflexivity.
  - unfold prepare. cbn [a_melted a_standardize a_followers a_variable a_header_map andb]. rewrite find_all by exact H1. cbn [bind fst snd]. rewrite Ht. cbn [bind fst snd]. reflexivity.
  - unfold columns. cbn [p_variable p_followers]. unfold l1. rewrite !map_app, Hn, coordinate_names, <- !app_assoc. reflexivity.
Qed.
Print Assumptions C160_again_refuted.
Example C160_again_case : hf_tagged example_header_field = ["tas"; "pr"] /\ incl ["pr"] (hf_names example_header_field).
Proof. split; [reflexivity|]. intros x [<-|[]]. cbn. auto. Qed.

(** A realization with the name of the level: two columns have the same name, and the header is
    that of the level alone. *)
Theorem C160_same_name_refuted : exists f p caller,
  prepare f (mkhargs true false None None None) [] = Ok (p, caller) /\ Standard f "n" "RLZ" /\
  forall m, p_header_map p = Some m -> dget String.eqb m "n" = Some "LEVEL".
Proof.
  exists (mkhfield ["tas"; "n"] ["tas"] None (Some "n") None (Some ("n", false))). eexists. eexists. split; [reflexivity|].
  split; [right; left; split; reflexivity|]. intros m [= <-]. reflexivity.
Qed.
Print Assumptions C160_same_name_refuted.

(** Melted records need standard headers. *)
Theorem C160_standard_needed : forall f a r, a_melted a = true -> a_standardize a = false -> prepare f a r = Err ValueError.
Proof. intros f a r Hm Hs. unfold prepare. rewrite Hm, Hs. reflexivity. Qed.
Print Assumptions C160_standard_needed.

(** With a variable named: that variable, the followers and the coordinates, and none of the other
    data variables. *)
Theorem C160_named : forall f a v r, a_variable a = Some v -> In v (hf_names f) -> a_melted a = false ->
  (forall l n, a_followers a = Some l -> In (FName n) l -> In n (hf_names f)) ->
  exists p caller, prepare f a r = Ok (p, caller) /\
    columns p = v :: map follower_name (match a_followers a with Some l => l | None => [] end) ++ coordinates f /\
    p_melted p = None.
Proof.
  intros f a v r Hv Hin Hm Hf. unfold prepare. rewrite Hm. cbn [andb].
  assert (match a_followers a with None => Ok [] | Some l => find_followers (hf_names f) l end =
          Ok (match a_followers a with Some l => l | None => [] end)) as ->.
  { destruct (a_followers a) as [l|]; [|reflexivity]. apply find_all. intros n Hn. apply (Hf l n eq_refl Hn). }
  cbn [bind]. rewrite Hv, (proj2 (existsb_in v (hf_names f)) Hin). cbn [bind fst snd].
  eexists. eexists. split; [reflexivity|]. unfold columns. cbn [p_variable p_followers p_melted]. rewrite map_app, coordinate_names. split; reflexivity.
Qed.
Print Assumptions C160_named.
Example C160_named_case : exists p caller,
  prepare example_header_field (mkhargs true false (Some "pr") None None) [] = Ok (p, caller) /\ columns p = ["pr"; "shape"; "member"; "time"; "lev"].
Proof. eexists. eexists. split; reflexivity. Qed.

(** Names that are not in the field, and a tag without variables, are refused. *)
Theorem C160_unknown : forall f a r,
  (exists l n, a_followers a = Some l /\ In (FName n) l /\ ~ In n (hf_names f)) \/
  (exists v, a_variable a = Some v /\ ~ In v (hf_names f)) \/
  (a_variable a = None /\ hf_tagged f = []) ->
  exists e, prepare f a r = Err e.
Proof.
  intros f a r H. unfold prepare. destruct (a_melted a && negb (a_standardize a)); [eexists; reflexivity|].
  destruct (match a_followers a with None => Ok [] | Some l => find_followers (hf_names f) l end) as [fs|e] eqn:E; [|eexists; reflexivity].
  destruct H as [[l [n [Hl [Hi Hn]]]]|[[v [Hv Hn]]|[Hv Ht]]].
  - exfalso. rewrite Hl in E. revert fs E. clear -Hi Hn. induction l as [|x t IH]; intros fs E; [contradiction|].
    destruct Hi as [->|Hi].
    + cbn [find_followers] in E. destruct (existsb (String.eqb n) (hf_names f)) eqn:X; [apply existsb_in in X; contradiction|discriminate].
    + destruct x as [m|m]; cbn [find_followers] in E; [destruct (existsb (String.eqb m) (hf_names f)); [|discriminate]|];
        destruct (find_followers (hf_names f) t) as [r0|]; try discriminate; exact (IH Hi r0 eq_refl).
  - rewrite Hv. cbn [bind]. destruct (existsb (String.eqb v) (hf_names f)) eqn:X; [apply existsb_in in X; contradiction|]. eexists. reflexivity.
  - rewrite Hv, Ht. eexists. reflexivity.
Qed.
Print Assumptions C160_unknown.
Example C160_unknown_case : prepare example_header_field (mkhargs true false (Some "hurs") None None) [] = Err KeyError.
Proof. reflexivity. Qed.
