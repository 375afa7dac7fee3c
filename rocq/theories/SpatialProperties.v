(** C47: spatial collections (src/ocgis/collection/spatial.py). *)
From Verif Require Import Py Lib SpatialModel SpatialSpec SpatialProofs.
Local Open Scope string_scope.
Local Open Scope Z_scope.

(** Two containers with geometries, one field without container, a refused and a
    forced second field. *)
Definition case_f (n : string) (x : Z) : sfield Z := mksfield n [("tas", x)].
Definition case_calls : list (call Z) :=
  [(case_f "f" 1, Some (mkcont (Some 12) []), false); (case_f "f" 2, None, false); (case_f "g" 3, Some (mkcont (Some 5) []), false);
   (case_f "h" 4, Some (mkcont (Some 12) []), false); (case_f "f" 5, Some (mkcont (Some 12) []), false);
   (case_f "f" 6, Some (mkcont (Some 12) []), true)].

(** A field is found under its container's identifier and its name exactly when
    the calls filed it there. *)
Theorem C47_found : forall V (calls : list (call V)), NewContainers calls ->
  forall (cont : container V) n f, get_field (run [] calls) (Some n) (CField cont) = Ok f <-> Filed calls (c_ugid cont) n f.
Proof. intros V calls H cont n f. rewrite field_arg. exact (found_run calls H (c_ugid cont) n f). Qed.
Print Assumptions C47_found.

Theorem C47_found_ugid : forall V (calls : list (call V)), NewContainers calls ->
  forall u n f, get_field (run [] calls) (Some n) (CUgid u) = Ok f <-> Filed calls (Some u) n f.
Proof. intros V calls H u n f. exact (found_run calls H (Some u) n f). Qed.
Print Assumptions C47_found_ugid.

Example C47_found_case : NewContainers case_calls /\
  get_field (run [] case_calls) (Some "f") (CUgid 12) = Ok (case_f "f" 6) /\
  get_field (run [] case_calls) (Some "f") (CField (mkcont None [])) = Ok (case_f "f" 2) /\
  get_field (run [] case_calls) (Some "g") (CUgid 12) = Err KeyError.
Proof. split; [repeat constructor|]. vm_compute. auto. Qed.

(** Without an identifier the first container is searched, so a field added
    without container is not found by the identifier ([None]) it was filed under
    when another container came first. *)
Theorem C47_none_refuted : exists (calls : list (call Z)) n f, NewContainers calls /\
  Filed calls None n f /\ get_field (run [] calls) (Some n) CNone <> Ok f /\
  get_field (run [] (rev calls)) (Some n) CNone = Ok f.
Proof.
  exists [(case_f "f" 1, Some (mkcont (Some 12) []), false); (case_f "f" 2, None, false)], "f", (case_f "f" 2). split; [repeat constructor|]. split.
  - apply (found_run [(case_f "f" 1, Some (mkcont (Some 12) []), false); (case_f "f" 2, None, false)] ltac:(repeat constructor) None "f"). vm_compute. reflexivity.
  - split; [vm_compute; discriminate|vm_compute; reflexivity].
Qed.
Print Assumptions C47_none_refuted.

(** Without a container and name the field the first call filed (or the one that
    was forced in its place) is found; it is the archetype field, and the
    collection has container geometries exactly when that call gave one. *)
Theorem C47_first : forall V (c : call V) t, NewContainers (c :: t) ->
  exists f, get_field (run [] (c :: t)) None CNone = Ok f /\ archetype_field (run [] (c :: t)) = Some f /\
    Filed (c :: t) (key_of c) (f_name (field_of c)) f /\
    (has_container_geometries (run [] (c :: t)) = true <-> key_of c <> None).
Proof. exact @first_run. Qed.
Print Assumptions C47_first.

Example C47_first_case : archetype_field (run [] case_calls) = Some (case_f "f" 6) /\
  has_container_geometries (run [] case_calls) = true /\
  has_container_geometries (run [] (tl case_calls)) = false /\ archetype_field (run [] (tl case_calls)) = Some (case_f "f" 2).
Proof. vm_compute. auto. Qed.

(** Iteration yields every filed field once, containers and fields in the order
    of their first appearance. *)
Theorem C47_iteration : forall V (calls : list (call V)), NewContainers calls ->
  Forall2 (fun kn f => Filed calls (fst kn) (snd kn) f) (order calls) (iter_fields (run [] calls)) /\
  NoDup (order calls) /\ forall k n, In (k, n) (order calls) <-> Exists (Concerns k n) calls.
Proof.
  intros V calls H. exact (conj (iteration_order calls H) (conj (order_nodup calls) (order_in calls))).
Qed.
Print Assumptions C47_iteration.

Example C47_iteration_case :
  order case_calls = [(Some 12, "f"); (Some 12, "h"); (None, "f"); (Some 5, "g")] /\
  iter_fields (run [] case_calls) = [case_f "f" 6; case_f "h" 4; case_f "f" 2; case_f "g" 3].
Proof. vm_compute. auto. Qed.

(** Melted iteration yields every variable of every filed field. *)
Theorem C47_melted : forall V (calls : list (call V)) k n vn v, NewContainers calls ->
  (In (k, n, vn, v) (iter_melted (run [] calls)) <-> exists f, Filed calls k n f /\ In (vn, v) (f_vars f)).
Proof. exact @melted_in. Qed.
Print Assumptions C47_melted.

Example C47_melted_case : iter_melted (run [] case_calls) = [(Some 12, "f", "tas", 6); (Some 12, "h", "tas", 4); (None, "f", "tas", 2); (Some 5, "g", "tas", 3)].
Proof. reflexivity. Qed.

(** A call raises exactly when it is not forced and an earlier call was about the
    same container and name; it then changes nothing. *)
Theorem C47_refused : forall V (calls : list (call V)) f cont force, NewContainers (calls ++ [(f, cont, force)])%list ->
  let r := add_field (run [] calls) f cont force in
  (snd r = Err ValueError <-> force = false /\ Exists (Concerns (match cont with Some c => c_ugid c | None => None end) (f_name f)) calls) /\
  (snd r = Err ValueError -> fst r = run [] calls) /\ (snd r <> Err ValueError -> snd r = Ok tt).
Proof. intros V calls f cont force H. exact (refused_run calls (f, cont, force) H). Qed.
Print Assumptions C47_refused.

Example C47_refused_case :
  snd (add_field (run [] (firstn 4 case_calls)) (case_f "f" 5) (Some (mkcont (Some 12) [])) false) = Err ValueError /\
  snd (add_field (run [] (firstn 4 case_calls)) (case_f "f" 5) (Some (mkcont (Some 13) [])) false) = Ok tt.
Proof. vm_compute. auto. Qed.

(** With a container that has fields already a refused call adds the container. *)
Theorem C47_refused_new_refuted : exists (f : sfield Z) cont,
  add_field [] f (Some cont) false = ([(c_ugid cont, cont)], Err ValueError).
Proof. exists (case_f "f" 1), (mkcont (Some 1) [("f", case_f "f" 0)]). reflexivity. Qed.
Print Assumptions C47_refused_new_refuted.
