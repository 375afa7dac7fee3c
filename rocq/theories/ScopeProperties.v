(** C46: scopes that change a grid, a variable, dimensions or a collection. *)
From Verif Require Import Py Spec NdModel ScopeModel ScopeSpec ScopeProofs ScopeInside.
Local Open Scope string_scope.
Local Open Scope Z_scope.

(** C46, grid abstraction.  However the body ends and whatever it does to the
    grid, afterwards the grid has the abstraction it had; the outcome is that of
    the body, which found the requested abstraction if the grid offers it; a
    request the grid does not offer is refused without change if strict and
    ignored otherwise. *)
Theorem C46_abstraction_scope_partial : forall g a strict body,
  get_abstraction (fst (grid_abstraction_scope g a strict body)) = get_abstraction g /\
  (Offers g a -> exists g1, get_abstraction g1 = a /\ gr_bounds g1 = gr_bounds g /\
     snd (grid_abstraction_scope g a strict body) = snd (body g1) /\
     gr_bounds (fst (grid_abstraction_scope g a strict body)) = gr_bounds (fst (body g1))) /\
  (~ Offers g a -> strict = true -> grid_abstraction_scope g a strict body = (g, Some ValueError)) /\
  (~ Offers g a -> strict = false -> snd (grid_abstraction_scope g a strict body) = snd (body g) /\
     gr_bounds (fst (grid_abstraction_scope g a strict body)) = gr_bounds (fst (body g))).
Proof. exact abstraction_scope_spec. Qed.
Print Assumptions C46_abstraction_scope_partial.

(** If an abstraction had been chosen, and the body leaves the bounds alone, the
    grid is exactly as before. *)
Theorem C46_abstraction_chosen_partial : forall g a strict body b, gr_stored g = Some b -> b <> AbsAuto ->
  (forall g1, gr_bounds (fst (body g1)) = gr_bounds g1) ->
  fst (grid_abstraction_scope g a strict body) = g.
Proof. exact abstraction_scope_chosen. Qed.
Print Assumptions C46_abstraction_chosen_partial.

Example C46_abstraction_case :
  Offers (mkgrid (Some AbsPolygon) true) AbsPoint /\ ~ Offers (mkgrid None false) AbsPolygon /\
  grid_abstraction_scope (mkgrid (Some AbsPolygon) true) AbsPoint true (fun g => (set_abstraction g AbsLine, Some KeyError))
  = (mkgrid (Some AbsPolygon) true, Some KeyError) /\
  grid_abstraction_scope (mkgrid None false) AbsPolygon true (fun g => (g, None)) = (mkgrid None false, Some ValueError).
Proof.
  split; [left; reflexivity|]. split; [intros [X|[_ X]]; discriminate|]. split; reflexivity.
Qed.

(** C46 refuted: the automatic choice is not restored.  After a scope around an
    empty body, a grid that gets its bounds later stays a grid of points. *)
Theorem C46_abstraction_automatic_refuted : exists g a, Offers g a /\
  let g' := fst (grid_abstraction_scope g a false (fun g => (g, None))) in
  g' <> g /\
  get_abstraction (mkgrid (gr_stored g) true) = AbsPolygon /\ get_abstraction (mkgrid (gr_stored g') true) = AbsPoint.
Proof.
  exists (mkgrid None false), AbsPoint. split; [left; reflexivity|]. split; [discriminate|]. split; reflexivity.
Qed.
Print Assumptions C46_abstraction_automatic_refuted.

(** C46, orphaning a variable that has a parent and whose dimensions can be found:
    the body sees the variable without a parent, and with its dimensions if asked;
    afterwards it has its parent back and no dimensions cached, whatever the body
    did; the outcome and everything else are the body's. *)
Theorem C46_orphaned_partial : forall v ds body p, DimensionsAre v ds -> vs_parent v = Some p ->
  forall keep, exists v2,
    vs_parent v2 = None /\ vs_dims v2 = vs_dims v /\ vs_colls v2 = vs_colls v /\
    (keep = true -> DimensionsAre v2 ds) /\
    snd (orphaned v keep body) = snd (body v2) /\
    vs_parent (fst (orphaned v keep body)) = Some p /\
    vs_dims (fst (orphaned v keep body)) = vs_dims (fst (body v2)) /\
    vs_colls (fst (orphaned v keep body)) = vs_colls (fst (body v2)) /\
    vs_cache (fst (orphaned v keep body)) = if keep then None else vs_cache (fst (body v2)).
Proof. exact orphaned_spec. Qed.
Print Assumptions C46_orphaned_partial.

Definition case_var := mkvarst (Some 7) (Some ["y"; "x"]) None [(7, [("x", 1); ("y", 2)])].
Example C46_orphaned_case : DimensionsAre case_var [2; 1] /\
  orphaned case_var true (fun v => (set_parent v (Some 9), Some BodyError)) = (case_var, Some BodyError).
Proof. split; reflexivity. Qed.

(** C46 refuted, nested scopes: inside the outer scope the dimensions are known,
    after the inner scope they are not. *)
Theorem C46_orphaned_nested_refuted : exists v ds, DimensionsAre v ds /\ vs_parent v = None /\
  snd (var_dimensions (fst (orphaned v true (fun v => (v, None))))) = Err KeyError.
Proof.
  exists (set_parent (set_cache case_var (Some [2; 1])) None), [2; 1]. split; [reflexivity|]. split; reflexivity.
Qed.
Print Assumptions C46_orphaned_nested_refuted.

(** C46 refuted, a variable without a parent: a body that fails for want of
    dimensions leaves it with a new, empty parent. *)
Theorem C46_orphaned_parent_refuted : exists v, vs_parent v = None /\
  let body := fun v => (fst (var_dimensions v), match snd (var_dimensions v) with Ok _ => None | Err e => Some e end) in
  snd (orphaned v false body) = Some KeyError /\ vs_parent (fst (orphaned v false body)) <> None.
Proof. exists (set_parent case_var None). split; [reflexivity|]. split; [reflexivity|discriminate]. Qed.
Print Assumptions C46_orphaned_parent_refuted.

(** C46, renaming dimension objects: the body sees the new names, afterwards
    every dimension has its name back and no other dimension was touched by the
    scope. *)
Theorem C46_renamed_dimensions : forall h ds mapping body,
  exists h1, snd (renamed_dimensions h ds mapping body) = snd (body h1) /\
    (NoDup ds -> forall d, In d ds -> RenamesTo mapping (h d) (h1 d)) /\
    (forall d, ~ In d ds -> h1 d = h d) /\
    (forall d, In d ds -> fst (renamed_dimensions h ds mapping body) d = h d) /\
    (forall d, ~ In d ds -> fst (renamed_dimensions h ds mapping body) d = fst (body h1) d).
Proof. exact renamed_dimensions_spec. Qed.
Print Assumptions C46_renamed_dimensions.

(** C46, renaming the dimensions of a collection.  If every variable the
    collection holds when the body ends has the name of a variable it held before,
    then whether entering succeeded or not and however the body ended, the
    collection has its dimensions back, under their names, and every variable has
    the dimension names the variable of that name had. *)
Theorem C46_renamed_on_variables_partial : forall c mapping body, WellKeyed c ->
  let '(c1, _, e1) := rename_enter c mapping in
  let c2 := match e1 with None => fst (body c1) | Some _ => c1 end in
  let e := match e1 with None => snd (body c1) | Some _ => e1 end in
  (forall k v, In (k, v) (cs_vars c2) -> In (cs_vname c2 v) (map fst (cs_vars c))) ->
  exists c3, renamed_dimensions_on_variables c mapping body = (c3, e) /\
    cs_dims c3 = cs_dims c /\
    (forall k d, In (k, d) (cs_dims c) -> cs_names c3 d = cs_names c d) /\
    cs_vars c3 = cs_vars c2 /\ cs_vname c3 = cs_vname c2 /\
    (forall k v v0, In (k, v) (cs_vars c3) -> In (cs_vname c3 v, v0) (cs_vars c) -> cs_vdims c3 v = cs_vdims c v0).
Proof. exact renamed_on_variables_spec. Qed.
Print Assumptions C46_renamed_on_variables_partial.

Definition case_coll : collst :=
  mkcoll (fun d => if d =? 1 then "lat" else if d =? 2 then "lon" else "time")
         (fun v => if v =? 10 then "tas" else "lat_bnds")
         (fun v => if v =? 10 then ["time"; "lat"; "lon"] else ["lat"])
         [("lat", 1); ("lon", 2); ("time", 3)] [("tas", 10); ("lat_bnds", 11)].
Definition case_mapping := [("y", ["lat"; "rlat"]); ("x", ["lon"]); ("time", ["time"])].

Example C46_renamed_case : WellKeyed case_coll /\ DimsKnown case_coll /\
  CleanMapping case_mapping (map fst (cs_dims case_coll)) /\
  (let '(c1, _, e1) := rename_enter case_coll case_mapping in
   e1 = None /\ cs_vdims c1 10 = ["time"; "y"; "x"] /\ cs_dims c1 = [("time", 3); ("y", 1); ("x", 2)]) /\
  (let '(c1, _, e1) := rename_enter case_coll [("y", ["lat"]); ("a", ["lat"])] in e1 = Some ValueError).
Proof.
  split; [|split; [|split; [|split]]].
  - split; [repeat constructor; cbn; intuition discriminate|].
    split; [repeat constructor; cbn; intuition discriminate|].
    split; [cbn; intros k d [E|[E|[E|[]]]]; injection E as <- <-; reflexivity|].
    split; [repeat constructor; cbn; intuition discriminate|].
    cbn; intros k d [E|[E|[]]]; injection E as <- <-; reflexivity.
  - cbn. intros k v n [E|[E|[]]]; injection E as <- <-; cbn; intuition.
  - split; [repeat constructor; cbn; intuition discriminate|]. split; [|split]; cbn.
    + intros k v k' v' n E E' I I'. repeat (destruct E as [E|E]; [|]); try contradiction; injection E as <- <-;
        repeat (destruct E' as [E'|E']; [|]); try contradiction; injection E' as <- <-; cbn in I, I';
        repeat (destruct I as [I|I]; [|]); try contradiction; repeat (destruct I' as [I'|I']; [|]); try contradiction; congruence.
    + intros k v n n' E N N' I I'. repeat (destruct E as [E|E]; [|]); try contradiction; injection E as <- <-; cbn in I, I';
        repeat (destruct I as [I|I]; [|]); try contradiction; repeat (destruct I' as [I'|I']; [|]); try contradiction;
        try congruence; subst; repeat (destruct N as [N|N]; [|]); try contradiction; try discriminate;
        repeat (destruct N' as [N'|N']; [|]); try contradiction; discriminate.
    + intros k v n E N I K. repeat (destruct E as [E|E]; [|]); try contradiction; injection E as <- <-; cbn in I;
        repeat (destruct K as [K|K]; [|]); try contradiction; try discriminate;
        repeat (destruct I as [I|I]; [|]); try contradiction; congruence.
  - vm_compute. repeat split.
  - vm_compute. reflexivity.
Qed.

(** C46 refuted: a body that adds a variable ends normally, the scope raises
    KeyError, and a variable after the new one keeps the temporary names. *)
Theorem C46_renamed_on_variables_refuted : exists c mapping body, WellKeyed c /\
  (forall c1, snd (body c1) = None) /\
  snd (renamed_dimensions_on_variables c mapping body) = Some KeyError /\
  let c3 := fst (renamed_dimensions_on_variables c mapping body) in
  exists k v, In (k, v) (cs_vars c) /\ In (k, v) (cs_vars c3) /\ cs_vdims c3 v <> cs_vdims c v.
Proof.
  exists case_coll, case_mapping,
    (fun c => (mkcoll (cs_names c) (fun v => if v =? 12 then "new" else cs_vname c v) (cs_vdims c) (cs_dims c)
                      (("new", 12) :: cs_vars c), None)).
  split; [exact (proj1 C46_renamed_case)|]. split; [reflexivity|]. split; [vm_compute; reflexivity|].
  exists "tas", 10. split; [left; reflexivity|]. split; [right; left; reflexivity|vm_compute; discriminate].
Qed.
Print Assumptions C46_renamed_on_variables_refuted.

(** What the body finds, if the mapping cannot mix up dimensions: the same
    dimension objects under the new names, and the variables with the new
    dimension names. *)
Theorem C46_renamed_inside_partial : forall c mapping, WellKeyed c -> DimsKnown c ->
  CleanMapping mapping (map fst (cs_dims c)) ->
  exists c1 back, rename_enter c mapping = (c1, back, None) /\
    (forall n d, In (n, d) (cs_dims c) -> exists m, RenamesTo mapping n m /\
       dget String.eqb (cs_dims c1) m = Some d /\ cs_names c1 d = m) /\
    (forall m d, dget String.eqb (cs_dims c1) m = Some d -> exists n, In (n, d) (cs_dims c) /\ RenamesTo mapping n m) /\
    cs_vars c1 = cs_vars c /\ cs_vname c1 = cs_vname c /\
    (forall k v, In (k, v) (cs_vars c) -> Forall2 (RenamesTo mapping) (cs_vdims c v) (cs_vdims c1 v)) /\
    (forall n m, dget String.eqb back n = Some m <->
       In n (map fst (cs_dims c)) /\ exists v, In (m, v) mapping /\ In n v).
Proof. exact rename_enter_spec. Qed.
Print Assumptions C46_renamed_inside_partial.

(** Refuted without that restriction: with two names exchanged, the body finds one
    dimension missing. *)
Theorem C46_renamed_swap_refuted : exists c mapping, WellKeyed c /\ DimsKnown c /\
  snd (rename_enter c mapping) = None /\
  exists n d, In (n, d) (cs_dims c) /\
    forall m, dget String.eqb (cs_dims (fst (fst (rename_enter c mapping)))) m <> Some d.
Proof.
  exists case_coll, [("lat", ["lon"]); ("lon", ["lat"])].
  split; [exact (proj1 C46_renamed_case)|]. split; [exact (proj1 (proj2 C46_renamed_case))|]. split; [vm_compute; reflexivity|].
  exists "lon", 2. split; [right; left; reflexivity|]. intros m.
  replace (cs_dims (fst (fst (rename_enter case_coll [("lat", ["lon"]); ("lon", ["lat"])])))) with
    [("time", 3); ("lon", 1)] by (vm_compute; reflexivity).
  cbn. destruct (String.eqb m "time"); [discriminate|].
  destruct (String.eqb m "lon"); discriminate.
Qed.
Print Assumptions C46_renamed_swap_refuted.
