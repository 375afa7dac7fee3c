(** * Proofs about files with several or no grid mappings, writing, creation and equality *)
From Verif Require Import Py Lib RequestNames CrsModel CrsSpec CrsProofs.
From Coq Require Import String Ascii Bool List ZArith Lia.
Import ListNotations.
Local Open Scope string_scope.
Local Open Scope list_scope.

(** ** Which results are possible *)
Lemma cf_init_class k px py name kwds c : cf_init k px py name kwds = Ok c -> cs_class c = SCF k /\ cs_name c = name.
Proof.
  unfold cf_init. cbv zeta. destruct (dmem _ _ _); [easy|]. destruct (proj_value _ _); [|easy].
  intros [= <-]. now split.
Qed.

Lemma the_crs_class k md g c : the_crs k md g = Ok c -> cs_class c = SCF k /\ cs_name c = vm_name g.
Proof.
  unfold the_crs. destruct (if finds_coordinates k then _ else _) as [pxy|]; [|easy]. cbn [bind]. cbv zeta.
  destruct (match k, fst pxy with Lambert, Some _ => _ | _, _ => _ end) as [kw|]; [|easy]. cbn [bind].
  apply cf_init_class.
Qed.

Lemma load_cf_some k md n c : load_cf k md false n = Ok (Some c) ->
  exists v g, aget md n = Some v /\ grid_mapping_of k md false v = Some g /\
    says (vm_attrs g) "grid_mapping_name" (mapping_name k) /\ the_crs k md g = Ok c.
Proof.
  intros H. destruct (aget md n) as [v|] eqn:E; [|unfold load_cf in H; now rewrite E in H].
  destruct (grid_mapping_of k md false v) as [g|] eqn:G; [|unfold load_cf in H; now rewrite E, G in H].
  exists v, g. rewrite (load_cf_eq k md false n v g E G) in H.
  destruct (attr_is _ _ _) eqn:A; [|easy]. apply attr_is_iff in A.
  destruct (the_crs k md g) as [c'|] eqn:T; [|easy]. cbn [bind] in H. injection H as ->. auto.
Qed.

Lemma grid_mapping_of_in md k v g : grid_mapping_of k md false v = Some g -> exists m, In (m, g) md.
Proof.
  unfold grid_mapping_of. intros G.
  assert (Z : match find (fun '(_, w) => existsb (String.eqb (vm_name w)) (fuzzy_names k)) md with Some (_, w) => Some w | None => None end = Some g -> exists m', In (m', g) md).
  { destruct (find _ md) as [[m' w']|] eqn:Fd; [|easy]. intros [= ->]. apply find_some in Fd. now exists m'. }
  destruct (aget (vm_attrs v) "grid_mapping") as [[h|x|x|]|]; try exact (Z G).
  destruct (aget md h) as [w'|] eqn:Eh; [|exact (Z G)]. injection G as ->. exists h. now apply in_aget.
Qed.

Lemma load_class_some k md n c : load_class k md n = Ok (Some c) ->
  (k = Spherical /\ c = cf_spherical) \/
  (k <> Spherical /\ cs_class c = SCF k /\
   exists v g, aget md n = Some v /\ grid_mapping_of k md false v = Some g /\
     says (vm_attrs g) "grid_mapping_name" (mapping_name k) /\ the_crs k md g = Ok c).
Proof.
  intros H. assert (Q : k <> Spherical -> load_class k md n = load_cf k md false n) by (destruct k; easy).
  destruct k; [left|right..].
  - split; [reflexivity|]. cbn [load_class] in H. unfold load_spherical1 in H. destruct (aget md n); [|easy].
    destruct (_ || _)%bool; [now injection H as <-|easy].
  - split; [easy|]. rewrite Q in H by easy. destruct (load_cf_some _ _ _ _ H) as (v & g & A & B & C & D).
    split; [now apply the_crs_class in D|]. now exists v, g.
  - split; [easy|]. rewrite Q in H by easy. destruct (load_cf_some _ _ _ _ H) as (v & g & A & B & C & D).
    split; [now apply the_crs_class in D|]. now exists v, g.
  - split; [easy|]. rewrite Q in H by easy. destruct (load_cf_some _ _ _ _ H) as (v & g & A & B & C & D).
    split; [now apply the_crs_class in D|]. now exists v, g.
  - split; [easy|]. rewrite Q in H by easy. destruct (load_cf_some _ _ _ _ H) as (v & g & A & B & C & D).
    split; [now apply the_crs_class in D|]. now exists v, g.
  - split; [easy|]. rewrite Q in H by easy. destruct (load_cf_some _ _ _ _ H) as (v & g & A & B & C & D).
    split; [now apply the_crs_class in D|]. now exists v, g.
Qed.

Lemma first_class_some ks md n c : first_class ks md n = Ok (Some c) -> exists k, In k ks /\ load_class k md n = Ok (Some c).
Proof.
  induction ks as [|k t IH]; [easy|]. cbn [first_class]. destruct (load_class k md n) as [[d|]|] eqn:E; cbn [bind]; [| |easy].
  - intros [= ->]. exists k. split; [now left|exact E].
  - intros H. destruct (IH H) as (k' & I & L). exists k'. split; [now right|exact L].
Qed.

Lemma map_res_In {A B} (f : A -> res B) l l' : map_res f l = Ok l' ->
  (forall x, In x l -> exists y, f x = Ok y /\ In y l') /\ (forall y, In y l' -> exists x, In x l /\ f x = Ok y).
Proof.
  revert l'. induction l as [|x t IH]; intros l' H; [injection H as <-; split; easy|]. cbn [map_res] in H.
  destruct (f x) as [y|] eqn:E; [|easy]. cbn [bind] in H. destruct (map_res f t) as [ys|] eqn:M; [|easy].
  injection H as <-. destruct (IH ys eq_refl) as [A1 A2]. split.
  - intros z [<-|I]; [exists y; split; [exact E|now left]|]. destruct (A1 z I) as (w & Ew & Iw). exists w. split; [exact Ew|now right].
  - intros z [<-|I]; [exists x; split; [now left|exact E]|]. destruct (A2 z I) as (w & Iw & Ew). exists w. split; [now right|exact Ew].
Qed.

Lemma found_all_in md l : found_all md = Ok l ->
  (forall n v, In (n, v) md -> exists o, first_class subclasses md n = Ok o /\ (forall c, o = Some c -> In c l)) /\
  (forall c, In c l -> exists n v, In (n, v) md /\ first_class subclasses md n = Ok (Some c)).
Proof.
  unfold found_all. destruct (map_res _ md) as [os|] eqn:M; [|easy]. cbn [bind]. intros [= <-].
  destruct (map_res_In _ _ _ M) as [A1 A2]. split.
  - intros n v I. destruct (A1 (n, v) I) as (o & Eo & Io). exists o. split; [exact Eo|]. intros c ->.
    apply in_flat_map. exists (Some c). split; [exact Io|now left].
  - intros c I. apply in_flat_map in I. destruct I as (o & Io & Ic). destruct o as [d|]; [|easy].
    destruct Ic as [<-|[]]. destruct (A2 (Some d) Io) as ([n v] & I & E). now exists n, v.
Qed.

(** The answer, when there is one, before the replacement of rotated poles. *)
Lemma get_crs_variable_inv md rp r : get_crs_variable md rp = Ok r ->
  exists found, found_all md = Ok found /\
    ((found = [] /\ load_proj4 md = Ok r) \/
     (exists c t, found = c :: t /\ (forall d, In d found -> cs_name d = cs_name c) /\
        (r = Some c \/ (rp = false /\ is_rotated (Some c) = true /\ load_spherical2 md = r /\ r = Some cf_spherical)))).
Proof.
  unfold get_crs_variable. destruct (found_all md) as [found|]; [|easy]. cbn [bind]. intros H. exists found. split; [reflexivity|].
  destruct found as [|c t].
  - left. split; [reflexivity|]. cbn [bind is_rotated] in H. now rewrite andb_false_r in H.
  - right. exists c, t. split; [reflexivity|]. destruct (existsb _ t) eqn:X; [easy|]. cbn [bind] in H. split.
    + intros d [<-|I]; [reflexivity|]. apply String.eqb_eq.
      destruct (String.eqb (cs_name d) (cs_name c)) eqn:Q; [reflexivity|]. exfalso.
      assert (X' : existsb (fun d => negb (String.eqb (cs_name d) (cs_name c))) t = true)
        by (apply existsb_exists; exists d; now rewrite Q). congruence.
    + destruct (negb rp && is_rotated (Some c))%bool eqn:B; [|left; now injection H as <-].
      apply andb_true_iff in B. destruct B as [B1 B2]. apply negb_true_iff in B1. unfold load_spherical2 in *.
      destruct (_ && _)%bool; injection H as <-; [right|left; reflexivity]. auto.
Qed.

Lemma spherical_found md rp c : get_crs_variable md rp = Ok (Some c) -> cs_class c = SCF Spherical -> c = cf_spherical.
Proof.
  intros H K. destruct (get_crs_variable_inv md rp (Some c) H) as (found & F & [[-> P]|(d & t & -> & _ & [[= ->]|(_ & _ & _ & [= ->])])]).
  - exfalso. unfold load_proj4 in P. destruct (proj4_names md) as [|[[a b] e] [|? ?]]; try easy. injection P as <-. easy.
  - destruct (proj2 (found_all_in md _ F) d (or_introl eq_refl)) as (n & v & I & E).
    destruct (first_class_some _ _ _ _ E) as (k & Ik & L).
    destruct (load_class_some _ _ _ _ L) as [[_ ->]|(N & Kc & _)]; [reflexivity|]. congruence.
  - reflexivity.
Qed.

(** A mapping some variable refers to is the one found, if any is found. *)
Lemma load_class_refers md k g a n v k' o :
  names_ok md -> In (g, mkvmeta g a) md -> says a "grid_mapping_name" (mapping_name k) ->
  In (n, v) md -> says (vm_attrs v) "grid_mapping" g -> k' <> Spherical -> load_class k' md n = Ok o ->
  (k' = k -> exists c, o = Some c /\ cs_class c = SCF k /\ cs_name c = g) /\ (k' <> k -> o = None).
Proof.
  intros N Hg Sk I Sg K H.
  assert (G : grid_mapping_of k' md false v = Some (mkvmeta g a)).
  { unfold grid_mapping_of. unfold says in Sg. rewrite Sg, (aget_in md g _ N Hg). reflexivity. }
  assert (Q : load_class k' md n = load_cf k' md false n) by (destruct k'; easy).
  rewrite Q, (load_cf_eq k' md false n v _ (aget_in md n v N I) G) in H. cbn [vm_attrs] in H. split.
  - intros ->. rewrite (proj2 (attr_is_iff _ _ _) Sk) in H. destruct (the_crs k md _) as [c|] eqn:T; [|easy].
    cbn [bind] in H. injection H as <-. exists c. apply the_crs_class in T. easy.
  - intros X. destruct (attr_is a "grid_mapping_name" (mapping_name k')) eqn:A; [|now injection H as <-].
    exfalso. apply X. apply mapping_name_inj. apply attr_is_iff in A. unfold says in *. congruence.
Qed.

Lemma first_class_refers md k g a n v ks o :
  names_ok md -> In (g, mkvmeta g a) md -> says a "grid_mapping_name" (mapping_name k) -> k <> Spherical ->
  In (n, v) md -> says (vm_attrs v) "grid_mapping" g -> g <> "latitude_longitude" ->
  ~ says (vm_attrs v) "grid_mapping_name" "latitude_longitude" ->
  first_class ks md n = Ok o -> In k ks -> exists c, o = Some c /\ cs_class c = SCF k /\ cs_name c = g.
Proof.
  intros N Hg Sk K I Sg NL NoL. induction ks as [|k' t IH]; intros H Ik; [easy|]. cbn [first_class] in H.
  destruct (load_class k' md n) as [o'|] eqn:L; [|easy]. cbn [bind] in H.
  assert (D : k' = Spherical \/ k' <> Spherical) by (destruct k'; auto; right; easy).
  destruct D as [->|D].
  - assert (o' = None) as ->.
    { cbn [load_class] in L. unfold load_spherical1 in L. rewrite (aget_in md n v N I) in L.
      destruct (attr_is (vm_attrs v) "grid_mapping" "latitude_longitude") eqn:A1.
      - apply attr_is_iff in A1. unfold says in *. congruence.
      - rewrite (proj2 (attr_is_false _ _ _) NoL) in L. now injection L as <-. }
    apply IH; [exact H|]. destruct Ik as [Ek|Ik]; [congruence|exact Ik].
  - destruct (load_class_refers md k g a n v k' o' N Hg Sk I Sg D L) as [A1 A2].
    assert (X : k' = k \/ k' <> k) by (destruct k', k; auto; right; easy). destruct X as [X|X].
    + destruct (A1 X) as (c & -> & C1 & C2). injection H as <-. now exists c.
    + rewrite (A2 X) in H. apply IH; [exact H|]. destruct Ik as [Ek|Ik]; [congruence|exact Ik].
Qed.

Lemma get_crs_variable_refers md k g a n v rp r :
  names_ok md -> In (g, mkvmeta g a) md -> says a "grid_mapping_name" (mapping_name k) -> k <> Spherical ->
  In (n, v) md -> says (vm_attrs v) "grid_mapping" g -> g <> "latitude_longitude" ->
  ~ says (vm_attrs v) "grid_mapping_name" "latitude_longitude" ->
  get_crs_variable md rp = Ok r ->
  exists c, r = Some c /\ ((cs_class c = SCF k /\ cs_name c = g) \/ (k = Rotated /\ rp = false /\ c = cf_spherical)).
Proof.
  intros N Hg Sk K I Sg NL NoL H.
  destruct (get_crs_variable_inv md rp r H) as (found & F & X).
  destruct (proj1 (found_all_in md _ F) n v I) as (o & Eo & Io).
  destruct (first_class_refers md k g a n v subclasses o N Hg Sk K I Sg NL NoL Eo (in_subclasses k)) as (c & -> & C1 & C2).
  pose proof (Io c eq_refl) as Ic.
  destruct X as [[-> _]|(d & t & -> & Nm & R)]; [easy|].
  assert (Nd : cs_name d = g) by (rewrite <- (Nm c Ic); exact C2).
  assert (Kd : cs_class d = SCF k).
  { destruct (proj2 (found_all_in md _ F) d (or_introl eq_refl)) as (m & w & Im & E).
    destruct (first_class_some _ _ _ _ E) as (k' & Ik & L).
    destruct (load_class_some _ _ _ _ L) as [[_ ->]|(N' & Kc & v' & g' & E1 & E2 & E3 & E4)].
    - exfalso. cbn in Nd. congruence.
    - rewrite Kc. f_equal. apply mapping_name_inj.
      apply the_crs_class in E4. destruct E4 as [_ E4].
      pose proof (grid_mapping_of_in md k' v' g' E2) as Ig.
      destruct Ig as [m' Ig]. rewrite (proj2 N m' g' Ig) in E4.
      assert (m' = g) as -> by congruence.
      pose proof (aget_in md g g' N Ig) as Q. rewrite (aget_in md g _ N Hg) in Q. injection Q as <-. cbn [vm_attrs] in E3.
      unfold says in *. congruence. }
  destruct R as [-> |(-> & Rd & _ & ->)].
  - exists d. split; [reflexivity|]. left. easy.
  - exists cf_spherical. split; [reflexivity|]. right. split; [|easy]. unfold is_rotated in Rd. rewrite Kd in Rd. now destruct k.
Qed.

(** ** Files without a grid mapping *)
Lemma no_mapping_class md k n v : names_ok md -> no_mapping md -> In (n, v) md -> load_class k md n = Ok None.
Proof.
  intros N M I. pose proof (aget_in md n v N I) as E.
  assert (Q : load_cf k md false n = Ok None).
  { destruct (grid_mapping_of k md false v) as [g|] eqn:G.
    - rewrite (load_cf_eq k md false n v g E G).
      pose proof (grid_mapping_of_in md k v g G) as Ig.
      destruct Ig as [m' Ig]. destruct (M m' g Ig) as [P _].
      destruct (attr_is _ _ _) eqn:A; [|reflexivity]. apply attr_is_iff in A. exfalso. apply P. eexists. exact A.
    - unfold load_cf. now rewrite E, G. }
  destruct k; try exact Q. cbn [load_class]. unfold load_spherical1. rewrite E. destruct (M n v I) as [P P'].
  rewrite (proj2 (attr_is_false _ _ _) P'). destruct (attr_is _ "grid_mapping_name" _) eqn:A; [|reflexivity].
  apply attr_is_iff in A. exfalso. apply P. eexists. exact A.
Qed.

Lemma no_mapping_found md : names_ok md -> no_mapping md -> found_all md = Ok [].
Proof.
  intros N M. unfold found_all.
  rewrite (map_res_each _ (fun _ => None)).
  - cbn [bind]. f_equal. generalize md. intros l. induction l as [|x t IH]; [reflexivity|exact IH].
  - intros [n v] I. generalize subclasses. intros ks. induction ks as [|k t IH]; [reflexivity|]. cbn [first_class].
    rewrite (no_mapping_class md k n v N M I). exact IH.
Qed.

Lemma no_mapping_proj4 md rp : names_ok md -> no_mapping md -> get_crs_variable md rp = load_proj4 md.
Proof.
  intros N M. unfold get_crs_variable. rewrite (no_mapping_found md N M). cbn [bind is_rotated].
  now rewrite andb_false_r.
Qed.

Lemma proj4_names_in md k n t : In (k, n, t) (proj4_names md) <->
  exists v, In (k, v) md /\ vm_name v = n /\ proj4_variable v t.
Proof.
  unfold proj4_names. rewrite in_flat_map. split.
  - intros ([k' v] & I & J). destruct (attr_is _ _ _) eqn:A; [|easy]. apply attr_is_iff in A.
    destruct (aget (vm_attrs v) "proj4") as [[s|x|x|]|] eqn:P; try easy. destruct J as [[= -> <- ->]|[]].
    exists v. split; [exact I|]. split; [reflexivity|]. now split.
  - intros (v & I & <- & [A P]). exists (k, v). split; [exact I|]. rewrite (proj2 (attr_is_iff _ _ _) A). unfold says in P. rewrite P. now left.
Qed.

Lemma proj4_names_nodup md : NoDup (map fst md) -> NoDup (map (fun x => fst (fst x)) (proj4_names md)).
Proof.
  induction md as [|[k v] t IH]; [constructor|]. cbn [map fst]. intros H. apply NoDup_cons_iff in H. destruct H as [H1 H2].
  unfold proj4_names in *. cbn [flat_map]. rewrite map_app. 
  assert (S' : forall x, In x (map (fun x => fst (fst x)) (proj4_names t)) -> In x (map fst t)).
  { intros x J. apply in_map_iff in J. destruct J as ([[k' n] s] & <- & J). cbn [fst].
    apply proj4_names_in in J. destruct J as (w & I & _). apply in_map_iff. now exists (k', w). }
  destruct (attr_is _ _ _); [|exact (IH H2)].
  destruct (aget (vm_attrs v) "proj4") as [[s|x|x|]|]; try exact (IH H2). cbn [map app fst].
  constructor; [|exact (IH H2)]. intros J. apply H1. exact (S' k J).
Qed.

Lemma load_proj4_none md : (forall n v t, In (n, v) md -> ~ proj4_variable v t) -> load_proj4 md = Ok None.
Proof.
  intros H. unfold load_proj4. destruct (proj4_names md) as [|[[k n] t] l] eqn:E; [reflexivity|]. exfalso.
  assert (I : In (k, n, t) (proj4_names md)) by (rewrite E; now left).
  apply proj4_names_in in I. destruct I as (v & I & _ & P). exact (H k v t I P).
Qed.

Lemma load_proj4_one md n v t : names_ok md -> In (n, v) md -> proj4_variable v t ->
  (forall m w s, In (m, w) md -> proj4_variable w s -> m = n) ->
  load_proj4 md = Ok (Some (mkcsys (SProj4 t) n [] [] None None)).
Proof.
  intros N I P U. unfold load_proj4.
  pose proof (proj4_names_nodup md (proj1 N)) as D.
  assert (A : forall x, In x (proj4_names md) -> x = (n, n, t)).
  { intros [[k m] s] J. apply proj4_names_in in J. destruct J as (w & Iw & <- & Pw).
    pose proof (U k w s Iw Pw) as ->. pose proof (aget_in md n w N Iw) as Q. rewrite (aget_in md n v N I) in Q.
    injection Q as <-. rewrite (proj2 N n v I). f_equal. destruct P as [_ P], Pw as [_ Pw]. unfold says in *. congruence. }
  assert (J : In (n, n, t) (proj4_names md)).
  { apply proj4_names_in. exists v. split; [exact I|]. split; [exact (proj2 N n v I)|exact P]. }
  destruct (proj4_names md) as [|x [|y l]]; [easy| |].
  - rewrite (A x (or_introl eq_refl)). reflexivity.
  - exfalso. rewrite (A x (or_introl eq_refl)), (A y (or_intror (or_introl eq_refl))) in D. cbn [map fst] in D.
    apply NoDup_cons_iff in D. apply (proj1 D). now left.
Qed.

Lemma load_proj4_two md n v t n' v' t' : In (n, v) md -> proj4_variable v t -> In (n', v') md -> proj4_variable v' t' ->
  n <> n' -> load_proj4 md = Err ValueError.
Proof.
  intros I P I' P' N. unfold load_proj4.
  assert (J : In (n, vm_name v, t) (proj4_names md)) by (apply proj4_names_in; now exists v).
  assert (J' : In (n', vm_name v', t') (proj4_names md)) by (apply proj4_names_in; now exists v').
  destruct (proj4_names md) as [|[[a b] e] [|y l]]; [easy| |reflexivity].
  destruct J as [[= -> _ _]|[]], J' as [[= -> _ _]|[]]. easy.
Qed.

(** *** Longitudes and latitudes *)
Lemma with_standard_name_one md s n : names_ok md -> the_coordinate md s n -> length (with_standard_name md s) = 1%nat.
Proof.
  intros N ((v & I & S') & U). unfold with_standard_name. rewrite map_length.
  assert (D : NoDup (map fst (filter (fun '(_, v) => attr_is (vm_attrs v) "standard_name" s) md))).
  { clear U I. destruct N as [N _]. induction md as [|[k w] t IH]; [constructor|]. cbn [map fst] in N.
    apply NoDup_cons_iff in N. destruct N as [N1 N2]. cbn [filter]. destruct (attr_is _ _ _); [|exact (IH N2)].
    cbn [map fst]. constructor; [|exact (IH N2)]. intros J. apply N1. apply in_map_iff in J. destruct J as (x & Ex & J).
    apply filter_In in J. apply in_map_iff. now exists x. }
  assert (A : forall x, In x (filter (fun '(_, v) => attr_is (vm_attrs v) "standard_name" s) md) -> fst x = n).
  { intros [k w] J. apply filter_In in J. destruct J as [J A]. apply attr_is_iff in A. exact (U k w J A). }
  assert (J : In (n, v) (filter (fun '(_, v) => attr_is (vm_attrs v) "standard_name" s) md)).
  { apply filter_In. split; [exact I|]. now apply attr_is_iff. }
  destruct (filter _ md) as [|x [|y l]]; [easy|reflexivity|]. exfalso. cbn [map] in D.
  rewrite (A x (or_introl eq_refl)), (A y (or_intror (or_introl eq_refl))) in D. apply NoDup_cons_iff in D.
  apply (proj1 D). now left.
Qed.

Lemma load_spherical2_some md x y : names_ok md -> the_coordinate md "longitude" x -> the_coordinate md "latitude" y ->
  load_spherical2 md = Some cf_spherical.
Proof.
  intros N X Y. unfold load_spherical2.
  now rewrite (with_standard_name_one md _ x N X), (with_standard_name_one md _ y N Y).
Qed.

Lemma with_standard_name_none md s : (forall n, ~ the_coordinate md s n) -> names_ok md -> length (with_standard_name md s) <> 1%nat.
Proof.
  intros H N E. unfold with_standard_name in E. rewrite map_length in E.
  assert (A : forall x, In x (filter (fun '(_, v) => attr_is (vm_attrs v) "standard_name" s) md) <-> In x md /\ says (vm_attrs (snd x)) "standard_name" s).
  { intros [k w]. rewrite filter_In. cbn [snd]. now rewrite attr_is_iff. }
  destruct (filter _ md) as [|[n v] [|y l]]; try easy.
  apply (H n). split.
  - exists v. apply (A (n, v)). now left.
  - intros m w I S'. destruct (proj2 (A (m, w)) (conj I S')) as [E'|[]]. now injection E'.
Qed.

Lemma load_spherical2_none md : names_ok md ->
  (forall n, ~ the_coordinate md "longitude" n) \/ (forall n, ~ the_coordinate md "latitude" n) -> load_spherical2 md = None.
Proof.
  intros N [H|H]; unfold load_spherical2.
  - destruct (Nat.eqb_spec (length (with_standard_name md "longitude")) 1) as [E|E]; [|reflexivity].
    now apply with_standard_name_none in E.
  - destruct (Nat.eqb_spec (length (with_standard_name md "latitude")) 1) as [E|E]; [|now rewrite andb_false_r].
    now apply with_standard_name_none in E.
Qed.

(** ** Attributes which are not read *)
Lemma proj_value_ext k kw kw' : (forall p, In p (map fst (map_parameters k)) -> aget kw' p = aget kw p) ->
  proj_value k kw' = proj_value k kw.
Proof.
  intros H. unfold proj_value. revert H. generalize [("proj", AStr (proj_name k))]. generalize (map_parameters k).
  induction l as [|[name key] t IH]; intros d H; [reflexivity|]. cbn [fold_res].
  assert (E : add_parameter k kw' d (name, key) = add_parameter k kw d (name, key)).
  { unfold add_parameter. rewrite (H name); [reflexivity|]. now left. }
  rewrite E. destruct (add_parameter k kw d (name, key)) as [u|]; [|reflexivity]. cbn [bind]. apply IH.
  intros p I. apply H. now right.
Qed.

Lemma unread_attribute k px py name kwds c p v :
  cf_init k px py name kwds = Ok c -> ~ In p (map fst (map_parameters k)) -> p <> "epsg" ->
  p <> "scale_factor" -> p <> "alpha" ->
  exists c', cf_init k px py name (aset kwds p v) = Ok c' /\ cs_value c' = cs_value c.
Proof.
  intros H N Ne Ns Na.
  assert (D : forall q, q <> p -> aget (add_absent k (aset kwds p v)) q = aget (add_absent k kwds) q).
  { intros q Nq. unfold add_absent. destruct k; try (now apply aset_other).
    - unfold dmem. rewrite (aset_other kwds p v "scale_factor") by congruence.
      destruct (aget kwds "scale_factor"); [now apply aset_other|]. rewrite !dget_dset.
      destruct (String.eqb q "scale_factor"); [reflexivity|]. destruct (String.eqb_spec q p); [easy|reflexivity].
    - unfold dmem. rewrite (aset_other kwds p v "alpha") by congruence.
      destruct (aget kwds "alpha"); [now apply aset_other|]. rewrite !dget_dset.
      destruct (String.eqb q "alpha"); [reflexivity|]. destruct (String.eqb_spec q p); [easy|reflexivity]. }
  unfold cf_init in *. cbv zeta in *.
  assert (M : dmem String.eqb (add_absent k (aset kwds p v)) "epsg" = dmem String.eqb (add_absent k kwds) "epsg").
  { unfold dmem. rewrite D by congruence. reflexivity. }
  rewrite M. destruct (dmem String.eqb (add_absent k kwds) "epsg"); [easy|].
  rewrite (proj_value_ext k (add_absent k kwds)).
  - destruct (proj_value k (add_absent k kwds)) as [d|]; [|easy]. cbn [bind] in *. injection H as <-. eexists. split; reflexivity.
  - intros q I. apply D. intros ->. easy.
Qed.

(** ** Writing and reading again *)
Lemma fold_blank l (d : attrs) : NoDup (map fst d ++ map fst l) ->
  fold_left (fun d kv => aset d (fst kv) (blank_none (snd kv))) l d = d ++ map (fun kv => (fst kv, blank_none (snd kv))) l.
Proof.
  revert d. induction l as [|[k v] t IH]; intros d N; [now rewrite app_nil_r|]. cbn [fold_left map fst snd].
  cbn [map fst] in N.
  assert (Nk : ~ In k (map fst d)).
  { intros I. apply NoDup_remove_2 in N. apply N. apply in_or_app. now left. }
  rewrite (dset_new d k _ Nk), IH; [now rewrite <- app_assoc|].
  rewrite map_app. cbn [map fst]. rewrite <- app_assoc. exact N.
Qed.

Lemma write_cf_attrs k c w text : cs_class c = SCF k -> k <> Spherical -> NoDup (map fst (cs_params c)) ->
  ~ In "grid_mapping_name" (map fst (cs_params c)) ->
  write_crs (WCF c) w text =
    (cs_name c, ("grid_mapping_name", AStr (mapping_name k)) :: map (fun kv => (fst kv, blank_none (snd kv))) (cs_params c)).
Proof.
  intros K NS N G. unfold write_crs, write_to_rootgrp. cbn [w_name]. rewrite K.
  assert (E : cf_mapping_attrs k c [] =
    ("grid_mapping_name", AStr (mapping_name k)) :: map (fun kv => (fst kv, blank_none (snd kv))) (cs_params c)).
  { unfold cf_mapping_attrs. rewrite fold_blank; [reflexivity|]. cbn [map fst app dset]. now constructor. }
  destruct w; destruct k; cbn [base_attrs]; rewrite E; reflexivity.
Qed.

Lemma map_blank_id (l : attrs) : (forall p v, In (p, v) l -> v <> ANone) -> map (fun kv => (fst kv, blank_none (snd kv))) l = l.
Proof.
  induction l as [|[p v] t IH]; intros H; [reflexivity|]. cbn [map fst snd]. rewrite IH.
  - f_equal. f_equal. destruct v; try reflexivity. exfalso. exact (H p ANone (or_introl eq_refl) eq_refl).
  - intros q w I. apply (H q w). now right.
Qed.

Lemma aset_blank (l : attrs) q u : aget l q = Some u -> (forall p v, In (p, v) l -> v = ANone -> p = q) -> NoDup (map fst l) ->
  aset (map (fun kv => (fst kv, blank_none (snd kv))) l) q u = l.
Proof.
  induction l as [|[p v] t IH]; [easy|]. cbn [dget map fst snd dset]. intros G H N.
  apply NoDup_cons_iff in N. destruct N as [N1 N2].
  destruct (String.eqb_spec q p) as [->|X].
  - injection G as ->. f_equal. apply map_blank_id. intros p' v' I ->.
    pose proof (H p' ANone (or_intror I) eq_refl) as ->. apply N1. apply in_map_iff. now exists (p, ANone).
  - rewrite IH; [|exact G| |exact N2].
    + f_equal. f_equal. destruct v; try reflexivity. exfalso. apply X. symmetry. exact (H p ANone (or_introl eq_refl) eq_refl).
    + intros p' v' I E. apply (H p' v'); [now right|exact E].
Qed.

Lemma add_absent_idem k kwds : add_absent k (add_absent k kwds) = add_absent k kwds.
Proof.
  unfold add_absent. destruct k; try reflexivity.
  - destruct (dmem String.eqb kwds "scale_factor") eqn:M; [now rewrite M|]. unfold dmem at 1. now rewrite aset_this.
  - destruct (dmem String.eqb kwds "alpha") eqn:M; [now rewrite M|]. unfold dmem at 1. now rewrite aset_this.
Qed.

Lemma cf_init_inv k px py name kwds c : cf_init k px py name kwds = Ok c ->
  c = mkcsys (SCF k) name (add_absent k kwds) (cs_value c) px py /\
  proj_value k (add_absent k kwds) = Ok (cs_value c) /\ ~ present (add_absent k kwds) "epsg".
Proof.
  unfold cf_init. cbv zeta. destruct (dmem String.eqb (add_absent k kwds) "epsg") eqn:M; [easy|].
  destruct (proj_value k (add_absent k kwds)) as [d|] eqn:V; [|easy]. cbn [bind]. intros [= <-]. split; [reflexivity|].
  split; [reflexivity|]. intros [v E]. unfold dmem in M. now rewrite E in M.
Qed.

Lemma proj_value_required k kwds d : proj_value k kwds = Ok d -> forall p, In p (required k) -> present kwds p.
Proof.
  intros H p I. unfold proj_value in H. apply fold_res_ok in H.
  assert (Q : exists key, In (p, key) (map_parameters k) /\ (iterable k p = true \/ map_default k p = None)).
  { destruct k; cbn [required In] in I; try easy; decompose [or] I; subst; try easy; cbn [map_parameters In map_default iterable]; eexists; split;
      auto 10; try (left; reflexivity); try (right; reflexivity). }
  destruct Q as (key & J & Q). rewrite Forall_forall in H. destruct (H (p, key) J) as (t & u & E).
  unfold add_parameter in E. unfold present. destruct (aget kwds p) as [v|]; [now exists v|]. exfalso.
  destruct Q as [Q|Q]; rewrite Q in E; [easy|]. now destruct (iterable k p).
Qed.

Lemma roundtrip_cf k px py g kwds c md w text :
  cf_init k px py g kwds = Ok c -> k <> Spherical ->
  NoDup (map fst (cs_params c)) -> ~ In "grid_mapping_name" (map fst (cs_params c)) ->
  (forall p v, In (p, v) (cs_params c) -> v = ANone -> k = Lambert /\ p = "units") ->
  only_mapping md k g (snd (write_crs (WCF c) w text)) -> coordinates md k px py ->
  (k = Lambert -> exists u, units_of md px u /\ aget (cs_params c) "units" = Some u) ->
  get_crs_variable md true = Ok (Some c).
Proof.
  intros I K N G An O Co Un. destruct (cf_init_inv _ _ _ _ _ _ I) as (Ec & V & Ne).
  assert (Kc : cs_class c = SCF k) by (rewrite Ec; reflexivity).
  assert (Pc : cs_params c = add_absent k kwds) by (rewrite Ec; reflexivity).
  set (a := snd (write_crs (WCF c) w text)) in *.
  assert (Ea : a = ("grid_mapping_name", AStr (mapping_name k)) :: map (fun kv => (fst kv, blank_none (snd kv))) (cs_params c)).
  { unfold a. now rewrite (write_cf_attrs k c w text Kc K N G). }
  assert (Ap : apop a "grid_mapping_name" = map (fun kv => (fst kv, blank_none (snd kv))) (cs_params c)) by (rewrite Ea; reflexivity).
  assert (U : exists u, (k = Lambert -> units_of md px u) /\ read_params md k px a u = cs_params c).
  { assert (D : k = Lambert \/ k <> Lambert) by (destruct k; auto; right; easy). destruct D as [D|D].
    - destruct (Un D) as (u & U1 & U2). exists u. split; [now intros _|]. subst k. unfold read_params. rewrite Ap.
      apply aset_blank; [exact U2| |exact N]. intros p v J E. exact (proj2 (An p v J E)).
    - exists ANone. split; [easy|]. unfold read_params.
      assert (B : map (fun kv => (fst kv, blank_none (snd kv))) (cs_params c) = cs_params c).
      { apply map_blank_id. intros p v J E. destruct (An p v J E). easy. }
      destruct k; try easy; now rewrite Ap. }
  destruct U as (u & U1 & U2).
  destruct (the_crs_ok k md g a px py u (om_names _ _ _ _ O) K Co U1) as (d & D & T).
  - intros p Ip. pose proof (proj_value_required _ _ _ V p Ip) as [v Ev]. rewrite <- Pc in Ev.
    assert (P' : present (map (fun kv => (fst kv, blank_none (snd kv))) (cs_params c)) p).
    { apply dget_some_iff. rewrite map_map. cbn [fst]. apply dget_some_iff. now exists v. }
    rewrite <- Ap in P'. destruct P' as [x Ex]. exists x. rewrite dget_dremove in Ex; [exact Ex|].
    intros ->. destruct k; cbn [required In] in Ip; decompose [or] Ip; easy.
  - intros [v Ev]. apply Ne. rewrite <- Pc.
    assert (P' : present (map (fun kv => (fst kv, blank_none (snd kv))) (cs_params c)) "epsg").
    { exists v. rewrite <- Ap. now rewrite dget_dremove. }
    apply dget_some_iff in P'. rewrite map_map in P'. cbn [fst] in P'. now apply dget_some_iff.
  - rewrite U2, Pc, add_absent_idem in *. rewrite D in V. injection V as ->.
    rewrite (get_crs_variable_only md k g a _ true O K T). cbn [negb andb]. rewrite <- Ec. reflexivity.
Qed.

(** ** Comparison *)
Lemma zlist_eqb_eq a b : zlist_eqb a b = true <-> a = b.
Proof.
  revert b. induction a as [|x s IH]; intros [|y t]; cbn [zlist_eqb]; try easy.
  rewrite andb_true_iff, Z.eqb_eq, IH. split; [intros [-> ->]; reflexivity|now intros [= -> ->]].
Qed.

Lemma aval_eqb_eq a b : aval_eqb a b = true <-> a = b.
Proof.
  destruct a, b; cbn [aval_eqb]; try easy.
  - rewrite String.eqb_eq. split; [now intros ->|now intros [= ->]].
  - rewrite Z.eqb_eq. split; [now intros ->|now intros [= ->]].
  - rewrite zlist_eqb_eq. split; [now intros ->|now intros [= ->]].
Qed.

Lemma deq_iff a b : NoDup (map fst a) -> NoDup (map fst b) ->
  deq a b = true <-> (length a = length b /\ forall k v, In (k, v) a -> In (k, v) b).
Proof.
  intros Na Nb. unfold deq. rewrite andb_true_iff, Nat.eqb_eq, forallb_forall. split; intros [L H]; (split; [exact L|]).
  - intros k v I. specialize (H (k, v) I). cbn in H. destruct (aget b k) as [w|] eqn:E; [|easy].
    apply aval_eqb_eq in H. subst w. now apply dget_in.
  - intros [k v] I. rewrite (dget_nodup b k v Nb (H k v I)). now apply aval_eqb_eq.
Qed.

Lemma nodup_pairs (a : attrs) : NoDup (map fst a) -> NoDup a.
Proof. apply NoDup_map_inv. Qed.

Lemma deq_sym a b : NoDup (map fst a) -> NoDup (map fst b) -> deq a b = deq b a.
Proof.
  assert (H : forall a b, NoDup (map fst a) -> NoDup (map fst b) -> deq a b = true -> deq b a = true).
  { intros x y Nx Ny E. apply deq_iff in E; [|exact Nx|exact Ny]. destruct E as [L I]. apply deq_iff; [exact Ny|exact Nx|].
    split; [now symmetry|]. intros k v J.
    assert (Inc : incl y x).
    { apply NoDup_length_incl; [exact (nodup_pairs x Nx)|lia|]. intros [p q]. apply I. }
    exact (Inc (k, v) J). }
  intros Na Nb. destruct (deq a b) eqn:E1, (deq b a) eqn:E2; try reflexivity.
  - rewrite (H a b Na Nb E1) in E2. easy.
  - rewrite (H b a Nb Na E2) in E1. easy.
Qed.

Lemma deq_refl a : NoDup (map fst a) -> deq a a = true.
Proof. intros N. apply deq_iff; [exact N|exact N|]. split; [reflexivity|auto]. Qed.

Lemma apop_nodup (a : attrs) k : NoDup (map fst a) -> NoDup (map fst (apop a k)).
Proof.
  induction a as [|[p v] t IH]; [auto|]. cbn [map fst dremove]. intros N. apply NoDup_cons_iff in N. destruct N as [N1 N2].
  destruct (String.eqb k p); [exact N2|]. cbn [map fst]. constructor; [|exact (IH N2)].
  intros I. apply N1. clear -I. induction t as [|[q w] t IH]; [easy|]. cbn [dremove] in I.
  destruct (String.eqb k q); [now right|]. cbn [map fst In] in I. destruct I as [->|I]; [now left|right; exact (IH I)].
Qed.

Lemma base_eq_sym same c c' v w : (forall a b, same a b = same b a) -> NoDup (map fst v) -> NoDup (map fst w) ->
  base_eq same v (EProj c w) = base_eq same w (EProj c' v).
Proof.
  intros S' Nv Nw. cbn [base_eq]. rewrite (S' v w), (deq_sym v w Nv Nw),
    (deq_sym (apop v "wktext") (apop w "wktext") (apop_nodup v _ Nv) (apop_nodup w _ Nw)). reflexivity.
Qed.
