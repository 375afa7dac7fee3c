(** * Proofs about the choice of a driver and the search for files. *)
From Verif Require Import Py Lib RequestModel RequestSpec.
From Coq Require Import String Ascii Bool List ZArith Lia.
Import ListNotations.
Local Open Scope string_scope.
Local Open Scope list_scope.

(** ** Strings *)

Lemma prefix_iff lit s : String.prefix lit s = true <-> exists b, s = (lit ++ b)%string.
Proof.
  revert s. induction lit as [|c lit IH]; intros s; split.
  - intros _. now exists s.
  - destruct s; reflexivity.
  - destruct s as [|c' s]; [easy|]. cbn [String.prefix].
    destruct (ascii_dec c c') as [->|]; [|easy]. intros H.
    apply IH in H. destruct H as (b & ->). now exists b.
  - intros (b & ->). cbn. destruct (ascii_dec c c); [|easy]. apply IH. now exists b.
Qed.

Lemma re_any_then_iff lit s : re_any_then lit s = true <-> mentions lit s.
Proof.
  induction s as [|c r IH]; cbn [re_any_then].
  - rewrite orb_false_r, prefix_iff. split.
    + intros (b & Hb). exists "", b. split; [exact Hb|easy].
    + intros (a & b & E & _). destruct a; [|easy]. now exists b.
  - rewrite orb_true_iff, andb_true_iff, negb_true_iff, IH, prefix_iff. split.
    + intros [(b & Hb)|(Hc & a & b & E & Ha)].
      * exists "", b. split; [exact Hb|easy].
      * exists (String c a), b. split; [now rewrite E|].
        cbn. intros [E'|I]; [|easy]. subst c. now rewrite Ascii.eqb_refl in Hc.
    + intros (a & b & E & Ha). destruct a as [|c' a].
      * left. now exists b.
      * cbn in E. injection E as <- ->. right. split.
        -- apply Ascii.eqb_neq. intros ->. apply Ha. now left.
        -- exists a, b. split; [reflexivity|]. intros I. apply Ha. now right.
Qed.

Lemma contains_iff lit s : contains lit s = true <-> exists a b, s = (a ++ lit ++ b)%string.
Proof.
  induction s as [|c r IH]; cbn [contains].
  - rewrite orb_false_r, prefix_iff. split.
    + intros (b & Hb). now exists "", b.
    + intros (a & b & E). destruct a; [|easy]. now exists b.
  - rewrite orb_true_iff, IH, prefix_iff. split.
    + intros [(b & Hb)|(a & b & ->)]; [now exists "", b|now exists (String c a), b].
    + intros (a & b & E). destruct a as [|c' a]; [left; now exists b|].
      cbn in E. injection E as <- ->. right. now exists a, b.
Qed.

Definition is_nc (u : string) : bool := re_any_then ".nc" u || String.prefix "http" u.

Lemma is_nc_iff u : is_nc u = true <-> netcdf_uri u.
Proof.
  unfold is_nc, netcdf_uri, starts. now rewrite orb_true_iff, re_any_then_iff, prefix_iff.
Qed.

Lemma not_true_iff (b : bool) P : (b = true <-> P) -> ~ P -> b = false.
Proof. destruct b; intuition. Qed.

(** ** The list of possible drivers *)

Lemma possible_cons u t : possible (u :: t) = possible [u] ++ possible t.
Proof. unfold possible. cbn [flat_map]. now rewrite app_nil_r. Qed.

Lemma possible_app l t : possible (l ++ t) = possible l ++ possible t.
Proof. unfold possible. apply flat_map_app. Qed.

Definition tabular (u : string) : list driver :=
  (if re_any_then ".csv" u then [CSV] else []) ++ (if re_any_then ".shp" u then [VECTOR] else []).

Lemma possible_one u :
  possible [u] =
    (if re_any_then ".csv" u then [CSV] else []) ++
    (let n := (if re_any_then ".nc" u then 1 else 0) + (if String.prefix "http" u then 1 else 0) in
     repeat NETCDF n ++ repeat NETCDF_CF n ++
     (if re_any_then ".shp" u then [VECTOR] else []) ++ repeat UGRID n ++ repeat ESMF n ++ repeat SCRIP n)%nat.
Proof.
  unfold possible, registry. cbn [flat_map extensions re_match].
  destruct (re_any_then ".csv" u), (re_any_then ".nc" u), (String.prefix "http" u), (re_any_then ".shp" u);
    reflexivity.
Qed.

Lemma filter_priority_in d l : In d (filter priority l) -> d = NETCDF_CF.
Proof. rewrite filter_In. intros (_ & H). now destruct d. Qed.

Lemma distinct_same l : l <> [] -> (forall d, In d l -> d = NETCDF_CF) -> distinct l = [NETCDF_CF].
Proof.
  induction l as [|d t IH]; [easy|]. intros _ H. cbn [distinct].
  rewrite (H d (or_introl eq_refl)). destruct t as [|d' t'].
  - reflexivity.
  - cbn [existsb]. rewrite (H d' (or_intror (or_introl eq_refl))). cbn [driver_eqb orb].
    rewrite <- (H d' (or_intror (or_introl eq_refl))) at 1. apply IH; [easy|].
    intros x I. apply H. now right.
Qed.

Lemma discover_priority ds uris : possible uris = ds -> (2 <= List.length ds)%nat -> In NETCDF_CF ds -> discover uris = Ok NETCDF_CF.
Proof.
  intros E L I. unfold discover. rewrite E.
  destruct ds as [|a [|b t]]; [easy|cbn in L; lia|].
  assert (N : filter priority (a :: b :: t) <> []).
  { intros N. assert (J : In NETCDF_CF (filter priority (a :: b :: t))).
    { apply filter_In. split; [exact I|reflexivity]. }
    rewrite N in J. exact J. }
  rewrite (distinct_same _ N) by (intros d J; exact (filter_priority_in d _ J)).
  destruct (filter priority (a :: b :: t)) as [|d q] eqn:F; [easy|].
  now rewrite (filter_priority_in d (a :: b :: t)) by (rewrite F; now left).
Qed.

Lemma discover_no_priority uris : (2 <= List.length (possible uris))%nat -> (forall d, In d (possible uris) -> d = CSV \/ d = VECTOR) -> discover uris = Err RequestValidationError.
Proof.
  intros L H. unfold discover.
  destruct (possible uris) as [|a [|b t]]; [cbn in L; lia|cbn in L; lia|].
  assert (E : filter priority (a :: b :: t) = []).
  { destruct (filter priority (a :: b :: t)) as [|d q] eqn:F; [reflexivity|].
    assert (J : In d (filter priority (a :: b :: t))) by (rewrite F; now left).
    pose proof (filter_priority_in _ _ J). apply filter_In in J. destruct (H d (proj1 J)); congruence. }
  now rewrite E.
Qed.

Lemma discover_netcdf uris u : In u uris -> netcdf_uri u -> discover uris = Ok NETCDF_CF.
Proof.
  intros I N. apply in_split in I. destruct I as (l & t & ->).
  apply is_nc_iff in N. unfold is_nc in N. apply orb_true_iff in N.
  assert (E : exists p q, possible [u] = p ++ NETCDF :: q /\ In NETCDF_CF q).
  { rewrite possible_one. destruct (re_any_then ".csv" u).
    - exists [CSV]. destruct (re_any_then ".nc" u), (String.prefix "http" u); cbn.
      all: try (destruct N; easy).
      all: eexists; split; [reflexivity|]; cbn; auto.
    - exists []. destruct (re_any_then ".nc" u), (String.prefix "http" u); cbn.
      all: try (destruct N; easy).
      all: eexists; split; [reflexivity|]; cbn; auto. }
  destruct E as (p & q & E & J).
  apply (discover_priority (possible (l ++ u :: t)) _ eq_refl).
  - rewrite possible_app, possible_cons, E, !app_length. cbn [List.length]. destruct q; [easy|]. cbn. lia.
  - rewrite possible_app, possible_cons, E. rewrite !in_app_iff. cbn. auto 6.
Qed.

Lemma possible_tabular uris : (forall u, In u uris -> ~ netcdf_uri u) -> possible uris = flat_map tabular uris.
Proof.
  induction uris as [|u t IH]; intros H; [reflexivity|].
  rewrite possible_cons. cbn [flat_map]. rewrite IH by (intros x I; apply H; now right). f_equal.
  rewrite possible_one.
  pose proof (not_true_iff _ _ (is_nc_iff u) (H u (or_introl eq_refl))) as N.
  unfold is_nc in N. apply orb_false_iff in N. destruct N as (-> & ->). cbn.
  unfold tabular. destruct (re_any_then ".csv" u), (re_any_then ".shp" u); reflexivity.
Qed.

Lemma tabular_in u d : In d (tabular u) <-> d = CSV /\ mentions ".csv" u \/ d = VECTOR /\ mentions ".shp" u.
Proof.
  unfold tabular. rewrite <- !re_any_then_iff, in_app_iff.
  destruct (re_any_then ".csv" u), (re_any_then ".shp" u); cbn; intuition congruence.
Qed.

Lemma discover_none uris :
  (forall u, In u uris -> ~ netcdf_uri u /\ ~ mentions ".csv" u /\ ~ mentions ".shp" u) ->
  discover uris = Err RequestValidationError.
Proof.
  intros H. unfold discover. rewrite possible_tabular by (intros u I; apply (H u I)).
  assert (E : flat_map tabular uris = []).
  { induction uris as [|u t IH]; [reflexivity|]. cbn [flat_map].
    rewrite IH by (intros x I; apply H; now right). rewrite app_nil_r.
    destruct (H u (or_introl eq_refl)) as (_ & C & V). unfold tabular.
    rewrite (not_true_iff _ _ (re_any_then_iff ".csv" u) C), (not_true_iff _ _ (re_any_then_iff ".shp" u) V).
    reflexivity. }
  now rewrite E.
Qed.

Lemma discover_one_csv u : only_csv u -> discover [u] = Ok CSV.
Proof.
  intros (C & V & N). unfold discover. rewrite possible_tabular by (intros x [<-|[]]; exact N).
  cbn [flat_map]. unfold tabular. apply re_any_then_iff in C. rewrite C.
  now rewrite (not_true_iff _ _ (re_any_then_iff ".shp" u) V).
Qed.

Lemma discover_one_shp u : only_shp u -> discover [u] = Ok VECTOR.
Proof.
  intros (V & C & N). unfold discover. rewrite possible_tabular by (intros x [<-|[]]; exact N).
  cbn [flat_map]. unfold tabular. apply re_any_then_iff in V. rewrite V.
  now rewrite (not_true_iff _ _ (re_any_then_iff ".csv" u) C).
Qed.

Lemma discover_several uris :
  (2 <= List.length uris)%nat ->
  (forall u, In u uris -> ~ netcdf_uri u /\ (mentions ".csv" u \/ mentions ".shp" u)) ->
  discover uris = Err RequestValidationError.
Proof.
  intros L H. apply discover_no_priority; rewrite possible_tabular by (intros u I; apply (H u I)).
  - assert (G : (List.length uris <= List.length (flat_map tabular uris))%nat); [|lia].
    clear L. induction uris as [|u t IH]; [cbn; lia|].
    cbn [flat_map]. rewrite app_length. cbn [List.length].
    specialize (IH (fun x I => H x (or_intror I))). unfold tabular at 1.
    destruct (H u (or_introl eq_refl)) as (_ & [C|C]); apply re_any_then_iff in C; rewrite C.
    + destruct (re_any_then ".shp" u); cbn [List.length app]; lia.
    + destruct (re_any_then ".csv" u); cbn [List.length app]; lia.
  - intros d I. apply in_flat_map in I. destruct I as (u & _ & I). apply tabular_in in I. tauto.
Qed.

(** A known type of file anywhere in the path. *)
Lemma discover_anywhere dirname name :
  ~ In newline (list_ascii_of_string dirname) ->
  discover [(dirname ++ ".nc/" ++ name)%string] = Ok NETCDF_CF.
Proof.
  intros H. apply (discover_netcdf _ (dirname ++ ".nc/" ++ name)%string); [now left|].
  left. exists dirname, ("/" ++ name)%string. split; [reflexivity|exact H].
Qed.

(** ** The driver argument *)

Lemma get_driver_key d : get_driver (DKey (driver_key d)) = Ok (Registered d).
Proof. destruct d; reflexivity. Qed.

Lemma get_driver_class_arg d : get_driver (DClass d) = Ok (Registered d).
Proof. destruct d; reflexivity. Qed.

Lemma registry_find_unknown k : (forall d, k <> driver_key d) -> registry_find (DKey k) = None.
Proof.
  intros H. unfold registry_find, registry. cbn [fold_left].
  repeat match goal with
  | |- context [String.eqb (driver_key ?d) k] =>
      rewrite (proj2 (String.eqb_neq (driver_key d) k)) by (intros E; exact (H d (eq_sym E)))
  end. reflexivity.
Qed.

Lemma get_driver_class_key k dflt : k <> "base" ->
  get_driver_class (DKey k) dflt =
    match registry_find (DKey k) with
    | Some d => Ok (Registered d)
    | None => match dflt with
              | None => Err ValueError
              | Some k => match registry_find (DKey k) with
                          | Some d => Ok (Registered d) | None => Err ValueError end
              end
    end.
Proof.
  intros B. unfold get_driver_class.
  destruct k as [|c k]; [reflexivity|].
  repeat (match goal with
          | |- context [match ?x with _ => _ end] => is_var x; destruct x; try reflexivity
          end; try congruence).
Qed.

Lemma get_driver_unknown k : k <> "base" -> (forall d, k <> driver_key d) -> get_driver (DKey k) = Ok (Registered NETCDF_CF).
Proof.
  intros B H. unfold get_driver. rewrite get_driver_class_key by exact B.
  now rewrite (registry_find_unknown k H).
Qed.

(** ** Files *)

Section Walk.
  Variable n : string.

  Definition rows (w : list (string * list string)) : list string :=
    flat_map (fun row => map (join (fst row)) (filter (fun x => String.eqb x n) (snd row))) w.

  Definition walk_subs (path : string) := fix go (l : list (string * dir)) : list (string * list string) :=
    match l with [] => [] | (s, c) :: t => walk (join path s) c ++ go t end.

  Lemma walk_eq path files subs : walk path (Dir files subs) = (path, files) :: walk_subs path subs.
  Proof. reflexivity. Qed.

  Lemma rows_app a b : rows (a ++ b) = rows a ++ rows b.
  Proof. apply flat_map_app. Qed.

  Lemma rows_sound : forall d path p, In p (rows (walk path d)) -> file_at path d n p.
  Proof.
    fix IH 1. intros [files subs] path p. rewrite walk_eq. cbn [rows flat_map fst snd].
    rewrite in_app_iff. intros [I|I].
    - apply in_map_iff in I. destruct I as (x & <- & I). apply filter_In in I. destruct I as (I & E).
      apply String.eqb_eq in E. subst x. now constructor.
    - assert (G : exists s c, In (s, c) subs /\ file_at (path ++ "/" ++ s)%string c n p).
      { revert I. fold (rows (walk_subs path subs)).
        induction subs as [|[s c] t IHt]; [easy|]. cbn [walk_subs]. rewrite rows_app, in_app_iff.
        intros [I|I].
        - exists s, c. split; [now left|]. exact (IH c _ _ I).
        - destruct (IHt I) as (s' & c' & J & F). exists s', c'. split; [now right|exact F]. }
      destruct G as (s & c & J & F). exact (file_below path files subs s c n p J F).
  Qed.

  Lemma rows_complete path d p : file_at path d n p -> In p (rows (walk path d)).
  Proof.
    intros F. remember n as m eqn:Em. induction F as [path files subs m I|path files subs s c m p J F IH].
    - subst m. rewrite walk_eq. cbn [rows flat_map fst snd]. apply in_app_iff. left.
      apply in_map_iff. exists n. split; [reflexivity|]. apply filter_In. split; [exact I|apply String.eqb_refl].
    - specialize (IH Em). rewrite walk_eq. cbn [rows flat_map fst snd]. apply in_app_iff. right.
      fold (rows (walk_subs path subs)). clear F.
      induction subs as [|[s' c'] t IHt]; [easy|]. cbn [walk_subs]. rewrite rows_app, in_app_iff.
      destruct J as [E|J]; [|right; exact (IHt J)].
      injection E as -> ->. left. exact IH.
  Qed.
End Walk.

Lemma locate_iff n root p : In p (locate n root) <-> file_at (fst root) (snd root) n p.
Proof. split; [apply rows_sound|apply rows_complete]. Qed.

Lemma locate_nil n root : locate n root = [] <-> ~ holds_file root n.
Proof.
  split.
  - intros E (p & F). apply locate_iff in F. now rewrite E in F.
  - intros H. destruct (locate n root) as [|p t] eqn:E; [reflexivity|].
    exfalso. apply H. exists p. apply locate_iff. rewrite E. now left.
Qed.

Lemma search_app u a b :
  search u (a ++ b) = fold_left (fun ret root => match locate u root with [] => ret | f :: _ => Some f end) b (search u a).
Proof. unfold search. apply fold_left_app. Qed.

Lemma search_snoc u a root :
  search u (a ++ [root]) = match locate u root with [] => search u a | f :: _ => Some f end.
Proof. rewrite search_app. reflexivity. Qed.

Lemma search_some u dirs p : search u dirs = Some p ->
  exists pre root post, dirs = pre ++ root :: post /\ file_at (fst root) (snd root) u p /\
    (forall r, In r post -> ~ holds_file r u).
Proof.
  induction dirs as [|root pre IH] using rev_ind; [easy|].
  rewrite search_snoc. destruct (locate u root) as [|f t] eqn:E.
  - intros H. destruct (IH H) as (a & r & b & -> & F & N).
    exists a, r, (b ++ [root]). rewrite <- app_assoc. split; [reflexivity|]. split; [exact F|].
    intros q I. apply in_app_iff in I. destruct I as [I|[<-|[]]]; [exact (N q I)|].
    now apply locate_nil.
  - intros [= <-]. exists pre, root, []. split; [reflexivity|]. split; [|easy].
    apply locate_iff. rewrite E. now left.
Qed.

Lemma search_none u dirs : search u dirs = None <-> (forall r, In r dirs -> ~ holds_file r u).
Proof.
  induction dirs as [|root pre IH] using rev_ind; [easy|].
  rewrite search_snoc. destruct (locate u root) as [|f t] eqn:E.
  - rewrite IH. apply locate_nil in E. split.
    + intros H r I. apply in_app_iff in I. destruct I as [I|[<-|[]]]; [exact (H r I)|exact E].
    + intros H r I. apply H. apply in_app_iff. now left.
  - split; [easy|]. intros H. exfalso. apply (H root); [apply in_app_iff; right; now left|].
    exists f. apply locate_iff. rewrite E. now left.
Qed.

Lemma get_one_passes known dirs ie u : known u = true \/ remote u -> get_one_uri known dirs ie u = Ok (Some u).
Proof.
  intros H. unfold get_one_uri. replace (known u || contains "://" u) with true; [reflexivity|].
  symmetry. apply orb_true_iff. destruct H as [H|H]; [now left|right; now apply contains_iff].
Qed.

Lemma get_one_searches known dirs ie u : known u = false -> ~ remote u ->
  get_one_uri known dirs ie u =
    match search u dirs with
    | None => if ie then Ok None else Err ValueError
    | Some f => if negb (known f) && negb ie then Err ValueError else Ok (Some f)
    end.
Proof.
  intros K R. unfold get_one_uri. rewrite K.
  now rewrite (not_true_iff _ _ (contains_iff "://" u) R).
Qed.

Lemma get_one_ok known dirs u o : get_one_uri known dirs false u = Ok o ->
  exists p, o = Some p /\
    ((p = u /\ (known u = true \/ remote u)) \/
     (known u = false /\ known p = true /\
      exists pre root post, dirs = pre ++ root :: post /\ file_at (fst root) (snd root) u p /\
        (forall r, In r post -> ~ holds_file r u))).
Proof.
  unfold get_one_uri. destruct (known u) eqn:K; cbn [orb].
  - intros [= <-]. exists u. split; [reflexivity|]. left. split; [reflexivity|now left].
  - destruct (contains "://" u) eqn:C.
    + intros [= <-]. exists u. split; [reflexivity|]. left. split; [reflexivity|]. right. now apply contains_iff.
    + destruct (search u dirs) as [f|] eqn:E; [|easy].
      destruct (known f) eqn:Kf; cbn; [|easy]. intros [= <-]. exists f. split; [reflexivity|].
      right. split; [reflexivity|]. split; [exact Kf|]. exact (search_some _ _ _ E).
Qed.

Lemma get_uri_ok known dirs uris out : get_uri known dirs false uris = Ok out ->
  Forall2 (fun u o => exists p, o = Some p /\
    ((p = u /\ (known u = true \/ remote u)) \/
     (known u = false /\ known p = true /\
      exists pre root post, dirs = pre ++ root :: post /\ file_at (fst root) (snd root) u p /\
        (forall r, In r post -> ~ holds_file r u)))) uris out.
Proof.
  intros H. assert (M : map_res (get_one_uri known dirs false) uris = Ok out).
  { destruct uris; [easy|exact H]. }
  clear H. revert out M. induction uris as [|u t IH]; intros out M.
  - cbn in M. injection M as <-. constructor.
  - cbn [map_res] in M. destruct (get_one_uri known dirs false u) as [o|e] eqn:E; [|easy]. cbn [bind] in M.
    destruct (map_res (get_one_uri known dirs false) t) as [os|e]; [|easy]. cbn [bind] in M. injection M as <-.
    constructor; [exact (get_one_ok _ _ _ _ E)|exact (IH os eq_refl)].
Qed.

Lemma get_uri_ignored known dirs uris : uris <> [] -> exists out, get_uri known dirs true uris = Ok out /\
  Forall2 (fun u o => ((known u = true \/ remote u) -> o = Some u) /\
    (known u = false -> ~ remote u -> match o with
      | Some p => exists root, In root dirs /\ file_at (fst root) (snd root) u p
      | None => forall root, In root dirs -> ~ holds_file root u end)) uris out.
Proof.
  intros N.
  assert (E : get_uri known dirs true uris = map_res (get_one_uri known dirs true) uris) by (destruct uris; easy).
  rewrite E. clear E N. induction uris as [|u t IH]; [exists []; split; [reflexivity|constructor]|].
  destruct IH as (out & E & F). cbn [map_res].
  assert (G : exists o, get_one_uri known dirs true u = Ok o /\
    ((known u = true \/ remote u) -> o = Some u) /\
    (known u = false -> ~ remote u -> match o with
      | Some p => exists root, In root dirs /\ file_at (fst root) (snd root) u p
      | None => forall root, In root dirs -> ~ holds_file root u end)).
  { destruct (known u || contains "://" u) eqn:Q.
    - assert (C : known u = true \/ remote u).
      { apply orb_true_iff in Q. destruct Q as [Q|Q]; [now left|right; now apply contains_iff]. }
      exists (Some u). split; [now apply get_one_passes|]. split; [easy|]. intros K R. destruct C; [congruence|easy].
    - apply orb_false_iff in Q. destruct Q as [K C].
      assert (R : ~ remote u) by (intros R; apply contains_iff in R; congruence).
      rewrite (get_one_searches known dirs true u K R). destruct (search u dirs) as [p|] eqn:S'.
      + rewrite andb_false_r. exists (Some p). split; [reflexivity|]. split; [intros [D|D]; [congruence|easy]|]. intros _ _.
        destruct (search_some u dirs p S') as (pre & root & post & -> & A & _). exists root. split; [|exact A].
        apply in_app_iff. right. now left.
      + exists None. split; [reflexivity|]. split; [intros [D|D]; [congruence|easy]|]. intros _ _. now apply search_none. }
  destruct G as (o & G1 & G2). exists (o :: out). rewrite G1. cbn [bind]. rewrite E. split; [reflexivity|]. now constructor.
Qed.

Lemma get_uri_missing known dirs uris u : In u uris -> known u = false -> ~ remote u ->
  (forall r, In r dirs -> ~ holds_file r u) ->
  get_uri known dirs false uris = Err ValueError.
Proof.
  intros I K R H. destruct uris as [|u0 t0]; [easy|].
  unfold get_uri. set (uris := u0 :: t0) in *. clearbody uris.
  induction uris as [|a t IH]; [easy|]. cbn [map_res].
  destruct I as [->|I].
  - rewrite get_one_searches by assumption. now rewrite (proj2 (search_none u dirs) H).
  - destruct (get_one_uri known dirs false a) as [o|e] eqn:E; cbn [bind].
    + now rewrite (IH I).
    + revert E. unfold get_one_uri. destruct (known a || contains "://" a); [easy|].
      destruct (search a dirs) as [f|]; [|congruence].
      destruct (negb (known f) && negb false); congruence.
Qed.

Lemma get_uri_answers known dirs uris : uris <> [] ->
  (forall r u p, In r dirs -> file_at (fst r) (snd r) u p -> known p = true) ->
  (forall u, In u uris -> known u = true \/ remote u \/ exists r, In r dirs /\ holds_file r u) ->
  exists out, get_uri known dirs false uris = Ok out.
Proof.
  intros N T H.
  assert (G : exists out, map_res (get_one_uri known dirs false) uris = Ok out).
  { apply map_res_exists. intros u I. unfold get_one_uri.
    destruct (known u) eqn:K; [now exists (Some u)|]. cbn [orb].
    destruct (contains "://" u) eqn:C; [now exists (Some u)|].
    destruct (search u dirs) as [f|] eqn:E.
    - destruct (search_some _ _ _ E) as (a & r & b & -> & F & _).
      rewrite (T r u f) by (try exact F; apply in_app_iff; right; now left).
      now exists (Some f).
    - exfalso. destruct (H u I) as [H'|[H'|(r & J & H')]].
      + congruence.
      + apply contains_iff in H'. congruence.
      + exact (proj1 (search_none u dirs) E r J H'). }
  destruct G as (out & G). exists out. destruct uris; [easy|exact G].
Qed.

(** The last of the directories holding the file is the one that counts. *)
Lemma get_uri_last known pre root u : known u = false -> ~ remote u -> holds_file root u ->
  (forall p, file_at (fst root) (snd root) u p -> known p = true) ->
  exists p, get_uri known (pre ++ [root]) false [u] = Ok [Some p] /\ file_at (fst root) (snd root) u p.
Proof.
  intros K R H T. unfold get_uri. cbn [map_res]. rewrite get_one_searches by assumption.
  rewrite search_snoc. destruct (locate u root) as [|f t] eqn:E.
  - exfalso. now apply (proj1 (locate_nil u root) E).
  - assert (F : file_at (fst root) (snd root) u f) by (apply locate_iff; rewrite E; now left).
    exists f. rewrite (T f F). split; [reflexivity|exact F].
Qed.

(** Names with a separator are never found. *)
Lemma file_at_name path d n p : file_at path d n p -> plain_names d -> contains "/" n = false.
Proof.
  intros F. induction F as [path files subs n I|path files subs s c n p J F IH]; intros P; inversion P; subst.
  - auto.
  - apply IH. eauto.
Qed.

Lemma get_uri_relative known dirs u : known u = false -> ~ remote u -> contains "/" u = true ->
  (forall r, In r dirs -> plain_names (snd r)) ->
  get_uri known dirs false [u] = Err ValueError.
Proof.
  intros K R S0 P. apply (get_uri_missing known dirs [u] u); [now left|exact K|exact R|].
  intros r I (p & F). pose proof (file_at_name _ _ _ _ F (P r I)). congruence.
Qed.
