(** Fields made from records (C120) and the geometry parameter of the operations (C122). *)
From Coq Require Import QArith.
From Verif Require Import Py Lib NdModel RequestNames FeatureModel FeatureSpec FeatureProofs.
Local Open Scope string_scope.
Local Open Scope list_scope.
Local Open Scope Z_scope.

(** ** C120 *)

(** Records that look like the first one: a geometry and a row for each in their order, a
    variable for each property but the identifier, each cell the value of its record. *)
Theorem C120_values_partial : forall read readq (G : Type) (union2 : G -> G -> G) r0 rs uid strict ids,
  NoDup (map fst (r_props r0)) -> (forall r, In r (r0 :: rs) -> like_first (r_props r0) (r_props r)) ->
  (forall r, In r (r0 :: rs) -> dget String.eqb (r_props r) uid = None) /\ ids = counted (length (r0 :: rs)) \/
  Forall2 (fun r i => dget String.eqb (r_props r) uid = Some (PInt i)) (r0 :: rs) ids ->
  exists f, from_records read readq union2 (r0 :: rs) (r0 :: rs) None uid false strict = Ok f /\
    f_geoms f = map (fun r => Some (r_geom r)) (r0 :: rs) /\ f_ids f = ids /\
    map fst (f_cols f) = filter (fun k => negb (String.eqb k uid)) (map fst (r_props r0)) /\
    f_tags f = uid :: filter (fun k => negb (String.eqb k uid)) (map fst (r_props r0)) /\
    forall k, In k (map fst (r_props r0)) -> k <> uid -> exists c, dget String.eqb (f_cols f) k = Some c /\
      length (c_cells c) = length (r0 :: rs) /\
      forall i r, nth_error (r0 :: rs) i = Some r -> nth_error (c_cells c) i = Some (cell_for (dget String.eqb (r_props r) k)).
Proof.
  intros read readq G union2 r0 rs uid strict ids D L I. apply records_ok; [exact D|exact L|].
  destruct I as [[N E]|F].
  - unfold dmem. rewrite (N r0 (or_introl eq_refl)), read_ids_counted, E. reflexivity.
  - unfold dmem. inversion F as [|? ? ? ? H _]; subst. rewrite H. now apply read_ids_given.
Qed.
Print Assumptions C120_values_partial.

Definition no_int (s : string) : option Z := None.
Definition no_float (s : string) : option Q := None.
Definition city (g : Z) (p : props) : record Z := mkrecord g p.
Definition cities : list (record Z) :=
  [city 100 [("UGID", PInt 8); ("NAME", PStr "Oslo"); ("POP", PInt 700)]; city 200 [("UGID", PInt 3); ("NAME", PStr "Bergen"); ("POP", PNone)]].

Example C120_case : exists f, from_records no_int no_float Z.add cities cities None "UGID" false false = Ok f /\
  f_ids f = [8; 3] /\ map fst (f_cols f) = ["NAME"; "POP"] /\ option_map c_cells (dget String.eqb (f_cols f) "POP") = Some [Val (PInt 700); Fill].
Proof. eexists. split; [reflexivity|]. repeat split. Qed.

Example C120_case_like : forall r, In r cities -> like_first (r_props (city 100 [("UGID", PInt 8); ("NAME", PStr "Oslo"); ("POP", PInt 700)])) (r_props r).
Proof.
  assert (N : NoDup ["UGID"; "NAME"; "POP"]) by (constructor; [intros [E|[E|[]]]; discriminate|]; constructor; [intros [E|[]]; discriminate|]; constructor; [easy|constructor]).
  intros r [<-|[<-|[]]]; (split; [exact N|]); intros k v [E|[E|[E|[]]]]; injection E as <- <-; eexists; (split; [reflexivity|exact I]).
Qed.

(** Full statement: a value that is none is masked.  False: no value of any field made from
    records is masked. *)
Theorem C120_null_refuted : forall read readq (G : Type) (union2 : G -> G -> G) records again schema uid union strict f k c i,
  from_records read readq union2 records again schema uid union strict = Ok f -> In (k, c) (f_cols f) -> masked c i = false.
Proof.
  intros read readq G union2 records again schema uid union strict f k c i H I. unfold from_records in H.
  destruct union; [injection H as <-; easy|]. destruct records as [|r0 t]; [discriminate|]. apply bind_Ok in H. destruct H as (ids & _ & H).
  destruct again as [|first a].
  - destruct schema; [|discriminate]. injection H as <-. easy.
  - apply bind_Ok in H. destruct H as (st & _ & H). apply bind_Ok in H. destruct H as (cols & E & H). injection H as <-. cbn [f_cols] in I.
    refine (set_records_clear read readq uid (snd st) (first :: a) 0 _ cols _ E k c I i).
    intros k' c' I'. apply in_map_iff in I'. destruct I' as ((k1 & t1) & Q & _). injection Q as <- <-. intros j. reflexivity.
Qed.
Print Assumptions C120_null_refuted.

(** A missing string is left as the fill, and read as a number, not as masked. *)
Example C120_null_case : exists f c, from_records no_int no_float Z.add [city 1 [("NAME", PNone)]] [city 1 [("NAME", PNone)]] (Some [("NAME", TStr 10)]) "UGID" false false = Ok f /\
  dget String.eqb (f_cols f) "NAME" = Some c /\ c_cells c = [Fill] /\ c_mask c = Some [false].
Proof. do 2 eexists. split; [reflexivity|]. repeat split. Qed.

(** Full statement: the values are those of the records.  False: the first record decides the
    type; later fractions are cut off, and so are all if the first value is none. *)
Theorem C120_cut_refuted : forall read readq idx uid skips cols k c v cols',
  left_out uid skips k = false -> dget String.eqb cols k = Some c -> c_type c = TInt ->
  set_record read readq uid skips idx [(k, PFloat v)] cols = Ok cols' ->
  exists c', dget String.eqb cols' k = Some c' /\ c_cells c' = set_nth (c_cells c) idx (Val (PInt (trunc v))).
Proof.
  intros read readq idx uid skips cols k c v cols' L D T H. cbn [set_record] in H. rewrite L, D, T in H. cbn [store bind] in H. injection H as <-.
  exists (value_at c idx (PInt (trunc v))). split; [now rewrite dget_dset, String.eqb_refl|reflexivity].
Qed.
Print Assumptions C120_cut_refuted.

Theorem C120_type_refuted : forall first, first = PNone \/ first = PInt 2 ->
  exists f c, from_records no_int no_float Z.add [city 1 [("H", first)]; city 2 [("H", PFloat (7 # 2))]] [city 1 [("H", first)]; city 2 [("H", PFloat (7 # 2))]] None "UGID" false false = Ok f /\
    dget String.eqb (f_cols f) "H" = Some c /\ nth_error (c_cells c) 1 = Some (Val (PInt 3)).
Proof. intros first [-> | ->]; do 2 eexists; (split; [reflexivity|]); split; reflexivity. Qed.
Print Assumptions C120_type_refuted.

Theorem C120_string_refuted :
  from_records no_int no_float Z.add [city 1 [("N", PNone)]; city 2 [("N", PStr "x")]] [city 1 [("N", PNone)]; city 2 [("N", PStr "x")]] None "UGID" false false = Err ValueError.
Proof. reflexivity. Qed.
Print Assumptions C120_string_refuted.

(** Full statement: an identifier that a record has is its identifier.  False: only the first
    record is asked for it. *)
Theorem C120_ids_refuted : forall read readq (G : Type) (union2 : G -> G -> G) r0 rs again schema uid strict f,
  dget String.eqb (r_props r0) uid = None ->
  from_records read readq union2 (r0 :: rs) again schema uid false strict = Ok f -> f_ids f = counted (length (r0 :: rs)).
Proof.
  intros read readq G union2 r0 rs again schema uid strict f N H. unfold from_records in H. unfold dmem in H. rewrite N, read_ids_counted in H. cbn [bind] in H.
  destruct again as [|first a].
  - destruct schema; [|discriminate]. now injection H as <-.
  - apply bind_Ok in H. destruct H as (st & _ & H). apply bind_Ok in H. destruct H as (cols & _ & H). now injection H as <-.
Qed.
Print Assumptions C120_ids_refuted.

Theorem C120_later_refuted : forall read readq (G : Type) (union2 : G -> G -> G) r0 rs again schema uid strict v r,
  dget String.eqb (r_props r0) uid = Some v -> In r rs -> dget String.eqb (r_props r) uid = None ->
  forall f, from_records read readq union2 (r0 :: rs) again schema uid false strict <> Ok f.
Proof.
  intros read readq G union2 r0 rs again schema uid strict v r H0 I N f H. unfold from_records in H. unfold dmem in H. rewrite H0 in H.
  apply bind_Ok in H. destruct H as (ids & H & _). apply (read_ids_missing read uid (r0 :: rs) r (or_intror I) N 1 ids H).
Qed.
Print Assumptions C120_later_refuted.

Example C120_ids_case : exists f, from_records no_int no_float Z.add [city 1 [("A", PInt 1)]; city 2 [("A", PInt 1); ("UGID", PInt 50)]] [city 1 [("A", PInt 1)]; city 2 [("A", PInt 1); ("UGID", PInt 50)]] None "UGID" false false = Ok f /\ f_ids f = [1; 2].
Proof. eexists. split; reflexivity. Qed.
Example C120_later_case : dget String.eqb (r_props (city 1 [("UGID", PInt 5)])) "UGID" = Some (PInt 5) /\ dget String.eqb (r_props (city 2 [("A", PInt 1)])) "UGID" = None.
Proof. split; reflexivity. Qed.

(** Full statement: identifiers are unique.  False: those of the records are not compared, and fractions are cut. *)
Theorem C120_unique_refuted : exists f, from_records no_int no_float Z.add [city 1 [("UGID", PInt 4)]; city 2 [("UGID", PFloat (9 # 2))]] [city 1 [("UGID", PInt 4)]; city 2 [("UGID", PFloat (9 # 2))]] None "UGID" false false = Ok f /\ f_ids f = [4; 4].
Proof. eexists. split; reflexivity. Qed.
Print Assumptions C120_unique_refuted.

(** Full statement: a sequence that can be read once gives the same field.  False: with a schema
    the field has no attributes although it names them, without one it fails. *)
Theorem C120_once_refuted : forall read readq (G : Type) (union2 : G -> G -> G) records schema uid strict,
  (forall f, from_records read readq union2 records [] None uid false strict <> Ok f) /\
  (forall f, from_records read readq union2 records [] (Some schema) uid false strict = Ok f -> f_cols f = [] /\ f_tags f = uid :: filter (fun k => negb (String.eqb k uid)) (map fst schema)).
Proof.
  intros read readq G union2 records schema uid strict. unfold from_records. destruct records as [|r0 t]; [split; intros; discriminate|]. split.
  - intros f H. apply bind_Ok in H. destruct H as (ids & _ & H). discriminate.
  - intros f H. apply bind_Ok in H. destruct H as (ids & _ & H). injection H as <-. now split.
Qed.
Print Assumptions C120_once_refuted.

Example C120_once_case : exists f, from_records no_int no_float Z.add cities [] (Some [("NAME", TStr 10); ("POP", TInt)]) "UGID" false false = Ok f /\ f_tags f = ["UGID"; "NAME"; "POP"].
Proof. eexists. split; reflexivity. Qed.

(** A union has one geometry made of all, the identifier 1 and no attributes. *)
Theorem C120_union : forall read readq (G : Type) (union2 : G -> G -> G) r0 rs again schema uid strict,
  exists f, from_records read readq union2 (r0 :: rs) again schema uid true strict = Ok f /\
    f_geoms f = [Some (fold_left (fun g r => union2 g (r_geom r)) rs (r_geom r0))] /\ f_ids f = [1] /\ f_cols f = [] /\ f_tags f = [uid].
Proof. intros. eexists. split; [reflexivity|]. now repeat split. Qed.
Print Assumptions C120_union.

(** Full statement: no records are refused as such.  False: the failure is that of a name not set. *)
Theorem C120_nothing_refuted : forall read readq (G : Type) (union2 : G -> G -> G) again schema uid strict,
  from_records read readq union2 [] again schema uid false strict = Err NameError.
Proof. reflexivity. Qed.
Print Assumptions C120_nothing_refuted.

(** ** C122 *)

(** Dictionaries: their geometries in their order, their properties, or their position. *)
Theorem C122_records : forall (G C : Type) (l : list (elem G C)) rs c,
  parse_dicts l = Ok (rs, c) ->
  Forall2 (fun e r => e_geom e = Some (r_geom r)) l rs /\
  forall j e r, nth_error l j = Some e -> nth_error rs j = Some r ->
    r_props r = match e_props e with Some p => p | None => [("UGID", PInt (1 + Z.of_nat j))] end.
Proof.
  intros G C l rs c H. destruct (parse_elems_ok c l 1 None rs c H) as (F & P & _). now split.
Qed.
Print Assumptions C122_records.

Theorem C122_accepted : forall (G C : Type) (l : list (elem G C)),
  l <> [] -> (Forall (fun e => e_geom e <> None) l <-> exists rs c, parse_dicts l = Ok (rs, c)).
Proof.
  intros G C l N. split.
  - intros F. apply parse_elems_total; [exact F|now left].
  - intros (rs & c & H). destruct (parse_elems_ok c l 1 None rs c H) as (F & _). clear -F. induction F as [|e r l rs H _ IH]; constructor; [congruence|exact IH].
Qed.
Print Assumptions C122_accepted.

(** Full statement: each geometry is taken in its own coordinate system.  Proved if they all
    have the same; false otherwise: the last one is used for all. *)
Theorem C122_crs_partial : forall (G C : Type) (l : list (elem G C)) rs c c',
  parse_dicts l = Ok (rs, c) -> (forall e, In e l -> e_crs e = c') -> c = c'.
Proof.
  intros G C l rs c c' H A. destruct (parse_elems_ok c l 1 None rs c H) as (_ & _ & L). destruct (rev l) as [|e t] eqn:R; [discriminate|].
  rewrite L. apply A. apply in_rev. rewrite R. now left.
Qed.
Print Assumptions C122_crs_partial.

Theorem C122_crs_refuted : forall (G C : Type) (l : list (elem G C)) e rs c,
  parse_dicts (l ++ [e]) = Ok (rs, c) -> c = e_crs e.
Proof.
  intros G C l e rs c H. destruct (parse_elems_ok c (l ++ [e]) 1 None rs c H) as (_ & _ & L). rewrite rev_app_distr in L. exact L.
Qed.
Print Assumptions C122_crs_refuted.

Example C122_case : parse_dicts [mkelem (Some 10) None (Some "utm"); mkelem (Some 20) (Some [("NAME", PStr "x")]) None] =
  Ok ([mkrecord 10 [("UGID", PInt 1)]; mkrecord 20 [("NAME", PStr "x")]], @None string).
Proof. reflexivity. Qed.

(** Full statement: what is no geometry is refused as such.  False: an empty list, and numbers
    that are not two or four, fail with a name not set. *)
Theorem C122_empty_refuted : forall (G C : Type), parse_dicts (@nil (elem G C)) = Err NameError.
Proof. reflexivity. Qed.
Print Assumptions C122_empty_refuted.

Theorem C122_numbers_refuted : forall (G : Type) (point : Q -> Q -> G) ring valid l,
  length l <> 2%nat -> length l <> 4%nat -> parse_numbers point ring valid l = Err NameError.
Proof. intros G point ring valid l N2 N4. destruct l as [|a [|b [|c [|d [|e l]]]]]; try reflexivity; now destruct N2 || now destruct N4. Qed.
Print Assumptions C122_numbers_refuted.

Example C122_numbers_case : length [1%Q; 2%Q; 3%Q] <> 2%nat /\ length [1%Q; 2%Q; 3%Q] <> 4%nat.
Proof. split; discriminate. Qed.

(** Two numbers are a point, four a box by its corners; a box that is no valid geometry is refused. *)
Theorem C122_point_box : forall (G : Type) (point : Q -> Q -> G) ring valid x y x' y',
  parse_numbers point ring valid [x; y] = (if valid (point x y) then Ok (mkrecord (point x y) [("UGID", PInt 1)]) else Err DefinitionValidationError) /\
  (let box := ring [(x, y); (x, y'); (x', y'); (x', y)] in
   parse_numbers point ring valid [x; y; x'; y'] = if valid box then Ok (mkrecord box [("UGID", PInt 1)]) else Err DefinitionValidationError).
Proof. intros. split; reflexivity. Qed.
Print Assumptions C122_point_box.

(** Numbers in a string are the same geometry; but any other count of numbers is looked for as a file. *)
Theorem C122_string_partial : forall (G : Type) (point : Q -> Q -> G) ring valid l r,
  parse_numbers point ring valid l = Ok r ->
  exists r', parse_string point ring valid (map Some l) = Ok (Geometry r') /\ r_geom r' = r_geom r.
Proof.
  intros G point ring valid l r H. assert (A : all_numbers (map Some l) = Some l) by (clear; induction l as [|q l IH]; [reflexivity|]; cbn [map all_numbers]; now rewrite IH).
  unfold parse_string. rewrite A. unfold parse_numbers in H. apply bind_Ok in H. destruct H as (g & H1 & H2).
  destruct (valid g) eqn:V; [|discriminate]. injection H2 as <-.
  destruct l as [|a [|b [|c [|d [|e l]]]]]; try discriminate; injection H1 as <-; rewrite V; eexists; (split; [reflexivity|reflexivity]).
Qed.
Print Assumptions C122_string_partial.

Theorem C122_string_refuted : forall (G : Type) (point : Q -> Q -> G) ring valid l,
  length l <> 2%nat -> length l <> 4%nat -> parse_string point ring valid (map Some l) = Ok File.
Proof.
  intros G point ring valid l N2 N4. unfold parse_string.
  assert (A : all_numbers (map Some l) = Some l) by (clear; induction l as [|q l IH]; [reflexivity|]; cbn [map all_numbers]; now rewrite IH). rewrite A.
  destruct l as [|a [|b [|c [|d [|e l]]]]]; try reflexivity; now destruct N2 || now destruct N4.
Qed.
Print Assumptions C122_string_refuted.

Example C122_string_case : parse_string (fun x y => [x; y]) (fun l => map fst l) (fun _ => true) [Some 1%Q; Some 2%Q] = Ok (Geometry (mkrecord [1%Q; 2%Q] [("ugid", PInt 1)])).
Proof. reflexivity. Qed.
