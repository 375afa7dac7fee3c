(** More proofs about unstructured meshes: whole conversions, counted connectivities,
    subsets, reduced nodes and the ESMF format. *)
From Verif Require Import Py Lib PartitionModel DistModel ScatterProofs CoordSpec CoordModel CoordProofs SelectProofs MeshModel MeshSpec MeshProofs.
Local Close Scope Q_scope.
Local Open Scope Z_scope.

(** ** There and back *)

Lemma rows_depict o nodes geo row : PlainPolygons geo -> RowOf o nodes geo row ->
  exists geo', Depicts nodes (o_start o) (Some (o_break o)) row geo' /\ SameParts geo geo' /\ Multi geo'.
Proof.
  intros H [pieces [-> F]]. destruct (plain_parts geo H) as [N P]. exists (GMultiPolygon (map (fun p => mkpoly (get_ccw (exterior p)) []) (parts geo))). split; [|split; [|exact I]].
  - exists pieces, (map (fun p => get_ccw (exterior p)) (parts geo)). split; [reflexivity|]. split; [intros ->; inversion F; congruence|]. split; [|now rewrite map_map].
    clear N H. induction F as [|piece p pieces ps D F IH]; cbn [map]; constructor.
    + exists (used_of o p). split; [exact D|]. apply Forall_inv in P. exact (closes_used (o_repeat o) _ (closed_ccw _ (proj2 P))).
    + apply IH. exact (Forall_inv_tail P).
  - unfold SameParts. cbn [parts]. clear. induction (parts geo) as [|p ps IH]; cbn [map]; constructor; [|exact IH]. split; [reflexivity|apply get_ccw_ok].
Qed.

Lemma row_depicts o nodes p row : PlainPolygon p -> RowOf o nodes (GPolygon p) row ->
  exists p', Depicts nodes (o_start o) None row (GPolygon p') /\ SameParts (GPolygon p) (GPolygon p').
Proof.
  intros H [pieces [-> F]]. cbn [parts] in F. inversion F as [|piece q pieces' ps D F']; subst. inversion F'; subst. cbn [join].
  exists (mkpoly (get_ccw (exterior p)) []). split.
  - exists (used_of o p), (get_ccw (exterior p)). split; [exact D|]. split; [exact (closes_used (o_repeat o) _ (closed_ccw _ (proj2 H)))|reflexivity].
  - unfold SameParts. cbn [parts]. constructor; [|constructor]. split; [reflexivity|apply get_ccw_ok].
Qed.

Lemma all_depict o nodes : forall gs rows, Forall PlainPolygons gs -> Forall2 (RowOf o nodes) gs rows ->
  exists gs', Forall2 (Depicts nodes (o_start o) (Some (o_break o))) rows gs' /\ Forall2 SameParts gs gs' /\ Forall Multi gs'.
Proof.
  induction gs as [|geo gs IH]; intros rows H F; inversion F as [|? row ? rows' R F']; subst; [exists []; repeat split; constructor|].
  destruct (rows_depict o nodes geo row (Forall_inv H) R) as [geo' [D [SP M]]]. destruct (IH _ (Forall_inv_tail H) F') as [gs' [D' [SP' M']]].
  exists (geo' :: gs'). split; [|split]; constructor; assumption.
Qed.

Lemma all_depict_single o nodes : forall gs rows, Forall PlainPolygons gs -> Forall (fun g => ~ Multi g) gs -> Forall2 (RowOf o nodes) gs rows ->
  exists gs', Forall2 (Depicts nodes (o_start o) None) rows gs' /\ Forall2 SameParts gs gs' /\ Forall (fun g => ~ Multi g) gs'.
Proof.
  induction gs as [|geo gs IH]; intros rows H NM F; inversion F as [|? row ? rows' R F']; subst; [exists []; repeat split; constructor|].
  pose proof (Forall_inv H) as Hg. pose proof (Forall_inv NM) as Ng. destruct geo as [v|p|ps|vs]; try contradiction Hg; [|contradiction (Ng I)].
  destruct (row_depicts o nodes p row Hg R) as [p' [D SP]]. destruct (IH _ (Forall_inv_tail H) (Forall_inv_tail NM) F') as [gs' [D' [SP' M']]].
  exists (GPolygon p' :: gs'). split; [|split]; constructor; easy.
Qed.

Lemma same_parts_length l l' : Forall2 SameParts l l' -> List.length l = List.length l'.
Proof. induction 1; cbn; congruence. Qed.

Theorem convert_mesh o gs mask g : Forall PlainPolygons gs -> gs <> [] -> 0 <= o_start o -> o_break o < 0 ->
  (forall m, mask = Some m -> List.length m = List.length gs) -> convert_to o gs mask = Ok g ->
  exists gs', Mesh g gs' /\ Ugrid g /\ g_mask g = mask /\ Forall2 SameParts gs gs' /\
    (Exists Multi gs /\ Forall Multi gs' \/ Forall (fun x => ~ Multi x) gs /\ Forall (fun x => ~ Multi x) gs').
Proof.
  intros H N S0 B L E. destruct (convert_to_ok o gs mask g H N E) as [P [M [St [Mu [rows [I [F _]]]]]]].
  assert (U : Ugrid g) by (exists rows; exact I).
  assert (R : exists s, g_index g = Some s /\ rows_of s = rows) by (destruct I as [I|I]; [exists (Ragged rows)|exists (Table rows)]; split; trivial).
  destruct R as [s [Is Rs]].
  assert (K : forall gs', Forall2 (Depicts (g_nodes g) (o_start o) (g_multi g)) rows gs' -> Forall2 SameParts gs gs' -> Mesh g gs').
  { intros gs' D SP. split; [exact P|]. exists s. split; [exact Is|]. rewrite Rs, St. split; [exact D|]. split; [|split; [exact S0|]].
    - destruct Mu as [[_ Mu]|[_ Mu]]; rewrite Mu; intros v Ev; [injection Ev as <-; exact B|discriminate].
    - rewrite M, <- (same_parts_length _ _ SP). exact L. }
  destruct Mu as [[MM Mu]|[MM Mu]]; rewrite Mu in K.
  - destruct (all_depict o (g_nodes g) gs rows H F) as [gs' [D [SP AM]]]. exists gs'. split; [now apply K|]. split; [exact U|]. split; [exact M|]. split; [exact SP|]. left. now split.
  - destruct (all_depict_single o (g_nodes g) gs rows H MM F) as [gs' [D [SP AM]]]. exists gs'. split; [now apply K|]. split; [exact U|]. split; [exact M|]. split; [exact SP|]. right. now split.
Qed.

Theorem round_trip o gs mask g : Forall PlainPolygons gs -> gs <> [] -> 0 <= o_start o -> o_break o < 0 ->
  (forall m, mask = Some m -> List.length m = List.length gs) -> o_start o = 0 \/ Forall (fun x => ~ Multi x) gs -> convert_to o gs mask = Ok g ->
  exists gs' l, Forall2 SameParts gs gs' /\ iter_geometries g true None false = (g, Ok l) /\ Shows mask gs' l.
Proof.
  intros H N S0 B L O E. destruct (convert_mesh o gs mask g H N S0 B L E) as [gs' [Me [U [M [SP K]]]]].
  destruct (convert_to_ok o gs mask g H N E) as [_ [_ [St [Mu _]]]].
  destruct (iter_rows g gs' true Me U) as [l [El Sl]].
  - destruct O as [O|O]; [right; congruence|]. left. destruct Mu as [[X _]|[_ X]]; [|exact X]. exfalso. apply Exists_exists in X. destruct X as [x [Ix Mx]]. rewrite Forall_forall in O. exact (O x Ix Mx).
  - exists gs', l. rewrite M in Sl. split; [exact SP|]. split; [exact El|exact Sl].
Qed.

(** The nodes. *)
Theorem convert_nodes o gs mask g : Forall PlainPolygons gs -> gs <> [] -> convert_to o gs mask = Ok g ->
  (o_pack o = true -> NoDup (g_nodes g)) /\
  (o_pack o = false -> exists vss, g_nodes g = concat vss /\
     Forall2 (fun vs p => exists r, CounterClockwise (exterior p) r /\ vs = (if o_repeat o then r else removelast r)) vss (concat (map parts gs))) /\
  exists rows, (g_index g = Some (Ragged rows) \/ g_index g = Some (Table rows)) /\
    (forall k, (k < List.length (g_nodes g))%nat -> In (o_start o + Z.of_nat k) (concat rows)) /\
    Forall2 (fun row geo => exists pieces, row = join (o_break o) pieces /\
      Forall2 (fun piece p => exists r, CounterClockwise (exterior p) r /\ Draws (g_nodes g) (o_start o) piece (if o_repeat o then r else removelast r)) pieces (parts geo)) rows gs.
Proof.
  intros H N E. destruct (convert_to_ok o gs mask g H N E) as [_ [_ [_ [_ [rows [I [F [ND [U X]]]]]]]]]. split; [exact ND|]. split.
  - intro P. exists (map (used_of o) (concat (map parts gs))). split; [exact (X P)|]. clear. induction (concat (map parts gs)) as [|p ps IH]; constructor; [|exact IH].
    exists (get_ccw (exterior p)). split; [apply get_ccw_ok|reflexivity].
  - exists rows. split; [exact I|]. split; [exact U|]. clear - F. induction F as [|geo row gs rows [pieces [-> D]] F IH]; constructor; [|exact IH].
    exists pieces. split; [reflexivity|]. clear - D. induction D as [|piece p pieces ps D _ IH]; constructor; [|exact IH]. exists (get_ccw (exterior p)). split; [apply get_ccw_ok|exact D].
Qed.

Theorem convert_holes o gs mask : Forall (fun g => match g with GPolygon _ | GMultiPolygon _ => True | _ => False end) gs ->
  Exists (fun g => Exists (fun p => holes p <> []) (parts g)) gs -> exists e, convert_to o gs mask = Err e.
Proof.
  intros H X. unfold convert_to. destruct (geom_type gs) as [k|] eqn:T; [|eexists; reflexivity].
  assert (R : exists e, convert_rows o gs = Err e).
  { unfold convert_rows. assert (R : forall st, exists e, fold_res (geom_step o) gs st = Err e).
    { clear T. induction X as [g gs Xg|g gs X IH]; intros [[nodes cidx] rows]; cbn [fold_res].
      - apply Exists_exists in Xg. destruct Xg as [p [Ip Hp]]. assert (B : existsb (fun p => 0 <? zlen (holes p)) (parts_of g) = true).
        { apply existsb_exists. exists p. split; [rewrite parts_same; exact Ip|]. destruct (holes p); [congruence|]. unfold zlen. cbn [List.length]. lia. }
        exists ValueError. unfold geom_step at 1. unfold add_geom. rewrite B. destruct g; try contradiction (Forall_inv H); reflexivity.
      - destruct (geom_step o (nodes, cidx, rows) g) as [st'|e] eqn:E; [|exists e; reflexivity]. cbn [bind]. apply IH. exact (Forall_inv_tail H). }
    destruct (R ([], o_start o, [])) as [e E]. exists e. unfold geom_step in E. rewrite E. reflexivity. }
  destruct R as [e R]. rewrite R. assert (k = TPolygon \/ k = TMultiPolygon) as [-> | ->]; [|exists e; reflexivity|exists e; reflexivity].
  clear - H T. revert k T. induction gs as [|g gs IH]; intros k T; [discriminate|]. destruct g as [v|p|ps|vs]; try contradiction (Forall_inv H).
  - cbn [geom_type] in T. destruct (geom_type gs) as [k'|]; injection T as <-; [apply IH; [exact (Forall_inv_tail H)|reflexivity]|now left].
  - injection T as <-. now right.
Qed.

(** Points. *)
Lemma geom_type_points vs : vs <> [] -> geom_type (map GPoint vs) = Some TPoint.
Proof. induction vs as [|v vs IH]; intro N; [congruence|]. cbn [map geom_type]. destruct vs as [|w vs]; [reflexivity|]. rewrite IH by discriminate. reflexivity. Qed.

Definition points_gc (vs : list vertex) (start : Z) (mask : option (list bool)) : gc := mkgc true vs None (Some start) 0 None mask.
Lemma convert_points o vs mask : vs <> [] -> convert_to o (map GPoint vs) mask = Ok (points_gc vs (o_start o) mask).
Proof.
  intro N. unfold convert_to. rewrite geom_type_points by exact N.
  assert (E : map_res (fun g => match g with GPoint v => Ok v | _ => Err ValueError end) (map GPoint vs) = Ok vs).
  { clear. induction vs as [|v vs IH]; [reflexivity|]. cbn [map map_res]. cbn [bind]. now rewrite IH. }
  rewrite E. reflexivity.
Qed.


Lemma iter_points g use_mask hint : g_point g = true -> g_index g = None ->
  iter_geometries g use_mask hint false = (g, Ok (expected (masked_at g use_mask hint) 0 (map GPoint (g_nodes g)))).
Proof.
  intros P I. unfold iter_geometries, n_elements. rewrite P, I. f_equal. unfold expected. rewrite map_length.
  assert (K : forall pre vs, g_nodes g = (pre ++ vs)%list ->
    map_res (fun idx => if masked_at g use_mask hint idx then Ok None else do p <- point_element g idx; Ok (Some p)) (seq (List.length pre) (List.length vs)) =
    Ok (map (fun p => if masked_at g use_mask hint (fst p) then None else Some (snd p)) (combine (seq (List.length pre) (List.length vs)) (map GPoint vs)))).
  { intros pre vs. revert pre. induction vs as [|v vs IH]; intros pre E; [reflexivity|]. cbn [List.length seq map combine map_res fst snd].
    assert (E' : g_nodes g = ((pre ++ [v]) ++ vs)%list) by (rewrite <- app_assoc; exact E). specialize (IH _ E'). rewrite app_length in IH. cbn [List.length] in IH. rewrite Nat.add_comm in IH. cbn [plus] in IH.
    assert (Q : point_element g (List.length pre) = Ok (GPoint v)).
    { unfold point_element. rewrite I. cbn [bind]. rewrite (py_index_nth (g_nodes g) (List.length pre) v); [reflexivity|]. rewrite E, nth_error_app2, Nat.sub_diag by lia. reflexivity. }
    destruct (masked_at g use_mask hint (List.length pre)); cbn [bind]; [|rewrite Q; cbn [bind]]; rewrite IH; reflexivity. }
  exact (K [] (g_nodes g) eq_refl).
Qed.

Theorem points_round_trip o vs mask : vs <> [] -> exists g l, convert_to o (map GPoint vs) mask = Ok g /\
  iter_geometries g true None false = (g, Ok l) /\ Shows mask (map GPoint vs) l.
Proof.
  intro N. exists (points_gc vs (o_start o) mask). eexists. split; [now apply convert_points|]. split; [now rewrite iter_points|]. cbn [g_nodes points_gc].
  exact (expected_shows (points_gc vs (o_start o) mask) true (map GPoint vs)).
Qed.

(** ** Counted connectivities *)

Lemma py_slice_mid {A} (a b c : list A) : py_slice (a ++ b ++ c) (slice_of (zlen a) (zlen a + zlen b)) = b.
Proof.
  unfold py_slice, slice_bounds, slice_of, clip_end; cbn [sl_start sl_stop]. unfold zlen. rewrite !app_length.
  replace (Z.of_nat (List.length a) <? 0) with false by lia. replace (Z.of_nat (List.length a) + Z.of_nat (List.length b) <? 0) with false by lia. rewrite !Z.min_l by lia.
  rewrite Nat2Z.id. replace (Z.to_nat _) with (List.length b) by lia. rewrite skipn_app, skipn_all2, Nat.sub_diag by lia. cbn [skipn app]. rewrite firstn_app, firstn_all2, Nat.sub_diag by lia. cbn [firstn]. now rewrite app_nil_r.
Qed.


Lemma zrange_cons a b : a < b -> zrange a b = a :: zrange (a + 1) b.
Proof.
  intro H. unfold zrange. replace (Z.to_nat (b - a)) with (S (Z.to_nat (b - (a + 1)))) by lia. cbn [seq map]. f_equal; [lia|].
  rewrite <- seq_shift, map_map. apply map_ext. intro. lia.
Qed.


Lemma sub_outside lo hi k : forall l from, hi <= from \/ from + zlen l <= lo ->
  map (fun p => if (lo <=? fst p) && (fst p <? hi) then snd p - k else snd p) (combine (zrange from (from + zlen l)) l) = l.
Proof.
  induction l as [|x l IH]; intros from H.
  - unfold zlen. cbn [List.length]. rewrite Z.add_0_r. unfold zrange. replace (Z.to_nat (from - from)) with 0%nat by lia. reflexivity.
  - unfold zlen in *. cbn [List.length] in *. rewrite zrange_cons by lia. cbn [combine map fst snd]. replace ((lo <=? from) && (from <? hi)) with false by lia. f_equal.
    replace (from + Z.of_nat (S (List.length l))) with (from + 1 + Z.of_nat (List.length l)) by lia. apply IH. lia.
Qed.
Lemma sub_inside lo hi k : forall l from, lo <= from -> from + zlen l <= hi ->
  map (fun p => if (lo <=? fst p) && (fst p <? hi) then snd p - k else snd p) (combine (zrange from (from + zlen l)) l) = map (fun x => x - k) l.
Proof.
  induction l as [|x l IH]; intros from H1 H2.
  - unfold zlen. cbn [List.length]. rewrite Z.add_0_r. unfold zrange. replace (Z.to_nat (from - from)) with 0%nat by lia. reflexivity.
  - unfold zlen in *. cbn [List.length] in *. rewrite zrange_cons by lia. cbn [combine map fst snd]. replace ((lo <=? from) && (from <? hi)) with true by lia. f_equal.
    replace (from + Z.of_nat (S (List.length l))) with (from + 1 + Z.of_nat (List.length l)) by lia. apply IH; lia.
Qed.

Lemma zrange_app a b c : a <= b -> b <= c -> zrange a c = (zrange a b ++ zrange b c)%list.
Proof.
  intros H1 H2. unfold zrange. replace (Z.to_nat (c - a)) with (Z.to_nat (b - a) + Z.to_nat (c - b))%nat by lia. rewrite seq_app, map_app. f_equal.
  rewrite <- (map_id (seq (0 + _) _)). generalize (Z.to_nat (c - b)) as n. intro n. cbn [plus]. rewrite map_id.
  replace (seq (Z.to_nat (b - a)) n) with (map (fun k => (Z.to_nat (b - a) + k)%nat) (seq 0 n)).
  - rewrite map_map. apply map_ext. intro. lia.
  - generalize (Z.to_nat (b - a)) as m. intro m. clear. revert m. induction n as [|n IH]; intro m; [reflexivity|]. cbn [seq map]. f_equal; [lia|]. rewrite <- (IH (S m)), <- seq_shift, map_map. apply map_ext. intro. lia.
Qed.

Lemma combine_app' {A B} (a a' : list A) : forall (b b' : list B), List.length a = List.length b -> combine (a ++ a') (b ++ b') = (combine a b ++ combine a' b')%list.
Proof. induction a as [|x a IH]; intros [|y b] b' L; cbn in L |- *; try discriminate; [reflexivity|]. f_equal. apply IH. congruence. Qed.

Lemma sub_section_mid a b c k : sub_section (zlen a) (zlen a + zlen b) k (a ++ b ++ c) = (a ++ map (fun x => x - k) b ++ c)%list.
Proof.
  unfold sub_section. assert (L : zlen (a ++ b ++ c) = zlen a + zlen b + zlen c) by (unfold zlen; rewrite !app_length; lia). rewrite L.
  assert (0 <= zlen a /\ 0 <= zlen b /\ 0 <= zlen c) as [La [Lb Lc]] by (unfold zlen; lia).
  assert (ZL : forall x y, x <= y -> List.length (zrange x y) = Z.to_nat (y - x)) by (intros; unfold zrange; now rewrite map_length, seq_length).
  rewrite (zrange_app 0 (zlen a) (zlen a + zlen b + zlen c)), (zrange_app (zlen a) (zlen a + zlen b) (zlen a + zlen b + zlen c)) by lia.
  rewrite combine_app' by (rewrite ZL by lia; unfold zlen; lia). rewrite combine_app' by (rewrite ZL by lia; unfold zlen; lia). rewrite !map_app. f_equal; [|f_equal].
  - apply (sub_outside (zlen a) (zlen a + zlen b) k a 0). right. lia.
  - apply sub_inside; lia.
  - apply sub_outside. left. lia.
Qed.

(** What an iteration leaves of a counted connectivity. *)
Definition left_over (start : Z) (masked : nat -> bool) (k : nat) (rows : list (list Z)) : list Z :=
  concat (map (fun p => if masked (fst p) then snd p else map (fun x => x - (if 0 <? start then start else 0)) (snd p)) (combine (seq k (List.length rows)) rows)).

Lemma visit_counted g masked : forall rows gs pre done, 0 <= start_index g -> (forall v, g_multi g = Some v -> v < 0) -> g_multi g = None \/ start_index g = 0 ->
  Forall2 (Depicts (g_nodes g) (start_index g) (g_multi g)) rows gs -> zsum pre = zlen done ->
  visit g false masked (seq (List.length pre) (List.length rows)) (Counted (done ++ concat rows) (pre ++ map zlen rows)) =
    (Counted (done ++ left_over (start_index g) masked (List.length pre) rows) (pre ++ map zlen rows), Ok (expected masked (List.length pre) gs)).
Proof.
  induction rows as [|row rows IH]; intros gs pre done St V M F L; inversion F as [|? geo ? gs' D F']; subst; [reflexivity|].
  cbn [List.length seq visit map concat].
  assert (Ex : expected masked (List.length pre) (geo :: gs') = (if masked (List.length pre) then None else Some geo) :: expected masked (S (List.length pre)) gs') by reflexivity.
  assert (LO : left_over (start_index g) masked (List.length pre) (row :: rows) =
    ((if masked (List.length pre) then row else map (fun x => x - (if 0 <? start_index g then start_index g else 0)) row) ++ left_over (start_index g) masked (S (List.length pre)) rows)%list) by reflexivity.
  assert (C1 : count_start (pre ++ zlen row :: map zlen rows) (List.length pre) = zlen done).
  { unfold count_start. rewrite firstn_app, firstn_all, Nat.sub_diag. cbn [firstn]. now rewrite app_nil_r. }
  assert (C2 : count_start (pre ++ zlen row :: map zlen rows) (S (List.length pre)) = zlen done + zlen row).
  { unfold count_start. replace (S (List.length pre)) with (List.length pre + 1)%nat by lia. rewrite firstn_app_2. cbn [firstn]. rewrite zsum_app, zsum_cons. cbn. lia. }
  assert (K : forall row', List.length row' = List.length row -> visit g false masked (seq (S (List.length pre)) (List.length rows)) (Counted (done ++ row' ++ concat rows) (pre ++ zlen row :: map zlen rows)) =
    (Counted (done ++ row' ++ left_over (start_index g) masked (S (List.length pre)) rows) (pre ++ zlen row :: map zlen rows), Ok (expected masked (S (List.length pre)) gs'))).
  { intros row' Lr. specialize (IH gs' (pre ++ [zlen row])%list (done ++ row')%list St V M F'). rewrite app_length in IH. cbn [List.length] in IH. rewrite Nat.add_1_r in IH.
    rewrite <- !app_assoc in IH. cbn [app] in IH. apply IH. rewrite zsum_app, zsum_cons, L. unfold zlen. rewrite app_length, Lr. cbn. lia. }
  destruct (masked (List.length pre)) eqn:Mk.
  - rewrite (K row eq_refl), Ex, LO. reflexivity.
  - cbn [connectivity]. rewrite C1, C2, py_slice_mid. rewrite (element_read g geo row St V M D).
    assert (SS : subtract_start (Counted (done ++ row ++ concat rows) (pre ++ zlen row :: map zlen rows)) (List.length pre) (start_index g) =
      Counted (done ++ map (fun x => x - (if 0 <? start_index g then start_index g else 0)) row ++ concat rows) (pre ++ zlen row :: map zlen rows)).
    { unfold subtract_start. destruct (0 <? start_index g); [now rewrite C1, C2, sub_section_mid|]. now rewrite map_minus_zero. }
    rewrite SS, K by now rewrite map_length. rewrite Ex, LO. reflexivity.
Qed.

Lemma split_by_concat : forall counts conn, Forall (fun c => 0 <= c) counts -> zsum counts = zlen conn ->
  concat (split_by counts conn) = conn /\ map zlen (split_by counts conn) = counts /\ List.length (split_by counts conn) = List.length counts.
Proof.
  induction counts as [|c counts IH]; intros conn P E; cbn [split_by concat map List.length].
  - unfold zlen in E. destruct conn; [easy|discriminate].
  - pose proof (Forall_inv P) as Hc. pose proof (Forall_inv_tail P) as Pt. rewrite zsum_cons in E. pose proof (zsum_nonneg counts (proj1 (Forall_forall _ _) Pt)).
    assert (E' : zsum counts = zlen (skipn (Z.to_nat c) conn)) by (unfold zlen in *; rewrite skipn_length; lia).
    destruct (IH _ Pt E') as [I1 [I2 I3]]. rewrite I1, I2, I3. split; [apply firstn_skipn|]. split; [|reflexivity]. f_equal. unfold zlen in *. rewrite firstn_length. lia.
Qed.

Lemma split_by_rows rows : split_by (map zlen rows) (concat rows) = rows.
Proof.
  induction rows as [|r rows IH]; [reflexivity|]. cbn [map concat split_by]. replace (Z.to_nat (zlen r)) with (List.length r) by (unfold zlen; lia).
  rewrite firstn_app, firstn_all, skipn_app, skipn_all, Nat.sub_diag. cbn [firstn skipn app]. now rewrite app_nil_r, IH.
Qed.

(** Reading a mesh with all connections in one vector. *)
Lemma iter_counted g gs conn counts use_mask : Mesh g gs -> EsmfVector g conn counts -> g_multi g = None \/ start_index g = 0 ->
  iter_geometries g use_mask None false =
    (set_index g (Some (Counted (left_over (start_index g) (masked_at g use_mask None) 0 (split_by counts conn)) counts)), Ok (expected (masked_at g use_mask None) 0 gs)).
Proof.
  intros [P [s [I [F [V [St L]]]]]] [U [C1 C2]] M. rewrite I in U. injection U as ->. cbn [rows_of] in F.
  destruct (split_by_concat counts conn C1 C2) as [S1 [S2 S3]].
  pose proof (visit_counted g (masked_at g use_mask None) (split_by counts conn) gs [] [] St V M F eq_refl) as Vi. cbn [app List.length] in Vi. rewrite S1, S2, S3 in Vi.
  unfold iter_geometries. rewrite P, I. replace (n_elements g) with (List.length counts) by (unfold n_elements; now rewrite I). rewrite Vi.
  destruct (g_multi g) as [v|] eqn:GM; [|reflexivity]. replace (v <? 0) with true by (specialize (V v eq_refl); lia). reflexivity.
Qed.

Lemma left_over_zero masked : forall rows k, left_over 0 masked k rows = concat rows.
Proof.
  unfold left_over. induction rows as [|r rows IH]; intro k; [reflexivity|]. cbn [List.length seq combine map concat fst snd]. change (0 <? 0) with false. cbn iota. rewrite IH. destruct (masked k); [reflexivity|]. now rewrite map_minus_zero.
Qed.

Theorem esmf_read g gs conn counts use_mask : Mesh g gs -> EsmfVector g conn counts -> g_multi g = None \/ start_index g = 0 ->
  exists g' l, iter_geometries g use_mask None false = (g', Ok l) /\ Shows (if use_mask : bool then g_mask g else None) gs l /\ (start_index g = 0 -> g' = g).
Proof.
  intros H U M. rewrite (iter_counted g gs conn counts use_mask H U M). eexists. eexists. split; [reflexivity|]. split; [apply expected_shows|].
  intro Z0. rewrite Z0, left_over_zero. destruct U as [U [C1 C2]]. destruct (split_by_concat counts conn C1 C2) as [S1 _]. rewrite S1. now apply set_index_same.
Qed.

Lemma left_over_shift start : 0 < start -> forall rows k, left_over start (fun _ => false) k rows = map (fun x => x - start) (concat rows).
Proof.
  intro H. unfold left_over. replace (0 <? start) with true by lia. induction rows as [|r rows IH]; intro k; [reflexivity|]. cbn [List.length seq combine map concat fst snd]. now rewrite IH, map_app.
Qed.

Lemma left_over_ext start m1 m2 : (forall k, m1 k = m2 k) -> forall rows k, left_over start m1 k rows = left_over start m2 k rows.
Proof. intros H rows k. unfold left_over. f_equal. apply map_ext. intros [i r]. cbn [fst snd]. now rewrite H. Qed.

Theorem esmf_changed g gs conn counts : Mesh g gs -> EsmfVector g conn counts -> g_multi g = None -> g_mask g = None -> 0 < start_index g ->
  fst (iter_geometries g true None false) = set_index g (Some (Counted (map (fun x => x - start_index g) conn) counts)).
Proof.
  intros H U M K St. rewrite (iter_counted g gs conn counts true H U (or_introl M)). cbn [fst]. destruct U as [U [C1 C2]]. destruct (split_by_concat counts conn C1 C2) as [S1 _].
  rewrite (left_over_ext _ _ (fun _ => false)); [now rewrite left_over_shift, S1|]. intro k. unfold masked_at, has_masked_values. rewrite K. now rewrite andb_false_r.
Qed.
