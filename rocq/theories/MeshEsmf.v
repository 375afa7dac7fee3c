(** Proofs about reduced nodes and the ESMF format. *)
From Verif Require Import Py Lib PartitionModel DistModel ScatterProofs CoordSpec CoordModel CoordProofs SelectProofs MeshModel MeshSpec MeshProofs MeshMore.
Local Close Scope Q_scope.
Local Open Scope Z_scope.

(** ** Reducing *)

Lemma position_spec : forall l k x, In x l -> exists j, position k l x = Some (k + Z.of_nat j) /\ nth_error l j = Some x.
Proof.
  induction l as [|y l IH]; intros k x I; [easy|]. cbn [position]. destruct (x =? y) eqn:E.
  - exists 0%nat. split; [f_equal; lia|]. cbn. f_equal. lia.
  - destruct I as [I|I]; [lia|]. destruct (IH (k + 1) x I) as [j [P N]]. exists (S j). split; [rewrite P; f_equal; lia|exact N].
Qed.

Lemma position_nth : forall l k j x, NoDup l -> nth_error l j = Some x -> position k l x = Some (k + Z.of_nat j).
Proof.
  induction l as [|y l IH]; intros k j x N H; [destruct j; discriminate|]. inversion N as [|? ? Ny Nl]; subst. cbn [position]. destruct j as [|j].
  - injection H as ->. rewrite Z.eqb_refl. f_equal. lia.
  - destruct (x =? y) eqn:E; [exfalso; apply Ny; replace y with x by lia; exact (nth_error_In l j H)|]. rewrite (IH (k + 1) j x Nl H). f_equal. lia.
Qed.

Definition newidx (start : Z) (u : list Z) (x : Z) : Z := match position start u x with Some k => k | None => start end.

Lemma renumber_all start u l : incl l u -> map_res (renumber start u) l = Ok (map (newidx start u) l).
Proof.
  induction l as [|x l IH]; intro H; [reflexivity|]. cbn [map_res map]. destruct (position_spec u start x (H x (or_introl eq_refl))) as [j [P _]].
  unfold renumber at 1, newidx at 1. rewrite P. cbn [bind]. rewrite IH; [reflexivity|]. intros y Hy. apply H. now right.
Qed.

Lemma renumber_rows start u rows : (forall r, In r rows -> incl r u) -> map_res (map_res (renumber start u)) rows = Ok (map (map (newidx start u)) rows).
Proof.
  induction rows as [|r rows IH]; intro H; [reflexivity|]. cbn [map_res map]. rewrite renumber_all by (apply H; now left). cbn [bind]. rewrite IH; [reflexivity|]. intros y Hy. apply H. now right.
Qed.

Definition drawn (nodes : list vertex) (start x : Z) : Prop := start <= x /\ exists v, nth_error nodes (Z.to_nat (x - start)) = Some v.

Lemma read_all nodes start u : (forall x, In x u -> drawn nodes start x) ->
  exists nodes', map_res (py_index nodes) (map (fun x => x - start) u) = Ok nodes' /\ List.length nodes' = List.length u /\
    forall j x, nth_error u j = Some x -> nth_error nodes' j = nth_error nodes (Z.to_nat (x - start)).
Proof.
  induction u as [|x u IH]; intro H; [exists []; split; [reflexivity|]; split; [reflexivity|]; intros [|j] y Hy; discriminate|].
  destruct IH as [nodes' [E [L N]]]; [intros y Hy; apply H; now right|]. destruct (H x (or_introl eq_refl)) as [H1 [v H2]].
  exists (v :: nodes'). cbn [map map_res]. replace (x - start) with (Z.of_nat (Z.to_nat (x - start))) at 1 by lia. rewrite (py_index_nth _ _ _ H2). cbn [bind]. rewrite E. cbn [bind].
  split; [reflexivity|]. split; [cbn; congruence|]. intros [|j] y Hy; [injection Hy as <-; cbn; congruence|exact (N j y Hy)].
Qed.

Lemma draws_renumber nodes nodes' start u row vs : (forall j x, nth_error u j = Some x -> nth_error nodes' j = nth_error nodes (Z.to_nat (x - start))) ->
  incl row u -> Draws nodes start row vs -> Draws nodes' start (map (newidx start u) row) vs.
Proof.
  intros N I D. unfold Draws in *. induction D as [|x v row vs [H1 H2] D IH]; cbn [map]; constructor; [|apply IH; intros y Hy; apply I; now right].
  destruct (position_spec u start x (I x (or_introl eq_refl))) as [j [P Nj]]. unfold newidx. rewrite P. split; [lia|]. replace (Z.to_nat (start + Z.of_nat j - start)) with j by lia. rewrite (N j x Nj). exact H2.
Qed.

Lemma draws_drawn nodes start row vs x : Draws nodes start row vs -> In x row -> drawn nodes start x.
Proof. unfold Draws. induction 1 as [|y v row vs [H1 H2] _ IH]; [easy|]. intros [<-|I]; [split; [exact H1|exists v; exact H2]|exact (IH I)]. Qed.

Lemma reduce_rows nodes start rows gs u : Forall2 (Depicts nodes start None) rows gs -> u = np_unique (concat rows) ->
  (forall r, In r rows -> incl r u) /\
  exists nodes', map_res (py_index nodes) (map (fun x => x - start) u) = Ok nodes' /\ Forall2 (Depicts nodes' start None) (map (map (newidx start u)) rows) gs /\
    (forall k, (k < List.length nodes')%nat -> In (start + Z.of_nat k) (concat (map (map (newidx start u)) rows))) /\ incl nodes' nodes /\ List.length nodes' = List.length u.
Proof.
  intros F Eu.
  assert (I : forall r, In r rows -> incl r u) by (intros r Hr x Hx; rewrite Eu; apply in_np_unique, in_concat; exists r; now split).
  assert (D : forall x, In x u -> drawn nodes start x).
  { intros x Hx. rewrite Eu in Hx. apply in_np_unique, in_concat in Hx. destruct Hx as [r [Hr Hx]]. clear - F Hr Hx. induction F as [|row geo rows gs [vs [ring [D _]]] F IH]; [easy|]. destruct Hr as [<-|Hr]; [exact (draws_drawn _ _ _ _ _ D Hx)|exact (IH Hr)]. }
  split; [exact I|]. destruct (read_all nodes start u D) as [nodes' [E [L N]]]. exists nodes'. split; [exact E|]. split; [|split; [|split; [|exact L]]].
  - clear - F I N. induction F as [|row geo rows gs [vs [ring [D [C G]]]] F IH]; cbn [map]; constructor; [|apply IH; intros r Hr; apply I; now right].
    exists vs, ring. split; [|split; [exact C|exact G]]. apply (draws_renumber nodes); [exact N|apply I; now left|exact D].
  - intros k Hk. destruct (nth_error u k) as [x|] eqn:X; [|apply nth_error_None in X; lia]. rewrite <- concat_map. apply in_map_iff. exists x. split.
    + unfold newidx. rewrite (position_nth u start k x); [reflexivity|rewrite Eu; apply sorted_nodup, np_unique_sorted|exact X].
    + apply in_np_unique. rewrite <- Eu. exact (nth_error_In _ _ X).
  - intros v Hv. apply In_nth_error in Hv. destruct Hv as [j Hj]. destruct (nth_error u j) as [x|] eqn:X; [|apply nth_error_None in X; assert (j < List.length nodes')%nat by (apply nth_error_Some; congruence); lia].
    rewrite (N j x X) in Hj. exact (nth_error_In _ _ Hj).
Qed.

Lemma split_by_map f : forall counts conn, split_by counts (map f conn) = map (map f) (split_by counts conn).
Proof. induction counts as [|c counts IH]; intro conn; [reflexivity|]. cbn [split_by map]. now rewrite firstn_map, skipn_map, IH. Qed.

Theorem reduce_keeps g gs : Mesh g gs -> g_multi g = None -> start_index g = 0 \/ start_index g = 1 ->
  (exists rows, g_index g = Some (Table rows) /\ (g_given g = None -> start_index g = 0)) \/
  (exists conn counts, EsmfVector g conn counts /\ (g_given g = None -> start_index g = 1)) ->
  exists g', reduce_global g = Ok g' /\ Mesh g' gs /\ AllNodesUsed g' /\ incl (g_nodes g') (g_nodes g) /\ start_index g' = start_index g /\ g_mask g' = g_mask g.
Proof.
  intros [P [s [I [F [V [St L]]]]]] M S01 K. rewrite M in F.
  assert (Rs : forall u : list Z, (if start_index g =? 1 then map (fun x => x - 1) u else u) = map (fun x => x - start_index g) u).
  { intro u. destruct S01 as [E|E]; rewrite E; [|reflexivity]. cbn. now rewrite map_minus_zero. }
  assert (SI : forall nodes s', start_index g = match g_given g with Some z => z | None => driver_start s end ->
    start_index (mkgc (g_point g) nodes (Some s') (g_given g) (match g_given g with Some z => z | None => driver_start s end) None (g_mask g)) = start_index g).
  { intros nodes s' E. rewrite E. unfold start_index. cbn [g_given g_index g_attr]. now destruct (g_given g). }
  destruct K as [[rows [I' G]]|[conn [counts [[I' [C1 C2]] G]]]]; rewrite I in I'; injection I' as ->; cbn [rows_of] in F.
  - assert (E0 : start_index g = match g_given g with Some z => z | None => driver_start (Table rows) end).
    { destruct (g_given g) as [z|] eqn:Gv; [unfold start_index; now rewrite Gv|]. exact (G eq_refl). }
    destruct (reduce_rows _ _ _ _ _ F eq_refl) as [Inc [nodes' [E1 [D [U [IN _]]]]]].
    eexists. split; [unfold reduce_global; rewrite I, renumber_rows by exact Inc; cbn [bind]; rewrite Rs, E1; cbn [bind]; reflexivity|].
    split; [|split; [|split; [exact IN|split; [exact (SI _ _ E0)|reflexivity]]]].
    + split; [exact P|]. eexists. split; [reflexivity|]. rewrite (SI _ _ E0). cbn [rows_of g_nodes g_multi g_mask]. split; [exact D|]. split; [discriminate|]. split; [exact St|exact L].
    + eexists. split; [reflexivity|]. rewrite (SI _ _ E0). exact U.
  - assert (E0 : start_index g = match g_given g with Some z => z | None => driver_start (Counted conn counts) end).
    { destruct (g_given g) as [z|] eqn:Gv; [unfold start_index; now rewrite Gv|]. exact (G eq_refl). }
    destruct (split_by_concat counts conn C1 C2) as [S1 [S2 S3]]. assert (Eu : np_unique conn = np_unique (concat (split_by counts conn))) by now rewrite S1.
    destruct (reduce_rows _ _ _ _ _ F Eu) as [Inc [nodes' [E1 [D [U [IN _]]]]]].
    assert (IncC : incl conn (np_unique conn)) by (intros x Hx; now apply in_np_unique).
    eexists. split; [unfold reduce_global; rewrite I, renumber_all by exact IncC; cbn [bind]; rewrite Rs, E1; cbn [bind]; reflexivity|].
    split; [|split; [|split; [exact IN|split; [exact (SI _ _ E0)|reflexivity]]]].
    + split; [exact P|]. eexists. split; [reflexivity|]. rewrite (SI _ _ E0). cbn [rows_of g_nodes g_multi g_mask]. rewrite split_by_map. split; [exact D|]. split; [discriminate|]. split; [exact St|exact L].
    + eexists. split; [reflexivity|]. rewrite (SI _ _ E0). cbn [rows_of g_nodes]. rewrite split_by_map. exact U.
Qed.

(** ** Writing *)

Lemma draws_shift pre nodes post start row vs : Draws nodes start row vs -> Draws (pre ++ nodes ++ post) start (map (fun x => x + zlen pre) row) vs.
Proof.
  unfold Draws. induction 1 as [|x v row vs [H1 H2] _ IH]; cbn [map]; constructor; [|exact IH]. split; [unfold zlen; lia|].
  replace (Z.to_nat (x + zlen pre - start)) with (List.length pre + Z.to_nat (x - start))%nat by (unfold zlen; lia).
  rewrite nth_error_app2 by lia. replace (List.length pre + Z.to_nat (x - start) - List.length pre)%nat with (Z.to_nat (x - start)) by lia. rewrite nth_error_app1; [exact H2|]. apply nth_error_Some. congruence.
Qed.

Lemma adjust_plain v adj row : ~ In v row -> adjust_row (Some v) adj row = map (fun x => x + adj) row.
Proof. intro H. unfold adjust_row. apply map_ext_in. intros x Hx. destruct (x =? v) eqn:E; [|reflexivity]. exfalso. apply H. now replace v with x by lia. Qed.

Lemma adjust_join v adj : forall pieces, (forall p, In p pieces -> ~ In v p) -> adjust_row (Some v) adj (join v pieces) = join v (map (map (fun x => x + adj)) pieces).
Proof.
  induction pieces as [|p pieces IH]; intro H; [reflexivity|]. destruct pieces as [|q pieces]; [apply adjust_plain, H; now left|].
  change (join v (p :: q :: pieces)) with (p ++ v :: join v (q :: pieces))%list. cbn [map]. change (join v (map (fun x => x + adj) p :: map (fun x => x + adj) q :: map (map (fun x => x + adj)) pieces)) with
    (map (fun x => x + adj) p ++ v :: join v (map (map (fun x => x + adj)) (q :: pieces)))%list.
  rewrite <- IH by (intros r Hr; apply H; now right). rewrite <- (adjust_plain v adj p) by (apply H; now left). unfold adjust_row. rewrite map_app. f_equal. cbn [map]. rewrite Z.eqb_refl. reflexivity.
Qed.

Lemma pieces_no_break nodes start v pieces (rings : list ring) : 0 <= start -> v < 0 ->
  Forall2 (fun piece r => exists vs, Draws nodes start piece vs /\ Closes vs r) pieces rings -> forall p, In p pieces -> ~ In v p.
Proof. intros S0 V F p I. induction F as [|piece r pieces rings [vs [D _]] F IH]; [easy|]. destruct I as [<-|I]; [exact (draws_no_break _ _ _ _ v S0 V D)|exact (IH I)]. Qed.

Lemma depicts_shift pre nodes post start multi row geo : 0 <= start -> (forall v, multi = Some v -> v < 0) -> Depicts nodes start multi row geo ->
  Depicts (pre ++ nodes ++ post) start multi (adjust_row multi (zlen pre) row) geo.
Proof.
  intros S0 V D. destruct multi as [v|].
  - destruct D as [pieces [rings [-> [N [F G]]]]]. pose proof (pieces_no_break _ _ v _ _ S0 (V v eq_refl) F) as NB.
    exists (map (map (fun x => x + zlen pre)) pieces), rings. split; [exact (adjust_join v (zlen pre) pieces NB)|]. split; [now destruct pieces|]. split; [|exact G].
    clear - F. induction F as [|piece r pieces rings [vs [D C]] F IH]; cbn [map]; constructor; [|exact IH]. exists vs. split; [now apply draws_shift|exact C].
  - destruct D as [vs [r [D [C G]]]]. exists vs, r. split; [|split; [exact C|exact G]]. now apply draws_shift.
Qed.

Lemma adjust_zero multi row : adjust_row multi 0 row = row.
Proof. unfold adjust_row. rewrite <- (map_id row) at 2. apply map_ext. intro x. destruct multi as [v|]; [destruct (x =? v) eqn:E|]; lia. Qed.

Lemma fold_max_spec : forall l x, (fold_left Z.max l x = x \/ In (fold_left Z.max l x) l) /\ x <= fold_left Z.max l x /\ forall y, In y l -> y <= fold_left Z.max l x.
Proof.
  induction l as [|z l IH]; intro x; [cbn; split; [now left|split; [lia|easy]]|]. cbn [fold_left]. destruct (IH (Z.max x z)) as [I1 [I2 I3]]. split; [|split; [lia|]].
  - destruct I1 as [I1|I1]; [|right; now right]. rewrite I1. destruct (Z.max_spec x z) as [[_ ->]|[_ ->]]; [right; now left|now left].
  - intros y [<-|Hy]; [lia|now apply I3].
Qed.
Lemma list_max_spec l : l <> [] -> exists m, list_max l = Ok m /\ In m l /\ forall y, In y l -> y <= m.
Proof.
  destruct l as [|x l]; [congruence|]. intros _. cbn [list_max]. destruct (fold_max_spec l x) as [F1 [F2 F3]]. eexists. split; [reflexivity|]. split; [destruct F1 as [->|F1]; [now left|now right]|].
  intros y [<-|Hy]; [exact F2|now apply F3].
Qed.

Lemma row_max_spec rows : rows <> [] -> (forall r, In r rows -> r <> []) -> exists m, row_max rows = Ok m /\ In m (concat rows) /\ forall y, In y (concat rows) -> y <= m.
Proof.
  intros N H. assert (E : exists ms, map_res list_max rows = Ok ms /\ Forall2 (fun r m => In m r /\ forall y, In y r -> y <= m) rows ms).
  { clear N. induction rows as [|r rows IH]; [exists []; split; [reflexivity|constructor]|]. destruct IH as [ms [E F]]; [intros q Hq; apply H; now right|].
    destruct (list_max_spec r (H r (or_introl eq_refl))) as [m [Em [Im Bm]]]. exists (m :: ms). cbn [map_res]. rewrite Em. cbn [bind]. rewrite E. split; [reflexivity|]. constructor; [now split|exact F]. }
  destruct E as [ms [E F]]. unfold row_max. rewrite E. cbn [bind]. destruct (list_max_spec ms) as [m [Em [Im Bm]]]; [destruct F; congruence|]. exists m. split; [exact Em|]. split.
  - clear - F Im. induction F as [|r x rows ms [Ix _] F IH]; [easy|]. cbn [concat]. apply in_app_iff. destruct Im as [->|Im]; [now left|right; exact (IH Im)].
  - clear - F Bm. induction F as [|r x rows ms [Ix Bx] F IH]; [easy|]. cbn [concat]. intros y Hy. apply in_app_iff in Hy. destruct Hy as [Hy|Hy]; [specialize (Bx y Hy); specialize (Bm x (or_introl eq_refl)); lia|].
    apply IH; [intros z Hz; apply Bm; now right|exact Hy].
Qed.

Lemma depicts_entries nodes start multi row geo x : Depicts nodes start multi row geo -> In x row -> multi = Some x \/ drawn nodes start x.
Proof.
  intros D I. destruct multi as [v|].
  - destruct D as [pieces [rings [-> [_ [F _]]]]]. assert (x = v \/ exists p, In p pieces /\ In x p) as [->|[p [Hp Hx]]]; [|now left|].
    + clear - I. revert I. induction pieces as [|p pieces IH]; intro I; [easy|]. destruct pieces as [|q pieces]; [right; exists p; split; [now left|exact I]|].
      change (join v (p :: q :: pieces)) with (p ++ v :: join v (q :: pieces))%list in I. apply in_app_iff in I. destruct I as [I|[I|I]]; [right; exists p; split; [now left|exact I]|now left|].
      destruct (IH I) as [E|[r [Hr Hx]]]; [now left|right; exists r; split; [now right|exact Hx]].
    + right. clear - F Hp Hx. induction F as [|piece r pieces rings [vs [D _]] F IH]; [easy|]. destruct Hp as [<-|Hp]; [exact (draws_drawn _ _ _ _ _ D Hx)|exact (IH Hp)].
  - right. destruct D as [vs [r [D _]]]. exact (draws_drawn _ _ _ _ _ D I).
Qed.

Lemma depicts_nonempty nodes start multi row geo : Depicts nodes start multi row geo -> row <> [].
Proof.
  intros D. assert (K : forall row vs (r : ring), Draws nodes start row vs -> Closes vs r -> row <> []).
  { intros row0 vs r Dr [C _] ->. inversion Dr; subst. cbn in C. lia. }
  destruct multi as [v|].
  - destruct D as [pieces [rings [-> [N [F _]]]]]. destruct F as [|piece r pieces rings [vs [D C]] F]; [congruence|]. specialize (K _ _ _ D C). destruct pieces; [exact K|]. intro E. apply app_eq_nil in E. now destruct E.
  - destruct D as [vs [r [D [C _]]]]. exact (K _ _ _ D C).
Qed.

(** The largest index is that of the last node. *)
Lemma last_max g gs rows : Mesh g gs -> g_index g = Some (Ragged rows) -> LastNodeUsed g -> row_max rows = Ok (start_index g + zlen (g_nodes g) - 1).
Proof.
  intros [P [s [I [F [V [St L]]]]]] I' [N [s' [I2 LU]]]. rewrite I in I', I2. injection I' as ->. injection I2 as <-. cbn [rows_of] in *.
  assert (Nz : 1 <= zlen (g_nodes g)) by (destruct (g_nodes g); [congruence|unfold zlen; cbn [List.length]; lia]).
  destruct (row_max_spec rows) as [m [E [Im Bm]]].
  - intros ->. exact LU.
  - intros r Hr. clear - F Hr. induction F as [|row geo rows gs D F IH]; [easy|]. destruct Hr as [<-|Hr]; [exact (depicts_nonempty _ _ _ _ _ D)|exact (IH Hr)].
  - rewrite E. f_equal. specialize (Bm _ LU). apply in_concat in Im. destruct Im as [r [Hr Hm]].
    assert (Q : g_multi g = Some m \/ drawn (g_nodes g) (start_index g) m) by (clear - F Hr Hm; induction F as [|row geo rows gs D F IH]; [easy|]; destruct Hr as [<-|Hr]; [exact (depicts_entries _ _ _ _ _ _ D Hm)|exact (IH Hr)]).
    destruct Q as [Q|[Q1 [v Q2]]]; [specialize (V m Q); lia|]. assert (Z.to_nat (m - start_index g) < List.length (g_nodes g))%nat by (apply nth_error_Some; congruence). unfold zlen in *. lia.
Qed.

Lemma ranks_rows start multi ranks gss : Forall2 (RankMesh start multi) ranks gss ->
  exists rowss, map_res ragged_rows ranks = Ok rowss /\ Forall2 (fun g rows => g_index g = Some (Ragged rows)) ranks rowss.
Proof.
  induction 1 as [|g gs ranks gss [_ [_ [_ [rows I]]]] F [rowss [E R]]]; [exists []; split; [reflexivity|constructor]|].
  exists (rows :: rowss). cbn [map_res]. unfold ragged_rows at 1. rewrite I. cbn [bind]. rewrite E. split; [reflexivity|]. now constructor.
Qed.

Lemma ranks_maxs multi ranks gss rowss : Forall2 (RankMesh 0 multi) ranks gss -> Forall LastNodeUsed ranks -> Forall2 (fun g rows => g_index g = Some (Ragged rows)) ranks rowss ->
  map_res row_max rowss = Ok (map (fun g => zlen (g_nodes g) - 1) ranks).
Proof.
  intros F LU R. revert gss F. induction R as [|g rows ranks rowss I R IH]; intros gss F; [reflexivity|]. inversion F as [|? gs ? gss' [M [S0 _]] F']; subst. cbn [map_res map].
  rewrite (last_max g gs rows M I (Forall_inv LU)). cbn [bind]. rewrite (IH (Forall_inv_tail LU) gss' F'). cbn [bind]. rewrite S0. reflexivity.
Qed.

Lemma ranks_written start multi : forall ranks gss rowss pre, 0 <= start -> (forall v, multi = Some v -> v < 0) -> Forall2 (RankMesh start multi) ranks gss ->
  Forall2 (fun g rows => g_index g = Some (Ragged rows)) ranks rowss ->
  Forall2 (Depicts (pre ++ concat (map g_nodes ranks)) start multi)
    (concat (map (fun p => map (adjust_row multi (fst p)) (snd p)) (combine (adjusts (zlen pre) (map (fun g => zlen (g_nodes g) - 1) ranks)) rowss))) (concat gss).
Proof.
  intros ranks gss rowss pre S0 V F R. revert rowss pre R. induction F as [|g gs ranks gss [M [St [Mu _]]] F IH]; intros rowss pre R; inversion R as [|? rows ? rowss' I R']; subst; [constructor|].
  cbn [map adjusts combine concat fst snd]. apply Forall2_app.
  - destruct M as [_ [s [I' [D _]]]]. rewrite I in I'. injection I' as <-. cbn [rows_of] in D. clear - D S0 V. induction D as [|row geo rows gs D _ IH]; cbn [map]; constructor; [|exact IH].
    now apply depicts_shift.
  - specialize (IH rowss' (pre ++ g_nodes g)%list R'). rewrite <- app_assoc in IH. replace (zlen (g_nodes g) - 1 + 1 + zlen pre) with (zlen (pre ++ g_nodes g)) by (unfold zlen; rewrite app_length; lia). exact IH.
Qed.

Lemma written_mesh start multi nodes rows gs : 0 <= start -> (forall v, multi = Some v -> v < 0) -> Forall2 (Depicts nodes start multi) rows gs ->
  let g := mkgc false nodes (Some (Counted (concat rows) (map zlen rows))) None start multi None in Mesh g gs /\ EsmfVector g (concat rows) (map zlen rows).
Proof.
  intros S0 V F g. split.
  - split; [reflexivity|]. eexists. split; [reflexivity|]. cbn [g_nodes rows_of g g_multi g_mask]. rewrite split_by_rows. split; [exact F|]. split; [exact V|]. split; [exact S0|discriminate].
  - split; [reflexivity|]. split.
    + apply Forall_forall. intros c Hc. apply in_map_iff in Hc. destruct Hc as [r [<- _]]. unfold zlen. lia.
    + clear. induction rows as [|r rows IH]; [reflexivity|]. cbn [map concat]. rewrite zsum_cons, IH. unfold zlen. rewrite app_length. lia.
Qed.

Theorem esmf_written start multi ranks gss : ranks <> [] -> Forall2 (RankMesh start multi) ranks gss ->
  List.length ranks = 1%nat \/ start = 0 /\ Forall LastNodeUsed ranks ->
  exists g conn counts, write_esmf ranks = Ok g /\ Mesh g (concat gss) /\ EsmfVector g conn counts /\ start_index g = start /\ g_multi g = multi /\ g_nodes g = concat (map g_nodes ranks).
Proof.
  intros N F C. destruct (ranks_rows start multi ranks gss F) as [rowss [E R]].
  assert (S0 : 0 <= start /\ forall v, multi = Some v -> v < 0).
  { destruct F as [|g gs ranks gss [[_ [s [_ [_ [V [St _]]]]]] [S1 [M1 _]]] F]; [congruence|]. rewrite <- S1, <- M1. now split. }
  destruct S0 as [S0 V].
  assert (Fi : exists first, hd_error ranks = Some first /\ start_index first = start /\ g_multi first = multi).
  { destruct F as [|g gs ranks gss [_ [S1 [M1 _]]] F]; [congruence|]. exists g. now split. }
  destruct Fi as [first [Hf [Sf Mf]]].
  assert (A : exists rows, Forall2 (Depicts (concat (map g_nodes ranks)) start multi) rows (concat gss) /\ write_esmf ranks =
    Ok (mkgc false (concat (map g_nodes ranks)) (Some (Counted (concat rows) (map zlen rows))) None start multi None)).
  { unfold write_esmf. destruct ranks as [|g0 ranks0] eqn:G0; [congruence|]. rewrite <- G0 in *. assert (Hf' : g0 = first) by (rewrite G0 in Hf; cbn in Hf; congruence). subst g0. rewrite E. cbn [bind].
    destruct C as [C|[C LU]].
    - rewrite G0 in C. destruct ranks0; [|discriminate]. rewrite G0 in *. inversion R as [|? rows ? rowss' I R']; subst rowss. inversion R'; subst. cbn [bind combine map concat fst snd]. rewrite !app_nil_r.
      exists rows. inversion F as [|? gs ? gss' Fg F']; subst. inversion F'; subst. cbn [concat]. rewrite app_nil_r.
      assert (Ar : map (adjust_row (g_multi first) 0) rows = rows) by (rewrite <- (map_id rows) at 2; apply map_ext; intro; apply adjust_zero). rewrite Ar. split; [|reflexivity].
      destruct Fg as [[_ [s [I' [D _]]]] _]. rewrite I in I'. injection I' as <-. exact D.
    - subst start. pose proof (ranks_written 0 multi ranks gss rowss [] S0 V F R) as W. change (zlen (@nil vertex)) with 0 in W. cbn [app] in W. pose proof (ranks_maxs multi ranks gss rowss F LU R) as X.
      destruct ranks0 as [|g1 ranks1].
      + rewrite G0 in X, W, R |- *. rewrite Sf, Mf. cbn [map] in W |- *. cbn [adjusts] in W. eexists. split; [exact W|]. reflexivity.
      + rewrite Sf, Mf. rewrite X. cbn [bind]. eexists. split; [exact W|]. rewrite G0. reflexivity. }
  destruct A as [rows [D W]]. destruct (written_mesh start multi _ rows (concat gss) S0 V D) as [Me Ve]. eexists. exists (concat rows), (map zlen rows). split; [exact W|]. split; [exact Me|]. split; [exact Ve|]. now repeat split.
Qed.
