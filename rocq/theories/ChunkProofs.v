(** Proofs about tiled computation and inserting chunks. *)
From Verif Require Import Py Lib Spec PartitionModel NdModel AggModel AggSpec AggProofs DistModel DistSpec DistProofs ScatterProofs ChunkModel ChunkSpec.
Open Scope Z_scope.

Lemma assign_spec {V} (a : block V) row col b :
  0 <= fst row <= snd row -> snd row <= b_rows a -> 0 <= fst col <= snd col -> snd col <= b_cols a ->
  b_rows b = snd row - fst row -> b_cols b = snd col - fst col ->
  exists a', assign a row col b = Ok a' /\ b_rows a' = b_rows a /\ b_cols a' = b_cols a /\
    (forall y x, InBox y x (row, col) -> b_at a' y x = b_at b (y - fst row) (x - fst col)) /\
    (forall y x, ~ InBox y x (row, col) -> b_at a' y x = b_at a y x).
Proof.
  intros H1 H2 H3 H4 H5 H6. unfold assign. cbv zeta. rewrite (Z.min_l _ _ H2), (Z.min_l _ _ H4).
  assert (E : (Z.max 0 (snd row - fst row) =? b_rows b) && (Z.max 0 (snd col - fst col) =? b_cols b) = true) by lia.
  rewrite E. eexists. split; [reflexivity|]. cbn [b_rows b_cols b_at]. split; [reflexivity|]. split; [reflexivity|].
  unfold InBox, InIval. cbn [fst snd]. split; intros y x H.
  - assert (E2 : (fst row <=? y) && (y <? snd row) && (fst col <=? x) && (x <? snd col) = true) by lia. rewrite E2. reflexivity.
  - destruct ((fst row <=? y) && (y <? snd row) && (fst col <=? x) && (x <? snd col)) eqn:E2; [exfalso; apply H; lia|reflexivity].
Qed.

Section Tiles.
  Context {V : Type} (exec : Z * Z -> Z * Z -> res (block V)) (hide : V -> V) (cell : Z -> Z -> V).
  Variable Hcw : CellWise exec cell.
  Variables (rank ro co : Z) (mask : option (Z -> Z -> bool)).

  Definition good_tile (rows cols : Z) (t : (Z * Z) * (Z * Z)) : Prop :=
    0 <= fst (fst t) <= snd (fst t) /\ snd (fst t) <= rows /\ 0 <= fst (snd t) <= snd (snd t) /\ snd (snd t) <= cols.

  Definition tile_rows (t : (Z * Z) * (Z * Z)) := (fst (fst t) + ro, snd (fst t) + ro).
  Definition tile_cols (t : (Z * Z) * (Z * Z)) := (fst (snd t) + co, snd (snd t) + co).

  Lemma do_tile_spec file t : good_tile (b_rows file) (b_cols file) t ->
    match do_tile exec hide rank ro co mask file t with
    | Ok f => (rank = 3 \/ rank = 4) /\ b_rows f = b_rows file /\ b_cols f = b_cols file /\
        (forall y x, InBox y x t -> b_at f y x = Wanted cell hide ro co mask y x) /\
        (forall y x, ~ InBox y x t -> b_at f y x = b_at file y x)
    | Err e => exec (tile_rows t) (tile_cols t) = Err e \/ (rank <> 3 /\ rank <> 4 /\ e = NotImplementedError)
    end.
  Proof.
    intros Hg. unfold do_tile. cbv zeta. fold (tile_rows t) (tile_cols t).
    destruct (exec (tile_rows t) (tile_cols t)) as [b|e] eqn:Ex; cbn [bind]; [|left; reflexivity].
    destruct (Hcw _ _ _ Ex) as [R [C A]]. unfold tile_rows, tile_cols in *. cbn [fst snd] in *.
    destruct ((rank =? 3) || (rank =? 4)) eqn:Er; [|right; split; [lia|]; split; [lia|reflexivity]].
    match goal with |- context [assign file ?r ?c ?bb] => set (bx := bb); set (rr := r); set (cc := c) end.
    assert (Hrr : rr = fst t) by (unfold rr; rewrite !Z.add_simpl_r; destruct (fst t); reflexivity).
    assert (Hcc : cc = snd t) by (unfold cc; rewrite !Z.add_simpl_r; destruct (snd t); reflexivity).
    clearbody rr cc. subst rr cc.
    destruct Hg as [G1 [G2 [G3 G4]]].
    assert (HR : b_rows bx = snd (fst t) - fst (fst t)) by (unfold bx; destruct mask; cbn [b_rows]; lia).
    assert (HC : b_cols bx = snd (snd t) - fst (snd t)) by (unfold bx; destruct mask; cbn [b_cols]; lia).
    destruct (assign_spec file (fst t) (snd t) bx G1 G2 G3 G4 HR HC) as [a' [E [E1 [E2 [E3 E4]]]]]. rewrite E.
    rewrite <- surjective_pairing in E3, E4.
    split; [lia|]. split; [exact E1|]. split; [exact E2|]. split; [|exact E4].
    intros y x Hin. rewrite (E3 y x Hin). unfold InBox, InIval in Hin. unfold bx, Wanted. clear E3 E4 E HR HC. 
    destruct mask as [m|]; cbn [b_at fst snd].
    - replace (fst (fst t) + ro - ro + (y - fst (fst t))) with y by lia. replace (fst (snd t) + co - co + (x - fst (snd t))) with x by lia.
      rewrite A by lia. replace (fst (fst t) + ro + (y - fst (fst t))) with (y + ro) by lia. replace (fst (snd t) + co + (x - fst (snd t))) with (x + co) by lia. reflexivity.
    - rewrite A by lia. f_equal; lia.
  Qed.

  Lemma do_tiles_spec : forall tiles o, Forall (good_tile (b_rows (o_file o)) (b_cols (o_file o))) tiles ->
    exists o' r done rest, do_tiles exec hide rank ro co mask o tiles = (o', r) /\ tiles = (done ++ rest)%list /\
      o_writes o' = (o_writes o ++ done)%list /\ o_callback o' = o_callback o /\ o_flag o' = o_flag o /\
      b_rows (o_file o') = b_rows (o_file o) /\ b_cols (o_file o') = b_cols (o_file o) /\
      (forall y x, Exists (InBox y x) done -> b_at (o_file o') y x = Wanted cell hide ro co mask y x) /\
      (forall y x, ~ Exists (InBox y x) done -> b_at (o_file o') y x = b_at (o_file o) y x) /\
      match r with
      | Ok _ => rest = []
      | Err e => exists t ts, rest = t :: ts /\ (exec (tile_rows t) (tile_cols t) = Err e \/ (rank <> 3 /\ rank <> 4 /\ e = NotImplementedError))
      end /\ (done <> [] -> rank = 3 \/ rank = 4).
  Proof.
    induction tiles as [|t tiles IH]; intros o Hall.
    - exists o, (Ok tt), [], []. cbn [do_tiles]. rewrite !app_nil_r. do 7 (split; [reflexivity|]). split; [intros y x H; inversion H|].
      split; [reflexivity|]. split; [reflexivity|intros N; congruence].
    - inversion Hall as [|? ? Ht Hr]; subst. cbn [do_tiles]. pose proof (do_tile_spec (o_file o) t Ht) as D.
      destruct (do_tile exec hide rank ro co mask (o_file o) t) as [f|e].
      + destruct D as [Dr [D1 [D2 [D3 D4]]]].
        destruct (IH (mkout (o_flag o) (o_callback o) f (o_writes o ++ [t]))) as [o' [r [done [rest [E [T [W [Cb [Fl [R1 [R2 [I1 [I2 [Rs Hdn]]]]]]]]]]]]]].
        { cbn [o_file]. rewrite D1, D2. exact Hr. }
        cbn [o_file o_writes o_callback o_flag] in *.
        exists o', r, (t :: done), rest. split; [exact E|]. split; [rewrite T; reflexivity|].
        split; [rewrite W, <- app_assoc; reflexivity|]. split; [exact Cb|]. split; [exact Fl|]. split; [congruence|]. split; [congruence|].
        split; [|split; [|split; [exact Rs|intros _; exact Dr]]].
        * intros y x Hex. destruct (Exists_dec (InBox y x) done) as [Hd|Hd].
          { intros b. unfold InBox, InIval. destruct (Z_le_dec (fst (fst b)) y), (Z_lt_dec y (snd (fst b))), (Z_le_dec (fst (snd b)) x), (Z_lt_dec x (snd (snd b))); try (left; lia); right; lia. }
          -- apply I1. exact Hd.
          -- rewrite (I2 y x Hd). apply D3. inversion Hex; [assumption|contradiction].
        * intros y x Hex. rewrite I2; [apply D4|]; intros H; apply Hex; [left|right]; exact H.
      + exists o, (Err e), [], (t :: tiles). rewrite app_nil_r. do 7 (split; [reflexivity|]).
        split; [intros y x H; inversion H|]. split; [reflexivity|]. split; [exists t, tiles; split; [reflexivity|exact D]|intros N; congruence].
  Qed.
End Tiles.

Lemma exactly_map {A B} (f : A -> B) (P : B -> Prop) l : ExactlyOne (fun a => P (f a)) l -> ExactlyOne P (map f l).
Proof.
  intros [k [x [Hk [Hx Hu]]]]. exists k, (f x). split; [apply map_nth_error; exact Hk|]. split; [exact Hx|].
  intros k' x' Hk' Hx'. rewrite nth_error_map in Hk'. destruct (nth_error l k') as [a|] eqn:E; [|discriminate]. injection Hk' as <-. apply (Hu k' a E Hx').
Qed.
Lemma exactly_one_prefix {A} (P : A -> Prop) l1 l2 : ExactlyOne P (l1 ++ l2) -> AtMostOne P l1.
Proof.
  intros [k [x [_ [_ Hu]]]] a b xa xb Ha Hb Pa Pb.
  assert (L1 : nth_error (l1 ++ l2) a = Some xa) by (rewrite nth_error_app1; [exact Ha|apply nth_error_Some; congruence]).
  assert (L2 : nth_error (l1 ++ l2) b = Some xb) by (rewrite nth_error_app1; [exact Hb|apply nth_error_Some; congruence]).
  rewrite (Hu _ _ L1 Pa), (Hu _ _ L2 Pb). reflexivity.
Qed.
Lemma exactly_exists {A} (P : A -> Prop) l : ExactlyOne P l -> Exists P l.
Proof. intros [k [x [Hk [Hx _]]]]. apply Exists_exists. exists x. split; [apply nth_error_In with k; exact Hk|exact Hx]. Qed.

Section Compute.
  Context {V : Type} (exec : Z * Z -> Z * Z -> res (block V)) (hide : V -> V) (cell : Z -> Z -> V).

  Theorem flag_restored flag cb tdim checks template subset rank nothing :
    o_flag (fst (compute exec hide flag cb tdim checks template subset rank nothing)) = flag.
  Proof. unfold compute. destruct (tdim <=? 0); [reflexivity|]. destruct checks; reflexivity. Qed.

  Theorem tiles_or_error flag cb tdim file ro co mask rank nothing :
    CellWise exec cell -> 1 <= tdim -> 0 <= b_rows file -> 0 <= b_cols file ->
    exists out r, compute exec hide flag cb tdim (Ok tt) (Ok file) (Some (Ok (ro, co, mask))) rank nothing = (out, r) /\
      b_rows (o_file out) = b_rows file /\ b_cols (o_file out) = b_cols file /\
      (forall y x, 0 <= y < b_rows file -> 0 <= x < b_cols file ->
        AtMostOne (InBox y x) (o_writes out) /\
        (Exists (InBox y x) (o_writes out) -> b_at (o_file out) y x = Wanted cell hide ro co mask y x) /\
        (~ Exists (InBox y x) (o_writes out) -> b_at (o_file out) y x = b_at file y x) /\
        (r = Ok tt -> Exists (InBox y x) (o_writes out))) /\
      (forall e, r = Err e ->
         (exists r0 r1 c0 c1, 0 <= r0 < r1 /\ r1 <= b_rows file /\ 0 <= c0 < c1 /\ c1 <= b_cols file /\
            exec (r0 + ro, r1 + ro) (c0 + co, c1 + co) = Err e /\ ~ In ((r0, r1), (c0, c1)) (o_writes out)) \/
         (rank <> 3 /\ rank <> 4 /\ e = NotImplementedError /\ o_writes out = [])).
  Proof.
    intros Hcw Ht Hr Hc. unfold compute. assert (E0 : tdim <=? 0 = false) by lia. rewrite E0. cbv zeta.
    destruct (tile_schema_spec (b_rows file) (b_cols file) tdim Hr Hc Ht) as [tiles [E [_ [Hone Hgood]]]]. rewrite E.
    set (o := mkout true _ file []).
    assert (Hall : Forall (good_tile (b_rows (o_file o)) (b_cols (o_file o))) (map snd tiles)).
    { apply Forall_forall. intros t Hin. apply in_map_iff in Hin. destruct Hin as [[id [[r0 r1] [c0 c1]]] [<- Hin]].
      pose proof (Hgood _ _ _ _ _ Hin). unfold good_tile. cbn [fst snd o_file o]. lia. }
    destruct (do_tiles_spec exec hide cell Hcw rank ro co mask (map snd tiles) o Hall) as [o' [r [done [rest [Ed [T [W [_ [_ [R1 [R2 [I1 [I2 [Rs Hdn]]]]]]]]]]]]]].
    rewrite Ed. cbn [fst snd]. eexists _, r. split; [reflexivity|]. cbn [o_file o_writes].
    cbn [o o_file o_writes app] in W, R1, R2, I1, I2. rewrite W. split; [exact R1|]. split; [exact R2|].
    assert (Hcover : forall y x, 0 <= y < b_rows file -> 0 <= x < b_cols file -> ExactlyOne (InBox y x) (done ++ rest)).
    { intros y x Hy Hx. rewrite <- T. apply (exactly_map snd (InBox y x)). exact (Hone y x Hy Hx). }
    split.
    - intros y x Hy Hx. pose proof (Hcover y x Hy Hx) as Hx1. split; [apply exactly_one_prefix with rest; exact Hx1|].
      split; [exact (I1 y x)|]. split; [exact (I2 y x)|]. intros ->. subst rest. rewrite app_nil_r in Hx1. apply exactly_exists. exact Hx1.
    - intros e ->. destruct Rs as [t [ts [Hrest [He|He]]]].
      + left. assert (Hin : In t (map snd tiles)) by (rewrite T, Hrest; apply in_or_app; right; left; reflexivity).
        apply in_map_iff in Hin. destruct Hin as [[id [[r0 r1] [c0 c1]]] [Et Hin]]. cbn [snd] in Et. subst t.
        exists r0, r1, c0, c1. pose proof (Hgood _ _ _ _ _ Hin) as G. split; [lia|]. split; [lia|]. split; [lia|]. split; [lia|].
        split; [exact He|]. intros Hd. apply In_nth_error in Hd. destruct Hd as [k Hk].
        assert (Hb : InBox r0 c0 ((r0, r1), (c0, c1))) by (unfold InBox, InIval; cbn [fst snd]; lia).
        assert (Hr0 : 0 <= r0 < b_rows file) by lia. assert (Hc0 : 0 <= c0 < b_cols file) by lia.
        destruct (Hcover r0 c0 Hr0 Hc0) as [k0 [x0 [_ [_ Hu]]]].
        assert (Hk1 : nth_error (done ++ rest) k = Some (r0, r1, (c0, c1))) by (rewrite nth_error_app1; [exact Hk|apply nth_error_Some; congruence]).
        assert (Hk2 : nth_error (done ++ rest) (List.length done) = Some (r0, r1, (c0, c1))) by (rewrite nth_error_app2, Nat.sub_diag by lia; rewrite Hrest; reflexivity).
        pose proof (Hu _ _ Hk1 Hb). pose proof (Hu _ _ Hk2 Hb). assert (k < List.length done)%nat by (apply nth_error_Some; congruence). lia.
      + right. destruct He as [N3 [N4 ->]]. split; [exact N3|]. split; [exact N4|]. split; [reflexivity|].
        destruct done as [|d done]; [reflexivity|]. destruct Hdn; [discriminate| |]; contradiction.
  Qed.

  Theorem tiled flag cb tdim file ro co mask rank nothing :
    CellWise exec cell -> 1 <= tdim -> 0 <= b_rows file -> 0 <= b_cols file -> rank = 3 \/ rank = 4 ->
    (forall r0 r1 c0 c1, 0 <= r0 < r1 -> r1 <= b_rows file -> 0 <= c0 < c1 -> c1 <= b_cols file ->
       exists b, exec (r0 + ro, r1 + ro) (c0 + co, c1 + co) = Ok b) ->
    exists out, compute exec hide flag cb tdim (Ok tt) (Ok file) (Some (Ok (ro, co, mask))) rank nothing = (out, Ok tt) /\
      b_rows (o_file out) = b_rows file /\ b_cols (o_file out) = b_cols file /\
      forall y x, 0 <= y < b_rows file -> 0 <= x < b_cols file ->
        b_at (o_file out) y x = Wanted cell hide ro co mask y x /\ ExactlyOne (InBox y x) (o_writes out).
  Proof.
    intros Hcw Ht Hr Hc Hrank Hok. destruct (tiles_or_error flag cb tdim file ro co mask rank nothing Hcw Ht Hr Hc) as [out [r [E [R1 [R2 [Hin Herr]]]]]].
    destruct r as [[]|e].
    - exists out. split; [exact E|]. split; [exact R1|]. split; [exact R2|]. intros y x Hy Hx. destruct (Hin y x Hy Hx) as [H1 [H2 [_ H4]]].
      specialize (H4 eq_refl). split; [exact (H2 H4)|]. apply Exists_exists in H4. destruct H4 as [b [Hb Hb2]]. apply In_nth_error in Hb. destruct Hb as [k Hk].
      exists k, b. split; [exact Hk|]. split; [exact Hb2|]. intros k' x' Hk' Hx'. exact (H1 k' k x' b Hk' Hk Hx' Hb2).
    - destruct (Herr e eq_refl) as [[r0 [r1 [c0 [c1 [A [B [C [D [F _]]]]]]]]]|[N3 [N4 _]]]; [|lia].
      destruct (Hok r0 r1 c0 c1 A B C D) as [b Hb]. congruence.
  Qed.
End Compute.

(** ** Inserting chunks *)

Lemma insert_chunks_spec {V} (cell : Z -> Z -> V) : forall bounds chunks master,
  Forall (good_tile (b_rows master) (b_cols master)) bounds ->
  Forall2 (fun b c => Holds c cell (fst b) (snd b)) bounds chunks ->
  exists m, insert_chunks master bounds chunks = Ok m /\ b_rows m = b_rows master /\ b_cols m = b_cols master /\
    (forall y x, Exists (InBox y x) bounds -> b_at m y x = cell y x) /\
    (forall y x, ~ Exists (InBox y x) bounds -> b_at m y x = b_at master y x).
Proof.
  induction bounds as [|[yb xb] bounds IH]; intros chunks master Hg Hf; inversion Hf as [|? c ? cs Hc Hcs]; subst; clear Hf.
  - exists master. repeat (split; [reflexivity|]). split; [intros y x H; inversion H|reflexivity].
  - inversion Hg as [|? ? G Gs]; subst. destruct G as [G1 [G2 [G3 G4]]]. cbn [fst snd] in *. destruct Hc as [R [C A]].
    destruct (assign_spec master yb xb c G1 G2 G3 G4 R C) as [m1 [E [E1 [E2 [E3 E4]]]]].
    destruct (IH cs m1) as [m [Em [M1 [M2 [M3 M4]]]]]; [rewrite E1, E2; exact Gs|exact Hcs|].
    exists m. cbn [insert_chunks]. rewrite E. cbn [bind]. split; [exact Em|]. split; [congruence|]. split; [congruence|]. split.
    + intros y x Hex. destruct (Exists_dec (InBox y x) bounds) as [Hd|Hd].
      { intros b. unfold InBox, InIval. destruct (Z_le_dec (fst (fst b)) y), (Z_lt_dec y (snd (fst b))), (Z_le_dec (fst (snd b)) x), (Z_lt_dec x (snd (snd b))); try (left; lia); right; lia. }
      * exact (M3 y x Hd).
      * rewrite (M4 y x Hd). assert (Hb : InBox y x (yb, xb)) by (inversion Hex; [assumption|contradiction]).
        rewrite (E3 y x Hb). unfold InBox, InIval in Hb. cbn [fst snd] in Hb. rewrite A by lia. f_equal; lia.
    + intros y x Hex. rewrite M4; [apply E4|]; intros H; apply Hex; [left|right]; exact H.
Qed.

Theorem reassembled {V} (value : Z -> Z -> V) ny nx sy sx master :
  1 <= ny -> 1 <= sy -> sy = 1 \/ 2 <= ny -> 1 <= nx -> 1 <= sx -> sx = 1 \/ 2 <= nx ->
  b_rows master = ny -> b_cols master = nx ->
  exists cells, iter_dst_grid_slices ny nx sy sx None = Ok cells /\
    forall chunks, Forall2 (fun b c => Holds c value (fst b) (snd b)) cells chunks ->
      exists m, insert_chunks master cells chunks = Ok m /\ b_rows m = ny /\ b_cols m = nx /\
        forall y x, 0 <= y < ny -> 0 <= x < nx -> b_at m y x = value y x.
Proof.
  intros H1 H2 H3 H4 H5 H6 Hy Hx.
  destruct (iter_dst_grid_slices_spec ny nx sy sx H1 H2 H3 H4 H5 H6) as [cells [E [_ [Hone _]]]].
  exists cells. split; [exact E|]. intros chunks Hc.
  assert (Hg : Forall (good_tile (b_rows master) (b_cols master)) cells).
  { unfold iter_dst_grid_slices in E.
    destruct (create_slices_for_dimension_spec ny sy H1 H2 H3) as [ys [Ey [_ [_ By]]]].
    destruct (create_slices_for_dimension_spec nx sx H4 H5 H6) as [xs [Ex [_ [_ Bx]]]].
    rewrite Ey, Ex in E. cbn [bind] in E. injection E as <-. apply Forall_forall. intros [b c] Hin. apply in_prod_iff in Hin. destruct Hin as [Hb Hcc].
    apply By in Hb. apply Bx in Hcc. unfold good_tile. cbn [fst snd]. lia. }
  destruct (insert_chunks_spec value cells chunks master Hg Hc) as [m [Em [M1 [M2 [M3 _]]]]].
  exists m. split; [exact Em|]. split; [congruence|]. split; [congruence|]. intros y x Hyy Hxx. apply M3.
  apply exactly_exists. exact (Hone y x Hyy Hxx).
Qed.

Theorem reassembled_times {V} (value : Z -> Z -> Z -> V) ny nx sy sx cells : 
  1 <= ny -> 1 <= sy -> sy = 1 \/ 2 <= ny -> 1 <= nx -> 1 <= sx -> sx = 1 \/ 2 <= nx ->
  iter_dst_grid_slices ny nx sy sx None = Ok cells ->
  forall masters chunks t0, Forall (fun m => b_rows m = ny /\ b_cols m = nx) masters -> List.length chunks = List.length masters ->
    (forall t cs, nth_error chunks t = Some cs -> Forall2 (fun b c => Holds c (value (t0 + Z.of_nat t)) (fst b) (snd b)) cells cs) ->
    exists ms, insert_times masters cells chunks = Ok ms /\ List.length ms = List.length masters /\
      forall t m, nth_error ms t = Some m -> forall y x, 0 <= y < ny -> 0 <= x < nx -> b_at m y x = value (t0 + Z.of_nat t) y x.
Proof.
  intros H1 H2 H3 H4 H5 H6 E. induction masters as [|m masters IH]; intros [|cs chunks] t0 Hm Hl Hc; try discriminate Hl.
  - exists []. split; [reflexivity|]. split; [reflexivity|]. intros [|t] m H; discriminate H.
  - inversion Hm as [|? ? [M1 M2] Hms]; subst.
    destruct (reassembled (value t0) _ _ sy sx m H1 H2 H3 H4 H5 H6 eq_refl eq_refl) as [cells' [E' Hr]].
    rewrite E in E'. injection E' as <-.
    destruct (Hr cs) as [m' [Em [_ [_ Hv]]]].
    { pose proof (Hc 0%nat cs eq_refl) as H0. cbn [Z.of_nat] in H0. rewrite Z.add_0_r in H0. exact H0. }
    destruct (IH chunks (t0 + 1) Hms) as [ms [Ems [L Hms']]]; [cbn in Hl; lia| |].
    { intros t c Ht. pose proof (Hc (S t) c Ht) as H0. replace (t0 + 1 + Z.of_nat t) with (t0 + Z.of_nat (S t)) by lia. exact H0. }
    exists (m' :: ms). cbn [insert_times]. rewrite Em. cbn [bind]. rewrite Ems. cbn [bind]. split; [reflexivity|]. split; [cbn [List.length]; lia|].
    intros [|t] mm Ht y x Hy Hx; cbn [nth_error] in Ht.
    + injection Ht as <-. cbn [Z.of_nat]. rewrite Z.add_0_r. exact (Hv y x Hy Hx).
    + rewrite (Hms' t mm Ht y x Hy Hx). f_equal. lia.
Qed.

Section Callback.
  Context {V : Type} (exec : Z * Z -> Z * Z -> res (block V)) (hide : V -> V).

  Lemma do_tiles_callback rank ro co mask : forall tiles o, o_callback (fst (do_tiles exec hide rank ro co mask o tiles)) = o_callback o.
  Proof.
    induction tiles as [|t tiles IH]; intros o; [reflexivity|]. cbn [do_tiles]. destruct (do_tile exec hide rank ro co mask (o_file o) t); [rewrite IH|]; reflexivity.
  Qed.

  Theorem compute_refused flag cb tdim checks template subset rank nothing : tdim <= 0 ->
    exists out, compute exec hide flag cb tdim checks template subset rank nothing = (out, Err ValueError) /\ o_writes out = [] /\ o_file out = nothing.
  Proof. intros H. unfold compute. destruct (Z.leb_spec tdim 0); [|lia]. eexists. split; [reflexivity|]. split; reflexivity. Qed.

  Lemma compute_callback flag cb tdim checks template subset rank nothing :
    let after := o_callback (fst (compute exec hide flag cb tdim checks template subset rank nothing)) in
    match cb with None => after = None | Some c => after = Some (CbZero c) \/ after = Some (CbScaled c) end.
  Proof.
    unfold compute. cbv zeta. destruct (tdim <=? 0); [destruct cb; [left|]; reflexivity|]. destruct checks as [?|?]; [|destruct cb; [left|]; reflexivity].
    cbn [fst o_callback]. destruct template as [file|?]; [|destruct cb; [left|]; reflexivity].
    destruct (match subset with None => _ | Some r => r end) as [[[ro co] mask]|?]; [|destruct cb; [left|]; reflexivity].
    destruct (get_tile_schema _ _ _ _); [|destruct cb; [left|]; reflexivity].
    rewrite do_tiles_callback. destruct cb; [right|]; reflexivity.
  Qed.
  Theorem no_callback_unchanged flag tdim checks template subset rank nothing :
    o_callback (fst (compute exec hide flag None tdim checks template subset rank nothing)) = None.
  Proof. exact (compute_callback flag None tdim checks template subset rank nothing). Qed.
  Lemma wrapped_differs : forall c, CbZero c <> c /\ CbScaled c <> c.
  Proof.
    assert (H : forall c c', c' = CbZero c \/ c' = CbScaled c -> c' <> c); [|intros c; split; apply H; [left|right]; reflexivity].
    intros c c' Hc E. set (sz := fix sz c := match c with CbUser _ => O | CbZero c => S (sz c) | CbScaled c => S (sz c) end).
    assert (Hs : sz c' = S (sz c)) by (destruct Hc; subst c'; reflexivity). rewrite E in Hs. lia.
  Qed.
  Theorem callback_replaced flag c tdim checks template subset rank nothing :
    o_callback (fst (compute exec hide flag (Some c) tdim checks template subset rank nothing)) <> Some c.
  Proof.
    destruct (compute_callback flag (Some c) tdim checks template subset rank nothing) as [E|E]; rewrite E; intros H; injection H; apply wrapped_differs.
  Qed.
End Callback.
