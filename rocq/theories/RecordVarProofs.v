(** Record iteration of plain variables. *)
From Verif Require Import Py Lib Spec PartitionModel NdModel NdSpec NdProofs MaskProofs RecordModel RecordSpec RecordProofs RecordMeltProofs DmapProofs CollProofs.
From Coq Require Import Sorted.

Lemma new_fresh {A} (v : rvar A) allow p rep fmt cl : GoodVar (r_var v) -> Fresh (new_iter v allow p rep fmt cl).
Proof.
  intros [H1 [_ [H3 H4]]]. unfold Fresh, new_iter; cbn [i_remap i_dims i_shape i_value i_mask].
  split; [reflexivity|]. split; [exact H1|]. split; [unfold nv_names, nv_shape; now rewrite !map_length|]. split; [exact H3|]. destruct (nv_mask (r_var v)); [exact H4|exact I].
Qed.

Lemma shares_follows {A} (v w : rvar A) allow p rep fmt cl : GoodVar (r_var v) -> SharesDims v w ->
  let lead := new_iter v allow p rep fmt cl in Follows lead (new_iter w allow (Some (i_primary lead)) None None true).
Proof.
  intros Hv [Hw Hi] lead. split; [apply new_fresh; exact Hw|]. split; [|split; [|split; reflexivity]]; cbn [new_iter i_dims i_shape lead].
  - intros d Hd. unfold nv_names in *. apply in_map_iff in Hd. destruct Hd as [[n s] [<- Hd]]. apply in_map. apply Hi. exact Hd.
  - intros n p' q Ep Eq. unfold nv_names, nv_shape in *. rewrite nth_error_map in Ep, Eq. rewrite !nth_error_map.
    destruct (nth_error (nv_dims (r_var w)) p') as [[a s]|] eqn:E1; [|discriminate]. destruct (nth_error (nv_dims (r_var v)) q) as [[b s']|] eqn:E2; [|discriminate].
    cbn [option_map fst] in Ep, Eq. injection Ep as ->. injection Eq as ->. cbn [option_map snd]. f_equal.
    apply nth_error_In in E1. apply Hi in E1. apply In_nth_error in E1. destruct E1 as [q' E1].
    assert (q' = q).
    { apply (nodup_nth_inj (map fst (nv_dims (r_var v))) q' q n); [apply Hv|now rewrite nth_error_map, E1|now rewrite nth_error_map, E2]. }
    subst q'. congruence.
Qed.

Lemma flat_vars {A} (lead : iter A) (ws : list (rvar A)) :
  flat_map (follower_iters lead) (map FVar ws) = map (fun w => new_iter w (i_allow lead) (Some (i_primary lead)) None None true) ws.
Proof. induction ws as [|w t IH]; [reflexivity|]. cbn [map flat_map follower_iters app]. now rewrite IH. Qed.

Lemma cells_var {A} (v w : rvar A) allow p idx iw :
  let lead := new_iter v allow None None None true in
  GoodVar (r_var w) -> At lead (new_iter w allow p None None true) idx iw ->
  VarCells v w idx (cells (new_iter w allow p None None true) iw).
Proof.
  intros lead Hw [H1 H2]. exists iw. cbn [new_iter i_value i_dims lead] in *. split; [destruct Hw as [_ [_ [E _]]]; rewrite <- E; exact H1|].
  split; [exact H2|]. unfold cells, hidden, masked. cbv zeta. cbn [new_iter i_mask i_clobber i_value i_rep i_fmt i_name add_repeaters]. rewrite andb_true_r.
  destruct (r_repeat w); reflexivity.
Qed.

Lemma left_out_lead {A} (v : rvar A) ws allow idx : GoodVar (r_var v) -> Forall (SharesDims v) ws -> ~ In (r_name v) (map r_name ws) ->
  IndexOf (nv_shape (r_var v)) idx ->
  let lead := new_iter v allow None None None true in
  let fs := map (fun w => new_iter w allow (Some (r_name v)) None None true) ws in
  (LeftOut (lead :: fs) lead idx <-> allow = false /\ masked (r_var v) idx = true).
Proof.
  intros Hv Hws Hn Hi lead fs. pose proof (new_fresh v allow None None None true Hv) as Hf.
  destruct (lead_one lead idx Hf Hi) as [Ha _]. split.
  - intros [H1 [w [iw [[<-|Hin] [H2 [H3 H4]]]]]].
    + rewrite (at_unique lead lead idx iw idx Hf (incl_refl _) H3 Ha) in H4. split; [exact H1|exact H4].
    + exfalso. apply Hn. unfold fs in Hin. apply in_map_iff in Hin. destruct Hin as [w0 [<- Hw0]]. cbn [new_iter i_name i_primary lead] in H2.
      rewrite <- H2. apply in_map. exact Hw0.
  - intros [H1 H2]. split; [exact H1|]. exists lead, idx. split; [left; reflexivity|]. split; [reflexivity|]. split; [exact Ha|exact H2].
Qed.

Lemma row_vars {A} (v : rvar A) ws allow idx row : GoodVar (r_var v) -> Forall (SharesDims v) ws ->
  let lead := new_iter v allow None None None true in
  let fs := map (fun w => new_iter w allow (Some (r_name v)) None None true) ws in
  Row (lead :: fs) lead idx row -> exists ess, row = List.concat ess /\ Forall2 (fun w e => VarCells v w idx e) (v :: ws) ess.
Proof.
  intros Hv Hws lead fs [ess [-> F]]. exists ess. split; [reflexivity|].
  inversion F as [|? e ? t [iw [H1 ->]] F']; subst. constructor; [apply cells_var; [exact Hv|exact H1]|].
  clear - F' Hws. revert t F'. unfold fs. induction ws as [|w ws IH]; intros t F'; cbn [map] in F'; inversion F' as [|? e ? t' [iw [H1 ->]] F'']; subst; [constructor|].
  pose proof (Forall_inv Hws) as [Hw _]. constructor; [apply cells_var; [exact Hw|exact H1]|].
  apply IH; [|exact F'']. now apply Forall_inv_tail in Hws.
Qed.

Lemma rowmajor_iff shape (P Q : list Z -> Prop) l : (forall idx, IndexOf shape idx -> (P idx <-> Q idx)) -> RowMajor shape P l -> RowMajor shape Q l.
Proof. intros H [S1 M]. split; [exact S1|]. intros idx. rewrite M. split; intros [K1 K2]; (split; [exact K1|]; apply (H idx K1); exact K2). Qed.

Lemma not_left_out {A} (v : rvar A) allow idx : (~ (allow = false /\ masked (r_var v) idx = true)) <-> (allow = true \/ masked (r_var v) idx = false).
Proof. destruct allow, (masked (r_var v) idx); split; intros; intuition congruence. Qed.

Lemma variables_records {A} (v : rvar A) ws allow : GoodVar (r_var v) -> Forall (SharesDims v) ws -> ~ In (r_name v) (map r_name ws) ->
  exists idxs recs, iterate (new_iter v allow None None None true) (Some (map FVar ws)) None = Ok recs /\
    RowMajor (nv_shape (r_var v)) (fun idx => allow = true \/ masked (r_var v) idx = false) idxs /\
    Forall2 (fun idx r => exists ess, Forall2 (fun w e => VarCells v w idx e) (v :: ws) ess /\ DictOf (List.concat ess) r) idxs recs.
Proof.
  intros Hv Hws Hn.
  destruct (iterate_rows (new_iter v allow None None None true) (Some (map FVar ws)) (map (fun w => new_iter w allow (Some (r_name v)) None None true) ws)) as [idxs [recs [E [R F]]]].
  - apply new_fresh. exact Hv.
  - apply Forall_forall. intros f Hf. apply in_map_iff in Hf. destruct Hf as [w [<- Hw]]. rewrite Forall_forall in Hws. apply (shares_follows v w allow None None None true Hv (Hws w Hw)).
  - apply flat_vars.
  - exists idxs, recs. split; [exact E|]. split.
    + revert R. apply rowmajor_iff. intros idx Hi. rewrite (left_out_lead v ws allow idx Hv Hws Hn Hi). apply not_left_out.
    + clear - F Hv Hws. induction F as [|idx r idxs recs [row [H1 H2]] F IH]; [constructor|]. constructor; [|exact IH].
      destruct (row_vars v ws allow idx row Hv Hws H1) as [ess [-> G]]. exists ess. auto.
Qed.

Lemma variables_melted {A} (v : rvar A) ws ms allow : GoodVar (r_var v) -> Forall (SharesDims v) ws -> ~ In (r_name v) (map r_name ws) ->
  ws <> [] -> NoDup (map r_name ms) -> incl ms (v :: ws) -> (forall m m' k, In m ms -> In m' ms -> repeats m k -> repeats m' k) ->
  exists idxs recs, iterate (new_iter v allow None None None true) (Some (map FVar ws)) (Some ms) = Ok (List.concat recs) /\
    RowMajor (nv_shape (r_var v)) (fun idx => allow = true \/ masked (r_var v) idx = false) idxs /\
    Forall2 (fun idx rs => exists ess, Forall2 (fun w e => VarCells v w idx e) (v :: ws) ess /\ Forall2 (MeltedRecord ms (List.concat ess)) ms rs) idxs recs.
Proof.
  intros Hv Hws Hn Hne Hms Hi Hu.
  destruct (melted_rows (new_iter v allow None None None true) (map FVar ws) (map (fun w => new_iter w allow (Some (r_name v)) None None true) ws) ms) as [idxs [recs [E [R F]]]].
  - apply new_fresh. exact Hv.
  - apply Forall_forall. intros f Hf. apply in_map_iff in Hf. destruct Hf as [w [<- Hw]]. rewrite Forall_forall in Hws. apply (shares_follows v w allow None None None true Hv (Hws w Hw)).
  - apply flat_vars.
  - destruct ws; [congruence|discriminate].
  - exact Hms.
  - exact Hu.
  - intros m Hm. destruct (Hi m Hm) as [<-|Hm']; [eexists; split; [left; reflexivity|split; reflexivity]|].
    exists (new_iter m allow (Some (r_name v)) None None true). split; [right; apply (in_map (fun w => new_iter w allow (Some (r_name v)) None None true)); exact Hm'|split; reflexivity].
  - exists idxs, recs. split; [exact E|]. split.
    + revert R. apply rowmajor_iff. intros idx Hx. rewrite (left_out_lead v ws allow idx Hv Hws Hn Hx). apply not_left_out.
    + clear - F Hv Hws. induction F as [|idx r idxs recs [row [H1 H2]] F IH]; [constructor|]. constructor; [|exact IH].
      destruct (row_vars v ws allow idx row Hv Hws H1) as [ess [-> G]]. exists ess. auto.
Qed.

Lemma repeat_grows {A} n (v : rvar A) r : r_repeat v = Some r -> exists r', r_repeat (after_iters n v) = Some r' /\ zlen r' = 2 ^ Z.of_nat n * zlen r.
Proof.
  revert v r. induction n as [|n IH]; intros v r E; cbn [after_iters].
  - exists r. split; [exact E|]. change (2 ^ Z.of_nat 0) with 1. lia.
  - unfold get_iter at 1. rewrite E. cbn [fst]. destruct (IH (mkrvar (r_name v) (r_var v) (Some (r ++ r)%list)) _ eq_refl) as [r' [E1 E2]]. exists r'. split; [exact E1|].
    rewrite E2, zlen_app. rewrite Nat2Z.inj_succ, Z.pow_succ_r by lia. ring.
Qed.

Lemma no_repeat_same {A} n (v : rvar A) : r_repeat v = None -> after_iters n v = v.
Proof. intros E. induction n as [|n IH]; [reflexivity|]. cbn [after_iters]. unfold get_iter. rewrite E. cbn [fst]. exact IH. Qed.

(** * Repeated entries given to the iterator; iterating a collection *)
Definition own {A} (v : rvar A) : list (entry A) := match r_repeat v with None => [] | Some r => r end.

Lemma lone_rows {A} (v : rvar A) allow rep : GoodVar (r_var v) ->
  exists idxs recs, iterate (new_iter v allow None rep None true) None None = Ok recs /\
    RowMajor (nv_shape (r_var v)) (fun idx => allow = true \/ masked (r_var v) idx = false) idxs /\
    Forall2 (fun idx r => DictOf ((match rep with None => [] | Some l => l end ++ own v) ++
      [(r_name v, if masked (r_var v) idx then FNone else FVal (nd_at (nv_value (r_var v)) idx))])%list r) idxs recs.
Proof.
  intros Hv. set (lead := new_iter v allow None rep None true).
  assert (Hf : Fresh lead) by (apply new_fresh; exact Hv).
  destruct (iterate_rows lead None [] Hf (Forall_nil _) eq_refl) as [idxs [recs [E [R F]]]].
  exists idxs, recs. split; [exact E|].
  assert (R' : RowMajor (nv_shape (r_var v)) (fun idx => allow = true \/ masked (r_var v) idx = false) idxs).
  { revert R. apply rowmajor_iff. intros idx Hi. rewrite <- not_left_out. destruct (lead_one lead idx Hf Hi) as [Ha _].
    assert (K : LeftOut [lead] lead idx <-> allow = false /\ masked (r_var v) idx = true); [|now rewrite K]. split.
    - intros [H1 [w [iw [[<-|[]] [H2 [H3 H4]]]]]]. rewrite (at_unique lead lead idx iw idx Hf (incl_refl _) H3 Ha) in H4. split; [exact H1|exact H4].
    - intros [H1 H2]. split; [exact H1|]. exists lead, idx. split; [left; reflexivity|]. split; [reflexivity|]. split; [exact Ha|exact H2]. }
  split; [exact R'|].
  assert (Hin : forall idx, In idx idxs -> IndexOf (nv_shape (r_var v)) idx) by (intros idx K; apply (proj2 R') in K; apply K).
  clear - F Hin Hf Hv. induction F as [|idx r idxs recs [row [[ess [-> G]] D]] F IH]; [constructor|].
  constructor; [|apply IH; intros i Hi; apply Hin; right; exact Hi].
  inversion G as [|? e ? t [iw [H1 ->]] G']; subst. inversion G'; subst. cbn [List.concat] in D. rewrite app_nil_r in D.
  destruct (lead_one lead idx Hf (Hin idx (or_introl eq_refl))) as [Ha _].
  rewrite (at_unique lead lead idx iw idx Hf (incl_refl _) H1 Ha) in D. unfold cells in D. cbv zeta in D.
  unfold lead in D. cbn [new_iter i_rep i_fmt i_name i_clobber i_value] in D. rewrite andb_true_r in D.
  replace (hidden (new_iter v allow None rep None true) idx) with (masked (r_var v) idx) in D by reflexivity.
  unfold own. destruct rep, (r_repeat v); cbn [add_repeaters] in D; rewrite ?app_nil_r; exact D.
Qed.

Lemma last_twice {A} (a b c : list (entry A)) k x : LastOf (a ++ b ++ b ++ c)%list k x <-> LastOf (a ++ b ++ c)%list k x.
Proof.
  rewrite <- !collect_get. destruct (last_or c k) as [[y Hy]|N].
  - assert (K : forall p, LastOf (p ++ c)%list k y).
    { intros p. destruct Hy as [u [w [-> Hn]]]. exists (p ++ u)%list, w. split; [now rewrite <- app_assoc|exact Hn]. }
    rewrite !app_assoc. rewrite !(proj2 (collect_get _ k y) (K _)). reflexivity.
  - destruct (last_or b k) as [[y Hy]|N'].
    + assert (K : forall p, LastOf (p ++ b ++ c)%list k y).
      { intros p. destruct Hy as [u [w [-> Hn]]]. exists (p ++ u)%list, (w ++ c)%list. split; [now rewrite <- !app_assoc|]. rewrite map_app, in_app_iff. tauto. }
      rewrite (proj2 (collect_get _ k y) (K a)). rewrite (app_assoc a b), (proj2 (collect_get _ k y) (K (a ++ b)%list)). reflexivity.
    + assert (K : forall p, ~ In k (map fst p) -> LastOf (a ++ p)%list k x <-> LastOf a k x).
      { intros p Hp. split.
        - intros [u [w [E Hn]]]. destruct (last_or a k) as [[y [u' [w' [-> Hn']]]]|Na].
          + assert (Y : LastOf (u ++ (k, x) :: w)%list k y).
            { rewrite <- E. exists u', (w' ++ p)%list. split; [now rewrite <- app_assoc|]. rewrite map_app, in_app_iff. tauto. }
            assert (X : LastOf (u ++ (k, x) :: w)%list k x) by (exists u, w; auto).
            apply collect_get in X, Y. rewrite X in Y. injection Y as <-. exists u', w'. auto.
          + exfalso. assert (In k (map fst (a ++ p)%list)) by (rewrite E, map_app, in_app_iff; right; left; reflexivity).
            rewrite map_app, in_app_iff in H. tauto.
        - intros [u [w [-> Hn]]]. exists u, (w ++ p)%list. split; [now rewrite <- app_assoc|]. rewrite map_app, in_app_iff. tauto. }
      rewrite !collect_get. rewrite !K; [reflexivity|rewrite map_app, in_app_iff; tauto|rewrite !map_app, !in_app_iff; tauto].
Qed.

Lemma get_iter_rows {A} (v : rvar A) allow rep it : GoodVar (r_var v) ->
  snd (get_iter v false allow None rep None true) = Ok it ->
  exists idxs recs, iterate it None None = Ok recs /\
    RowMajor (nv_shape (r_var v)) (fun idx => allow = true \/ masked (r_var v) idx = false) idxs /\
    Forall2 (fun idx r => NoDup (map fst r) /\ forall k x, In (k, x) r <-> LastOf (match rep with None => [] | Some l => l end ++ own v ++
      [(r_name v, if masked (r_var v) idx then FNone else FVal (nd_at (nv_value (r_var v)) idx))])%list k x) idxs recs.
Proof.
  intros Hv E. cbn [get_iter snd] in E. injection E as <-.
  set (given := match rep, r_repeat v with None, Some r => Some r | Some l, Some r => Some (l ++ r)%list | l, None => l end).
  destruct (lone_rows v allow given Hv) as [idxs [recs [E1 [R F]]]]. exists idxs, recs. split; [|split; [exact R|]].
  - rewrite <- E1. unfold given, new_iter. destruct rep, (r_repeat v); reflexivity.
  - clear - F. induction F as [|idx r idxs recs D F IH]; [constructor|]. constructor; [|exact IH]. destruct D as [D1 [D2 _]]. split; [exact D1|].
    intros k x. rewrite D2. unfold given, own. destruct rep as [l|], (r_repeat v) as [r0|]; cbn [app]; rewrite ?app_nil_r, <- ?app_assoc; try reflexivity.
    + apply last_twice.
    + apply (last_twice []).
Qed.

Lemma collection_rows {A} (v : rvar A) ws allow : GoodVar (r_var v) -> Forall (SharesDims v) ws -> ~ In (r_name v) (map r_name ws) ->
  exists idxs recs, collection_iter v ws None allow None false = Ok recs /\
    RowMajor (nv_shape (r_var v)) (fun idx => allow = true \/ masked (r_var v) idx = false) idxs /\
    Forall2 (fun idx r => exists ess, Forall2 (fun w e => VarCells v w idx e) (v :: ws) ess /\ NoDup (map fst r) /\
      forall k x, In (k, x) r <-> k <> calc_key /\ LastOf (List.concat ess) k x) idxs recs.
Proof.
  intros Hv Hws Hn. destruct (variables_records v ws allow Hv Hws Hn) as [idxs [recs [E [R F]]]].
  exists idxs, (map (fun r => dremove String.eqb r calc_key) recs). split; [|split; [exact R|]].
  - unfold collection_iter. rewrite E. cbn [bind].
    assert (K : map_res (conform None None false false) recs = Ok (map (fun r => (@None (fld A), dremove String.eqb r calc_key)) recs)).
    { clear. induction recs as [|r t IH]; [reflexivity|]. cbn [map_res map]. rewrite IH. reflexivity. }
    rewrite K. cbn [bind]. rewrite map_map. reflexivity.
  - clear - F. induction F as [|idx r idxs recs [ess [G [D1 [D2 _]]]] F IH]; [constructor|]. cbn [map]. constructor; [|exact IH].
    exists ess. split; [exact G|]. split; [apply dremove_nodup; exact D1|]. intros k x. rewrite dget_iff by (apply dremove_nodup; exact D1).
    destruct (string_dec k calc_key) as [->|N].
    + rewrite (dget_dremove_same _ String.eqb_spec) by exact D1. split; [discriminate|tauto].
    + rewrite (dget_dremove_other _ String.eqb_spec) by exact N. rewrite <- dget_iff by exact D1. rewrite D2. tauto.
Qed.
