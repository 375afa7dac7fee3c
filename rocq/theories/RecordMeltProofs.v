(** Proofs about melted records, refused followers and renamed headers. *)
From Verif Require Import Py Lib Spec PartitionModel NdModel NdSpec NdProofs MaskProofs RecordModel RecordSpec RecordProofs DmapProofs CollProofs.
From Coq Require Import Sorted.

Lemma pop_all_ok {A} (ks : list string) : forall (d : list (entry A)), NoDup (map fst d) -> NoDup ks -> incl ks (map fst d) ->
  exists d' vals, pop_all d ks = Ok (d', vals) /\ NoDup (map fst d') /\
    (forall k, dget String.eqb d' k = if str_mem k ks then None else dget String.eqb d k) /\
    Forall2 (fun k x => dget String.eqb d k = Some x) ks vals.
Proof.
  induction ks as [|k t IH]; intros d Hd Hk Hi.
  - exists d, []. repeat split; [exact Hd|constructor].
  - inversion Hk as [|? ? Hni Hnt]; subst. cbn [pop_all]. unfold pop.
    destruct (dget String.eqb d k) as [v|] eqn:E; [|apply (dget_none _ String.eqb_spec) in E; destruct E; apply Hi; left; reflexivity]. cbn [bind fst snd].
    assert (Ho : forall k2, k2 <> k -> dget String.eqb (dremove String.eqb d k) k2 = dget String.eqb d k2) by (intros k2; apply (dget_dremove_other _ String.eqb_spec)).
    destruct (IH (dremove String.eqb d k)) as [d' [vals [E1 [N1 [G1 F1]]]]].
    + apply dremove_nodup. exact Hd.
    + exact Hnt.
    + intros x Hx. assert (x <> k) by congruence. assert (Hx' : In x (map fst d)) by (apply Hi; right; exact Hx).
      destruct (in_dec string_dec x (map fst (dremove String.eqb d k))) as [K|K]; [exact K|].
      apply (dget_none _ String.eqb_spec) in K. rewrite Ho in K by exact H. apply (dget_none _ String.eqb_spec) in K. tauto.
    + rewrite E1. cbn [bind fst snd]. exists d', (v :: vals). split; [reflexivity|]. split; [exact N1|]. split.
      * intros k2. rewrite G1. unfold str_mem. cbn [existsb]. destruct (String.eqb_spec k2 k) as [->|N]; cbn [orb].
        -- destruct (existsb (String.eqb k) t); [reflexivity|]. apply (dget_dremove_same _ String.eqb_spec). exact Hd.
        -- rewrite Ho by exact N. reflexivity.
      * constructor; [exact E|]. clear - F1 Ho Hni. induction F1 as [|x y l l' H F IH]; [constructor|]. constructor.
        -- rewrite <- Ho; [exact H|]. intros ->. apply Hni. left; reflexivity.
        -- apply IH. intros K. apply Hni. right; exact K.
Qed.

Lemma str_mem_in k l : str_mem k l = true <-> In k l.
Proof.
  unfold str_mem. rewrite existsb_exists. split; [intros [x [H E]]; apply String.eqb_eq in E; now subst|]. intros H. exists k. split; [exact H|apply String.eqb_refl].
Qed.

Lemma repeaters_get {A} (ms : list (rvar A)) m : NoDup (map r_name ms) -> In m ms ->
  dget String.eqb (melted_repeaters ms) (r_name m) = r_repeat m.
Proof.
  induction ms as [|a t IH]; intros Hn Hin; [destruct Hin|]. inversion Hn as [|? ? Hni Hnt]; subst. unfold melted_repeaters. cbn [flat_map]. fold (melted_repeaters t).
  assert (Hnone : forall x, ~ In x (map r_name t) -> dget String.eqb (melted_repeaters t) x = None).
  { intros x Hx. apply (dget_none _ String.eqb_spec). intros K. apply Hx. apply in_map_iff in K. destruct K as [[k r] [<- K]]. cbn [fst].
    unfold melted_repeaters in K. apply in_flat_map in K. destruct K as [m' [K1 K2]]. destruct (r_repeat m'); [|destruct K2]. destruct K2 as [K2|[]]. injection K2 as <- _.
    apply in_map. exact K1. }
  destruct Hin as [->|Hin].
  - destruct (r_repeat m) as [r|] eqn:E; cbn [app dget]; [now rewrite String.eqb_refl|]. apply Hnone. exact Hni.
  - assert (Hne : r_name m <> r_name a) by (intros K; apply Hni; rewrite <- K; apply in_map; exact Hin).
    destruct (r_repeat a); cbn [app dget]; [rewrite (proj2 (String.eqb_neq _ _) Hne)|]; apply IH; assumption.
Qed.

Lemma emit_records {A} (ms : list (rvar A)) (row base : list (entry A)) :
  NoDup (map r_name ms) ->
  (forall m m' k, In m ms -> In m' ms -> repeats m k -> repeats m' k) ->
  (forall k, dget String.eqb base k = if str_mem k (map r_name ms) then None else dget String.eqb (collect row) k) ->
  forall todo vals d, incl todo ms -> NoDup (map fst d) ->
  (forall k, k <> "VALUE"%string -> k <> "VARIABLE"%string -> (forall m, In m ms -> ~ repeats m k) -> dget String.eqb d k = dget String.eqb base k) ->
  Forall2 (fun k x => dget String.eqb (collect row) k = Some x) (map r_name todo) vals ->
  Forall2 (MeltedRecord ms row) todo (emit d (melted_repeaters ms) (map r_name todo) vals).
Proof.
  intros Hn Hu Hb. induction todo as [|m t IH]; intros vals d Hi Hd Hg F; cbn [map] in F; inversion F as [|? v ? vals' Hv F']; subst; cbn [map emit]; [constructor|].
  assert (Hm : In m ms) by (apply Hi; left; reflexivity).
  rewrite (repeaters_get ms m Hn Hm). cbv zeta.
  set (d1 := match r_repeat m with None => d | Some r => fold_left put r d end).
  set (d2 := put (put d1 ("VARIABLE"%string, FText (r_name m))) ("VALUE"%string, v)).
  assert (Hd1 : NoDup (map fst d1)) by (unfold d1; destruct (r_repeat m); [apply puts_nodup|]; exact Hd).
  assert (Hd2 : NoDup (map fst d2)) by (apply put_nodup, put_nodup; exact Hd1).
  assert (G1 : forall k, ~ repeats m k -> dget String.eqb d1 k = dget String.eqb d k).
  { intros k Hr. unfold d1, repeats in *. destruct (r_repeat m) as [r|]; [|reflexivity]. apply (proj2 (puts_get r d k)). exact Hr. }
  assert (G2 : forall k, k <> "VALUE"%string -> k <> "VARIABLE"%string -> dget String.eqb d2 k = dget String.eqb d1 k).
  { intros k N1 N2. unfold d2. rewrite !put_get. cbn [fst snd]. rewrite (proj2 (String.eqb_neq _ _) N1), (proj2 (String.eqb_neq _ _) N2). reflexivity. }
  assert (Hnone : forall k, ~ repeats m k -> forall m', In m' ms -> ~ repeats m' k) by (intros k K m' Hm' K'; apply K; eapply Hu; [| |exact K']; assumption).
  constructor.
  - split; [exact Hd2|]. intros k x. rewrite (dget_iff d2 k x Hd2). 
    destruct (string_dec k "VALUE") as [->|N1].
    { unfold d2. rewrite put_get. cbn [fst snd]. rewrite String.eqb_refl. rewrite <- collect_get, Hv. split.
      - intros K. left. split; [reflexivity|exact K].
      - intros [[_ K]|[[K _]|[K _]]]; [exact K|discriminate|congruence]. }
    destruct (string_dec k "VARIABLE") as [->|N2].
    { unfold d2. rewrite !put_get. cbn [fst snd]. rewrite String.eqb_refl. cbn [String.eqb Ascii.eqb Bool.eqb]. split.
      - intros K. right; left. split; [reflexivity|congruence].
      - intros [[K _]|[[_ ->]|[_ [K _]]]]; [discriminate|reflexivity|congruence]. }
    rewrite G2 by assumption.
    assert (Hold : ~ repeats m k -> (dget String.eqb d1 k = Some x <-> ~ In k (map r_name ms) /\ LastOf row k x)).
    { intros K. rewrite G1 by exact K. rewrite (Hg k N1 N2 (Hnone k K)), Hb, <- collect_get, <- str_mem_in.
      destruct (str_mem k (map r_name ms)); split; try discriminate.
      - intros [K1 _]. now destruct K1.
      - intros K1. split; [discriminate|exact K1].
      - intros [_ K1]. exact K1. }
    split.
    + intros K. right; right. split; [exact N1|]. split; [exact N2|]. unfold repeats in Hold. unfold d1 in K, Hold. destruct (r_repeat m) as [r|].
      * destruct (last_or r k) as [[y Hy]|Hno].
        -- rewrite (proj1 (puts_get r d k) y Hy) in K. injection K as ->. left; exact Hy.
        -- right. split; [exact Hno|]. apply Hold; assumption.
      * apply Hold; [tauto|exact K].
    + intros [[K _]|[[K _]|[_ [_ K]]]]; [congruence|congruence|]. unfold repeats in Hold. unfold d1 in *. destruct (r_repeat m) as [r|].
      * destruct K as [K|[K1 K2]]; [apply (proj1 (puts_get r d k)); exact K|]. apply Hold; assumption.
      * apply Hold; [tauto|exact K].
  - apply IH.
    + intros y Hy. apply Hi. right; exact Hy.
    + exact Hd2.
    + intros k N1 N2 Hr. rewrite G2, G1 by auto. apply Hg; assumption.
    + exact F'.
Qed.

Lemma row_has {A} (ws : list (iter A)) lead idx es k : Row ws lead idx es -> (exists w, In w ws /\ i_name w = k /\ i_fmt w = None) -> In k (map fst es).
Proof.
  intros [ess [-> F]] [w [Hin [<- Hf]]]. revert Hin. induction F as [|a b l l' [iw [_ ->]] F IH]; intros Hin; [destruct Hin|].
  cbn [List.concat]. rewrite map_app, in_app_iff. destruct Hin as [->|Hin]; [|right; apply IH; exact Hin].
  left. unfold cells. cbv zeta. rewrite Hf. rewrite map_app, in_app_iff. right; left; reflexivity.
Qed.

Lemma melted_rows {A} (lead : iter A) (followers : list (follower A)) fs ms :
  Fresh lead -> Forall (Follows lead) fs -> flat_map (follower_iters lead) followers = fs -> fs <> [] ->
  NoDup (map r_name ms) -> (forall m m' k, In m ms -> In m' ms -> repeats m k -> repeats m' k) ->
  (forall m, In m ms -> exists w, In w (lead :: fs) /\ i_name w = r_name m /\ i_fmt w = None) ->
  exists idxs recs, iterate lead (Some followers) (Some ms) = Ok (List.concat recs) /\ RowMajor (i_shape lead) (fun idx => ~ LeftOut (lead :: fs) lead idx) idxs /\
    Forall2 (fun idx rs => exists row, Row (lead :: fs) lead idx row /\ Forall2 (MeltedRecord ms row) ms rs) idxs recs.
Proof.
  intros Hl Hf Ef Hne Hn Hu Hms. destruct (tuples lead fs Hl Hf) as [fs' [first [rest [E1 [El [E2 [E3 F]]]]]]].
  unfold iterate. rewrite Ef, E1. cbn [bind]. rewrite E2. cbn [bind]. rewrite E3. cbn [bind].
  assert (Hh : negb (match fs' with [] => true | _ :: _ => false end) = true) by (destruct fs'; [destruct fs; [now destruct Hne|discriminate]|reflexivity]).
  rewrite Hh. match goal with |- context [map_res ?g (zip_all first rest)] => set (stp := g) end.
  assert (exists outs, map_res stp (zip_all first rest) = Ok outs /\
    Forall2 (fun idx out => (LeftOut (lead :: fs) lead idx /\ out = []) \/
      (~ LeftOut (lead :: fs) lead idx /\ exists row, Row (lead :: fs) lead idx row /\ Forall2 (MeltedRecord ms row) ms out)) (indices (i_shape lead)) outs) as [outs [E4 F4]].
  { clear - F Hl Hf Hn Hu Hms. induction F as [|idx tup idxs tups H F IH]; [exists []; split; [reflexivity|constructor]|]. destruct IH as [outs [E G]].
    destruct (tuple_case lead (lead :: fs) idx tup (follows_all lead fs Hl Hf) H) as [[K1 [K2 K3]]|[K1 [K2 [ess [K3 K4]]]]]; cbn [map_res].
    - exists ([] :: outs). unfold stp at 1, step. rewrite K2, K3. cbn [negb andb bind]. rewrite E. cbn [bind]. split; [reflexivity|]. constructor; [left; auto|exact G].
    - set (row := List.concat ess) in *.
      destruct (pop_all_ok (map r_name ms) (collect row) (collect_nodup row) Hn) as [base [vals [P1 [P2 [P3 P4]]]]].
      { intros k Hk. apply in_map_iff in Hk. destruct Hk as [m [<- Hm]]. 
        destruct (last_or row (r_name m)) as [[x Hx]|N]; [|destruct N; apply (row_has _ _ _ _ _ K4); apply Hms; exact Hm].
        apply collect_get in Hx. apply (dget_in _ String.eqb_spec) in Hx. change (r_name m) with (fst (r_name m, x)). apply in_map. exact Hx. }
      exists (emit base (melted_repeaters ms) (map r_name ms) vals :: outs). unfold stp at 1, step. rewrite K2, andb_false_r, K3. cbn [bind]. cbv zeta.
      fold row. rewrite P1. cbn [bind fst snd]. rewrite E. cbn [bind]. split; [reflexivity|].
      constructor; [|exact G]. right. split; [exact K1|]. exists row. split; [exact K4|].
      apply (emit_records ms row base Hn Hu P3); [apply incl_refl|exact P2| |exact P4].
      intros; reflexivity. }
  rewrite E4. cbn [bind].
  destruct (pick_rows _ _ before _ _ (indices_sorted (i_shape lead)) F4) as [idxs [outs' [Ec [S1 [M G]]]]].
  exists idxs, outs'. rewrite Ec. split; [reflexivity|]. split; [|exact G].
  split; [exact S1|]. intros idx. rewrite M, in_indices. reflexivity.
Qed.

(** A follower with a dimension the lead does not have is refused. *)
Lemma refused_follower {A} (lead : iter A) followers melted f d :
  In f (flat_map (follower_iters lead) followers) -> In d (i_dims f) -> ~ In d (i_dims lead) ->
  iterate lead (Some followers) melted = Err ValueError.
Proof.
  intros Hf Hd Hn. unfold iterate. 
  assert (E : map_res (link lead) (flat_map (follower_iters lead) followers) = Err ValueError).
  { induction (flat_map (follower_iters lead) followers) as [|g t IH]; [destruct Hf|]. cbn [map_res].
    assert (Hg : (exists g', link lead g = Ok g') \/ link lead g = Err ValueError).
    { unfold link. destruct (forallb (fun d => str_mem d (i_dims lead)) (i_dims g)) eqn:Eg; [|right; reflexivity]. left.
      destruct (strs_eqb (i_dims g) (i_dims lead)); [eexists; reflexivity|]. rewrite forallb_forall in Eg.
      destruct (map_res_exists (str_index (i_dims lead)) (i_dims g)) as [r Er]; [|rewrite Er; eexists; reflexivity].
      intros x Hx. specialize (Eg x Hx). apply str_mem_in in Eg. destruct (str_index_ok _ _ Eg) as [k [Ek _]]. exists k; exact Ek. }
    destruct Hf as [->|Hf].
    - destruct Hg as [[g' Eg]|Eg]; rewrite Eg; [|reflexivity]. exfalso. unfold link in Eg.
      destruct (forallb (fun d => str_mem d (i_dims lead)) (i_dims f)) eqn:Ef; [|discriminate]. rewrite forallb_forall in Ef. specialize (Ef d Hd). apply str_mem_in in Ef. tauto.
    - destruct Hg as [[g' Eg]|Eg]; rewrite Eg; [|reflexivity]. cbn [bind]. rewrite (IH Hf). reflexivity. }
  rewrite E. destruct melted; reflexivity.
Qed.

(** Renamed headers. *)
Lemma take_mapped_get {A} (yld : list (entry A)) hm : forall new, NoDup (map snd hm) -> (forall v, In v (map snd hm) -> ~ In v (map fst new)) -> NoDup (map fst new) ->
  exists new', take_mapped false yld hm new = Ok new' /\ NoDup (map fst new') /\
    forall k x, dget String.eqb new' k = Some x <-> dget String.eqb new k = Some x \/ exists k0, In (k0, k) hm /\ dget String.eqb yld k0 = Some x.
Proof.
  induction hm as [|[k0 v0] t IH]; intros new Hn Hd Hnew; cbn [take_mapped].
  - exists new. split; [reflexivity|]. split; [exact Hnew|]. intros k x. split; [auto|]. intros [K|[k0 [[] _]]]; exact K.
  - cbn [map snd] in *. inversion Hn as [|? ? Hni Hnt]; subst. destruct (dget String.eqb yld k0) as [x0|] eqn:E.
    + assert (H0 : dget String.eqb new v0 = None) by (apply (dget_none _ String.eqb_spec); apply Hd; left; reflexivity).
      destruct (IH (put new (v0, x0)) Hnt) as [new' [E1 [E2 E3]]].
      * intros v Hv. unfold put. cbn [fst snd]. rewrite dset_new by exact H0. rewrite map_app, in_app_iff. intros [K|[K|[]]].
        -- apply (Hd v); [right; exact Hv|exact K].
        -- cbn [fst] in K. subst. tauto.
      * apply put_nodup. exact Hnew.
      * exists new'. split; [exact E1|]. split; [exact E2|]. intros k x. rewrite E3, put_get. cbn [fst snd].
        destruct (String.eqb_spec k v0) as [->|N].
        -- split; [intros [K|[k1 [K1 K2]]]|intros [K|[k1 [[K1|K1] K2]]]].
           ++ right. exists k0. split; [left; reflexivity|congruence].
           ++ right. exists k1. split; [right; exact K1|exact K2].
           ++ congruence.
           ++ injection K1 as ->. left. congruence.
           ++ right. exists k1. auto.
        -- split; [intros [K|[k1 [K1 K2]]]|intros [K|[k1 [[K1|K1] K2]]]]; auto.
           ++ right. exists k1. split; [right; exact K1|exact K2].
           ++ congruence.
           ++ right. exists k1. auto.
    + destruct (IH new Hnt) as [new' [E1 [E2 E3]]]; [intros v Hv; apply Hd; right; exact Hv|exact Hnew|].
      exists new'. split; [exact E1|]. split; [exact E2|]. intros k x. rewrite E3. split; (intros [K|[k1 [K1 K2]]]; [auto|right; exists k1]).
      * split; [right; exact K1|exact K2].
      * destruct K1 as [K1|K1]; [congruence|auto].
Qed.

Lemma dget_filter {A} (p : string -> bool) (d : list (entry A)) k :
  dget String.eqb (filter (fun e => p (fst e)) d) k = if p k then dget String.eqb d k else None.
Proof.
  induction d as [|[k' x'] t IH]; cbn [filter dget fst]; [now destruct (p k)|]. destruct (p k') eqn:E; cbn [dget].
  - destruct (String.eqb_spec k k') as [->|N]; [now rewrite E|exact IH].
  - destruct (String.eqb_spec k k') as [->|N]; [rewrite IH, E; reflexivity|exact IH].
Qed.

Lemma filter_nodup {A} (p : entry A -> bool) (d : list (entry A)) : NoDup (map fst d) -> NoDup (map fst (filter p d)).
Proof.
  induction d as [|e t IH]; cbn [filter map]; intros H; [constructor|]. inversion H as [|? ? H1 H2]; subst. destruct (p e); [|apply IH; exact H2].
  cbn [map]. constructor; [|apply IH; exact H2]. intros K. apply H1. apply in_map_iff in K. destruct K as [u [<- K]]. apply filter_In in K. apply in_map. tauto.
Qed.

Lemma nodup_last {A} (l : list (entry A)) k x : NoDup (map fst l) -> (LastOf l k x <-> dget String.eqb l k = Some x).
Proof. intros H. rewrite <- collect_get. unfold collect. rewrite puts_new by exact H. reflexivity. Qed.

Lemma conform_renames {A} (yld : list (entry A)) hm : NoDup (map fst yld) -> NoDup (map snd hm) ->
  (forall k, In k (map fst yld) -> In k (map snd hm) -> In k (map fst hm)) -> 
  exists out, conform None (Some hm) false false yld = Ok (None, out) /\ NoDup (map fst out) /\
    forall k x, In (k, x) out <-> k <> "CALC_KEY"%string /\
      ((exists k0, In (k0, k) hm /\ In (k0, x) yld) \/ (~ In k (map fst hm) /\ In (k, x) yld)).
Proof.
  intros Hy Hv Hd. unfold conform. cbn [bind]. cbv zeta. cbn [fst snd].
  destruct (take_mapped_get yld hm [] Hv (fun _ _ H => H) (NoDup_nil _)) as [new [E1 [E2 E3]]]. match type of E1 with ?t = _ => match goal with |- context [take_mapped false yld hm ?n] => change (take_mapped false yld hm n) with t end end. rewrite E1. cbn [bind].
  set (rest := filter (fun e => negb (str_mem (fst e) (map fst hm))) yld).
  assert (Hr : NoDup (map fst rest)) by (apply filter_nodup; exact Hy).
  assert (Ho : NoDup (map fst (fold_left put rest new))) by (apply puts_nodup; exact E2).
  eexists. split; [reflexivity|]. split; [apply dremove_nodup; exact Ho|]. intros k x.
  rewrite dget_iff by (apply dremove_nodup; exact Ho).
  destruct (string_dec k "CALC_KEY") as [->|N]; [change "CALC_KEY"%string with calc_key; rewrite (dget_dremove_same _ String.eqb_spec) by exact Ho; split; [discriminate|intros [[] _]; reflexivity]|].
  rewrite (dget_dremove_other _ String.eqb_spec) by exact N.
  assert (Hrest : forall y, dget String.eqb rest k = Some y <-> ~ In k (map fst hm) /\ In (k, y) yld).
  { intros y. unfold rest. rewrite (dget_filter (fun s => negb (str_mem s (map fst hm))) yld k). rewrite (dget_iff yld k y Hy), <- str_mem_in.
    destruct (str_mem k (map fst hm)); cbn [negb]; split; try discriminate.
    - intros [K _]. now destruct K.
    - intros K. split; [discriminate|exact K].
    - intros [_ K]. exact K. }
  assert (Hnew : forall y, dget String.eqb new k = Some y <-> exists k0, In (k0, k) hm /\ In (k0, y) yld).
  { intros y. rewrite E3. cbn [dget]. split; [intros [K|[k0 [K1 K2]]]; [discriminate|]|intros [k0 [K1 K2]]; right]; exists k0.
    - rewrite dget_iff by exact Hy. auto.
    - rewrite dget_iff in K2 by exact Hy. auto. }
  destruct (last_or rest k) as [[y Hyy]|Hno].
  - rewrite (proj1 (puts_get rest new k) y Hyy). apply (nodup_last rest k y Hr) in Hyy. pose proof (proj1 (Hrest y) Hyy) as [R1 R2]. split.
    + intros K. injection K as ->. split; [exact N|]. right. auto.
    + intros [_ [[k0 [K1 K2]]|[K1 K2]]].
      * exfalso. apply R1. apply Hd; [change k with (fst (k, y)); apply in_map; exact R2|]. change k with (snd (k0, k)). apply in_map. exact K1.
      * rewrite dget_iff in R2 by exact Hy. rewrite dget_iff in K2 by exact Hy. congruence.
  - rewrite (proj2 (puts_get rest new k) Hno), Hnew. split; [auto|]. intros [_ [K|K]]; [exact K|]. apply Hrest in K. apply (dget_in _ String.eqb_spec) in K.
    destruct Hno. change k with (fst (k, x)). apply in_map. exact K.
Qed.
