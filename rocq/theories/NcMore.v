(** Proofs about whole writes, groups, strings and sessions. *)
From Verif Require Import Py Lib AverModel AverProofs NcModel NcSpec NcProofs.
Local Open Scope string_scope.
Local Open Scope Z_scope.

Lemma weaken g v : part_of g v -> wpart g v.
Proof. intros [A B C D E F]. constructor; auto. apply (F2_imp (fun gd d => d_name d = g_name gd /\ d_unlimited d = g_unlimited gd /\ (d_lo d <= d_hi d <= g_len gd)%nat)); [tauto|exact B]. Qed.
Lemma weaken_all G l : Forall2 part_of G l -> Forall2 wpart G l.
Proof. apply F2_imp. intros g v _ _. apply weaken. Qed.
Lemma weaken_parts G cs : parts_of G cs -> wparts G cs.
Proof. intros [A B]. split; [|exact B]. intros c I. now apply weaken_all, A. Qed.
Lemma knows_makes m G c : Forall2 part_of G (c_vars c) -> knows (len_of m) G c -> Forall2 (makes false m) G (c_vars c).
Proof.
  intros F K. pose proof (F2_and _ _ _ _ F K) as H. revert H. apply F2_imp. intros g v _ _ [P L]. unfold makes, dims_made.
  apply (F2_imp (fun gd d => (d_name d = g_name gd /\ d_unlimited d = g_unlimited gd /\ (d_lo d <= d_hi d <= g_len gd)%nat) /\ len_of m d = g_len gd)); [tauto|]. apply F2_and; [apply (po_dims g v P)|exact L].
Qed.

Lemma complete_keeps G (PR : proper G) c1 f : Forall2 wpart G (c_vars c1) -> readable G c1 -> complete G c1 f -> keeps G (c_attrs c1) f.
Proof.
  intros F [NA RD] OK. split; [|split].
  - destruct OK as (St & _ & _). apply (st_names _ _ _ _ _ St).
  - destruct OK as (_ & A & _). rewrite A. intros k a. now apply attrs_get.
  - intros g I. destruct (F2_left _ _ _ g F I) as (v & Iv & P). destruct (RD g v I Iv (wp_name g v P)) as [NC CM]. split; [|split; [|split]].
    + now apply (reads_dims_ok G PR c1).
    + now apply (reads_values_ok G PR c1).
    + now apply (reads_mask_ok G PR c1 f OK F g I v).
    + now apply (reads_attrs_ok G PR c1).
Qed.

Lemma append_keeps G c1 cs : proper G -> parts_of G (c1 :: cs) -> knows d_size G c1 -> readable G c1 ->
  exists f, write_append false false (c1 :: cs) = Ok f /\ keeps G (c_attrs c1) f.
Proof.
  intros PR P K R. pose proof (proj1 P c1 (or_introl eq_refl)) as F1.
  destruct (append_complete false G PR c1 cs (weaken_parts _ _ P) (knows_makes NORMAL G c1 F1 K)) as (f & E & C). exists f. split; [exact E|]. apply (complete_keeps G PR c1); auto. now apply weaken_all.
Qed.

Lemma parallel_keeps G c1 c2 cs : proper G -> parts_of G (c1 :: c2 :: cs) -> knows d_global G c1 -> readable G c1 ->
  exists f, write_parallel false false (map (fun c => Tree c []) (c1 :: c2 :: cs)) = Ok (GFile f []) /\ keeps G (c_attrs c1) f.
Proof.
  intros PR P K R. pose proof (proj1 P c1 (or_introl eq_refl)) as F1.
  destruct (parallel_complete false G PR c1 c2 cs (weaken_parts _ _ P) (knows_makes TEMPLATE G c1 F1 K)) as (f & E & C). exists f. split; [exact E|]. apply (complete_keeps G PR c1); auto. now apply weaken_all.
Qed.

Lemma parallel_byte G c1 c2 cs f g v : proper G -> parts_of G (c1 :: c2 :: cs) -> knows d_global G c1 ->
  write_parallel false false (map (fun c => Tree c []) (c1 :: c2 :: cs)) = Ok (GFile f []) -> In g G -> In v (c_vars c1) -> v_name v = gname g ->
  gbyte g = true -> ~ (exists a, In ("_FillValue", a) (gattrs g)) -> (forall z, ~ In ("missing_value", ANum z) (gattrs g)) ->
  (forall idx, in_block (v_dims v) idx -> gmask g idx = false) ->
  forall bounds r, block_of g bounds -> read_variable bounds (gname g) f = Ok r -> forall i, in_bounds bounds i -> mask_at (r_mask r) i = false.
Proof.
  intros PR P K E I Iv En B NF NM NB. pose proof (proj1 P c1 (or_introl eq_refl)) as F1. pose proof (weaken_all _ _ F1) as W1.
  destruct (parallel_complete false G PR c1 c2 cs (weaken_parts _ _ P) (knows_makes TEMPLATE G c1 F1 K)) as (f' & E' & C). rewrite E in E'. injection E' as <-.
  assert (PV : wpart g v).
  { destruct (F2_right _ _ _ v W1 Iv) as (h & Ih & Ph). rewrite (wp_name h v Ph) in En. apply (names_inj G PR) in En; auto. now subst h. }
  apply (byte_no_mask G PR c1 f C W1 g I v); auto.
  unfold has_masked_values. destruct (v_mask v) as [m|] eqn:EM; [|reflexivity]. apply Bool.not_true_iff_false. intro X. apply existsb_exists in X. destruct X as (j & Ij & Mj). apply in_indices in Ij. unfold shape in Ij.
  assert (Z : exists idx, in_block (v_dims v) idx /\ place (v_dims v) idx = j).
  { unfold in_block, place. clear - Ij. revert j Ij. induction (v_dims v) as [|d l IH]; intros j Ij; cbn [map] in Ij; inversion Ij; subst.
    - exists []. split; [constructor|reflexivity].
    - destruct (IH _ H3) as (idx & Q1 & Q2). exists ((d_lo d + x)%nat :: idx). split; [constructor; [lia|exact Q1]|]. cbn [combine map fst snd]. rewrite Q2. f_equal. lia. }
  destruct Z as (idx & Z1 & Z2). pose proof (wp_mask g v PV idx Z1) as M. rewrite EM, Z2 in M. cbn [mask_at] in M. rewrite (NB idx Z1) in M. congruence.
Qed.

Lemma serial_clash G c f g : proper G -> parts_of G [c] -> knows d_size G c -> write_tree false false (Tree c []) = Ok (GFile f []) -> In g G ->
  gbyte g = false -> ~ (exists a, In ("_FillValue", a) (gattrs g)) -> (forall idx, in_array g idx -> gmask g idx = false) ->
  forall bounds r, block_of g bounds -> read_variable bounds (gname g) f = Ok r -> forall i, in_bounds bounds i -> gvalue g (shift bounds i) = gdefault g -> mask_at (r_mask r) i = true.
Proof.
  intros PR P K E I. pose proof (proj1 P c (or_introl eq_refl)) as F1. pose proof (weaken_all _ _ F1) as W1.
  destruct (append_complete false G PR c [] (weaken_parts _ _ P) (knows_makes NORMAL G c F1 K)) as (f' & E' & C). unfold write_append in E'. cbn [write_tree] in E.
  destruct (write_collection NORMAL false false c empty_file) as [x|]; [|discriminate]. cbn [bind fold_res] in *. injection E as <-. injection E' as <-. now apply (clash_masked G PR c).
Qed.

Lemma whole_readable G c : whole G c -> readable G c.
Proof.
  intros (PR & P & K & _ & NA & H). split; [exact NA|]. intros g v I Iv En. destruct (H g I) as [NC D]. split; [exact NC|].
  unfold can_mask. destruct D as [D|[D|D]]; [now left| |now right; left].
  destruct (in_dec Bool.bool_dec true (map (gmask g) (indices (map g_len (gdims g))))) as [X|X].
  - right. right. right. split; [exact D|]. apply in_map_iff in X. destruct X as (idx & M & J). apply in_indices in J.
    assert (A : in_array g idx). { unfold in_array. clear - J. revert idx J. induction (gdims g) as [|d t IH]; intros idx J; cbn [map] in J; inversion J; subst; constructor; auto. }
    destruct (proj2 P g idx I A) as (c' & v' & [<-|[]] & Iv' & En' & B). exists idx. split; [|exact M].
    assert (v' = v) as <-; [|exact B]. rewrite <- En' in En.
    assert (N : NoDup (map v_name (c_vars c))).
    { pose proof (pr_names G PR) as N. pose proof (proj1 P c (or_introl eq_refl)) as F. replace (map v_name (c_vars c)) with (map gname G); [exact N|]. clear - F.
      induction F as [|a b l1 l2 Pa F IH]; cbn [map]; [reflexivity|]. now rewrite IH, (po_name a b Pa). }
    clear - N En Iv Iv'. induction (c_vars c) as [|a t IH]; [easy|]. cbn [map] in N. inversion N as [|? ? N1 N2]. subst. destruct Iv as [->|Iv], Iv' as [->|Iv']; auto.
    + exfalso. apply N1. rewrite En. now apply in_map.
    + exfalso. apply N1. rewrite <- En. now apply in_map.
  - right. right. left. intros idx A. destruct (gmask g idx) eqn:M; [|reflexivity]. exfalso. apply X. rewrite <- M. apply in_map. apply in_indices. unfold in_array in A. clear - A.
    induction A; cbn [map]; constructor; auto.
Qed.

Lemma normal_keeps G c : whole G c -> exists f, write_collection NORMAL false false c empty_file = Ok f /\ keeps G (c_attrs c) f.
Proof.
  intro W. pose proof W as (PR & P & K & _). destruct (append_keeps G c [] PR P K (whole_readable G c W)) as (f & E & H). exists f. split; [|exact H].
  unfold write_append in E. destruct (write_collection NORMAL false false c empty_file) as [x|]; [|discriminate]. exact E.
Qed.

(** * Groups *)
Section TreeInd.
  Variable P : tree -> Prop.
  Hypothesis H : forall c ch, (forall k t, In (k, t) ch -> P t) -> P (Tree c ch).
  Fixpoint tree_rec2 (t : tree) : P t :=
    match t with
    | Tree c ch => H c ch ((fix go (l : list (string * tree)) : forall k t, In (k, t) l -> P t :=
                              match l with
                              | [] => fun k t I => match I with end
                              | (k0, t0) :: l' => fun k t I =>
                                  match I with
                                  | or_introl E => eq_ind t0 P (tree_rec2 t0) t (f_equal snd E)
                                  | or_intror I' => go l' k t I'
                                  end
                              end) ch)
    end.
End TreeInd.

Lemma tree_keeps : forall t, (forall p c, node t p c -> exists G, whole G c) ->
  exists gf, write_tree false false t = Ok gf /\
    (forall p c, node t p c -> exists f, gnode gf p f /\ forall G, whole G c -> keeps G (c_attrs c) f) /\
    (forall p f, gnode gf p f -> exists c, node t p c /\ forall G, whole G c -> keeps G (c_attrs c) f).
Proof.
  induction t as [c ch IH] using tree_rec2. intro W.
  destruct (W [] c (node_here c ch)) as [G0 W0]. destruct (normal_keeps G0 c W0) as (f & E & _).
  assert (KF : forall G, whole G c -> keeps G (c_attrs c) f).
  { intros G WG. destruct (normal_keeps G c WG) as (f' & E' & K'). rewrite E in E'. now injection E' as <-. }
  set (go := fix go l := match l with [] => Ok [] | (k, t') :: l' => do g <- write_tree false false t'; do r <- go l'; Ok ((k, g) :: r) end : res (list (string * gfile))).
  assert (S : forall l, (forall k t, In (k, t) l -> In (k, t) ch) -> exists gs, go l = Ok gs /\
     Forall2 (fun kt kg => fst kt = fst kg /\ (forall p c, node (snd kt) p c -> exists f, gnode (snd kg) p f /\ forall G, whole G c -> keeps G (c_attrs c) f) /\
        (forall p f, gnode (snd kg) p f -> exists c, node (snd kt) p c /\ forall G, whole G c -> keeps G (c_attrs c) f)) l gs).
  { induction l as [|[k t] l IHl]; intro SUB.
    - exists []. split; [reflexivity|constructor].
    - destruct (IH k t) as (g & Eg & G1 & G2); [apply SUB; now left| |].
      { intros p c' Np. apply (W (k :: p)). apply (node_child c ch k t p c'); [apply SUB; now left|exact Np]. }
      destruct IHl as (gs & Egs & F); [intros k' t' X; apply SUB; now right|]. exists ((k, g) :: gs). split.
      + cbn [go]. rewrite Eg. cbn [bind]. fold go. rewrite Egs. reflexivity.
      + constructor; [|exact F]. cbn [fst snd]. split; [reflexivity|]. now split. }
  destruct (S ch (fun k t X => X)) as (gs & Egs & F). exists (GFile f gs). split; [|split].
  - cbn [write_tree]. rewrite E. cbn [bind]. fold go. rewrite Egs. reflexivity.
  - intros p c' N. inversion N as [|? ? k t p' ? Ik Nk]; subst.
    + exists f. split; [constructor|exact KF].
    + destruct (F2_left _ _ _ _ F Ik) as ([k' g] & Ig & Ek & A & B). cbn [fst snd] in *. subst k'. destruct (A _ _ Nk) as (f' & Gf & Kf). exists f'. split; [|exact Kf]. now apply (gnode_child f gs k g).
  - intros p f' N. inversion N as [|? ? k g p' ? Ik Nk]; subst.
    + exists c. split; [constructor|exact KF].
    + destruct (F2_right _ _ _ _ F Ik) as ([k' t] & It & Ek & A & B). cbn [fst snd] in *. subst k'. destruct (B _ _ Nk) as (c' & Nc & Kc). exists c'. split; [|exact Kc]. now apply (node_child c ch k t).
Qed.

Lemma parallel_groups fixed file_only : forall ranks, (2 <= List.length ranks)%nat -> (exists c k t ch, In (Tree c ((k, t) :: ch)) ranks) -> forall gf, write_parallel fixed file_only ranks <> Ok gf.
Proof.
  intros ranks L (c & k & t & ch & I) gf. unfold write_parallel. destruct ranks as [|[c0 ch0] [|t2 rest]]; cbn [List.length] in L; try lia.
  destruct (write_collection TEMPLATE fixed file_only c0 empty_file) as [f|e]; cbn [bind]; [|discriminate]. destruct ch0 as [|x ch0]; [|discriminate].
  set (step := fun f t => _). assert (X : forall l f, In (Tree c ((k, t) :: ch)) l -> forall g, fold_res step l f <> Ok g).
  { induction l as [|y l IHl]; intros f0 J g; [easy|]. cbn [fold_res]. destruct J as [->|J].
    - unfold step at 1. discriminate.
    - destruct (step f0 y); cbn [bind]; [now apply IHl|discriminate]. }
  specialize (X _ f I). destruct (fold_res step _ f) as [g|e]; cbn [bind]; [|discriminate]. exfalso. now apply (X g).
Qed.

(** * Fixed sizes *)
Lemma whole_dims G c g v d : whole G c -> In g G -> part_of g v -> In v (c_vars c) -> In d (v_dims v) -> d_lo d = 0%nat.
Proof.
  intros (PR & P & _) I PV Iv Id.
  assert (A : in_array g (map (fun _ => 0%nat) (gdims g))).
  { unfold in_array. assert (H : forall d, In d (gdims g) -> (0 < g_len d)%nat) by (intros e X; now apply (pr_full G PR g e I)). revert H. generalize (gdims g). induction l as [|e t IH]; intro H; cbn [map]; constructor; [apply H; now left|]. apply IH. intros x X. apply H. now right. }
  destruct (proj2 P g _ I A) as (c' & v' & [<-|[]] & Iv' & En & B).
  assert (v' = v) as ->.
  { rewrite <- (po_name g v PV) in En. assert (N : NoDup (map v_name (c_vars c))).
    { pose proof (pr_names G PR) as N. pose proof (proj1 P c (or_introl eq_refl)) as F. replace (map v_name (c_vars c)) with (map gname G); [exact N|]. clear - F.
      induction F as [|a b l1 l2 Pa F IH]; cbn [map]; [reflexivity|]. now rewrite IH, (po_name a b Pa). }
    clear - N En Iv Iv'. induction (c_vars c) as [|a t IH]; [easy|]. cbn [map] in N. inversion N as [|? ? N1 N2]. subst. destruct Iv as [->|Iv], Iv' as [->|Iv']; auto.
    - exfalso. apply N1. rewrite <- En. now apply in_map.
    - exfalso. apply N1. rewrite En. now apply in_map. }
  unfold in_block in B. clear - B Id. revert B. generalize (gdims g). induction (v_dims v) as [|e t IH]; intros l B; [easy|]. destruct l as [|x l]; cbn [map] in B; inversion B; subst. destruct Id as [->|Id]; [lia|]. now apply (IH Id l).
Qed.

Lemma whole_tops G c g v : whole G c -> In g G -> part_of g v -> In v (c_vars c) -> Forall2 (fun gd d => d_hi d = g_len gd) (gdims g) (v_dims v).
Proof.
  intros (PR & P & _) I PV Iv.
  assert (A : in_array g (map (fun d => Nat.pred (g_len d)) (gdims g))).
  { unfold in_array. assert (H : forall d, In d (gdims g) -> (0 < g_len d)%nat) by (intros e X; now apply (pr_full G PR g e I)). revert H. generalize (gdims g). induction l as [|e t IH]; intro H; cbn [map]; constructor; [specialize (H e (or_introl eq_refl)); lia|]. apply IH. intros x X. apply H. now right. }
  destruct (proj2 P g _ I A) as (c' & v' & [<-|[]] & Iv' & En & B).
  assert (v' = v) as ->.
  { rewrite <- (po_name g v PV) in En. assert (N : NoDup (map v_name (c_vars c))).
    { pose proof (pr_names G PR) as N. pose proof (proj1 P c (or_introl eq_refl)) as F. replace (map v_name (c_vars c)) with (map gname G); [exact N|]. clear - F.
      induction F as [|a b l1 l2 Pa F IH]; cbn [map]; [reflexivity|]. now rewrite IH, (po_name a b Pa). }
    clear - N En Iv Iv'. induction (c_vars c) as [|a t IH]; [easy|]. cbn [map] in N. inversion N as [|? ? N1 N2]. subst. destruct Iv as [->|Iv], Iv' as [->|Iv']; auto.
    - exfalso. apply N1. rewrite <- En. now apply in_map.
    - exfalso. apply N1. rewrite En. now apply in_map. }
  pose proof (po_dims g v PV) as F. unfold in_block in B. clear - B F. revert B. induction F as [|gd d l1 l2 (_ & _ & L) F IH]; intro B; constructor; cbn [map] in B; inversion B; subst; [lia|auto].
Qed.

Definition fixg (d : gdim) : gdim := mkgdim (g_name d) false (g_len d).

Lemma fixed_proper G : proper G -> proper (map fixed_array G).
Proof.
  intros [A B C D]. constructor.
  - rewrite map_map. exact A.
  - intros g I. apply in_map_iff in I. destruct I as (h & <- & Ih). cbn [fixed_array gattrs]. now apply B.
  - intros g h d e Ig Ih Id Ie E. apply in_map_iff in Ig, Ih. destruct Ig as (g0 & <- & Ig), Ih as (h0 & <- & Ih). cbn [fixed_array gdims] in *.
    apply in_map_iff in Id, Ie. destruct Id as (d0 & <- & Id), Ie as (e0 & <- & Ie). cbn [g_name] in E. now rewrite (C g0 h0 d0 e0 Ig Ih Id Ie E).
  - intros g d Ig Id. apply in_map_iff in Ig. destruct Ig as (g0 & <- & Ig). cbn [fixed_array gdims] in Id. apply in_map_iff in Id. destruct Id as (d0 & <- & Id). cbn [g_len]. now apply (D g0).
Qed.

Lemma fixed_array_in g idx : in_array (fixed_array g) idx <-> in_array g idx.
Proof.
  unfold in_array. cbn [fixed_array gdims]. revert idx. induction (gdims g) as [|d t IH]; intro idx; cbn [map].
  - reflexivity.
  - split; intro H; inversion H; subst; constructor; auto; now apply IH.
Qed.

Lemma fixed_wpart g v : wpart g v -> wpart (fixed_array g) v.
Proof.
  intros [A B C D E F]. constructor; auto. cbn [fixed_array gdims]. clear - B. induction B as [|gd d l1 l2 H B IH]; cbn [map]; constructor; auto.
Qed.

Lemma F2_mapl {A B C} (h : A -> B) (R : B -> C -> Prop) l1 l2 : Forall2 (fun a c => R (h a) c) l1 l2 -> Forall2 R (map h l1) l2.
Proof. induction 1; cbn [map]; constructor; auto. Qed.

Lemma to_fixed_makes : forall gl l, (List.length (filter g_unlimited gl) <= 1)%nat ->
  Forall2 (fun gd d => d_name d = g_name gd /\ d_unlimited d = g_unlimited gd /\ d_hi d = g_len gd /\ d_size d = g_len gd /\ d_lo d = 0%nat) gl l ->
  Forall2 (fun gd d => d_name d = g_name gd /\ d_unlimited d = g_unlimited gd /\ d_size d = g_len gd) (map fixg gl) (to_fixed l).
Proof.
  assert (NF : forall gl l, filter g_unlimited gl = [] ->
    Forall2 (fun gd d => d_name d = g_name gd /\ d_unlimited d = g_unlimited gd /\ d_hi d = g_len gd /\ d_size d = g_len gd /\ d_lo d = 0%nat) gl l ->
    Forall2 (fun gd d => d_name d = g_name gd /\ d_unlimited d = g_unlimited gd /\ d_size d = g_len gd) (map fixg gl) l).
  { intros gl l X F. revert X. induction F as [|gd d gl l (A & B & C & D & E) F IH]; intro X; cbn [map]; constructor; cbn [filter] in X; destruct (g_unlimited gd) eqn:U; try discriminate; auto. }
  intros gl l X F. revert X. induction F as [|gd d gl l (A & B & C & D & E) F IH]; intro X; cbn [map to_fixed]; [constructor|]. cbn [filter] in X. rewrite B. destruct (g_unlimited gd) eqn:U.
  - cbn [List.length] in X. constructor; [cbn [fixg g_name g_unlimited g_len d_name d_unlimited d_size]; repeat split; auto; lia|]. apply NF; [destruct (filter g_unlimited gl); [reflexivity|cbn [List.length] in X; lia]|exact F].
  - constructor; [|now apply IH]. cbn [fixg g_name g_unlimited g_len]. now rewrite B.
Qed.

Lemma fixed_keeps G c : whole G c -> (forall g, In g G -> List.length (filter g_unlimited (gdims g)) <= 1)%nat ->
  exists f, write_tree true false (Tree c []) = Ok (GFile f []) /\ keeps (map fixed_array G) (c_attrs c) f.
Proof.
  intros W U. pose proof W as (PR & P & K & _ & NA & CL). pose proof (proj1 P c (or_introl eq_refl)) as F1. pose proof (fixed_proper G PR) as PR'. pose proof (whole_readable G c W) as RD.
  assert (WP : Forall2 wpart (map fixed_array G) (c_vars c)).
  { apply F2_mapl. apply (F2_imp part_of); [|exact F1]. intros g v _ _ X. now apply fixed_wpart, weaken. }
  destruct (append_complete true (map fixed_array G) PR' c []) as (f & E & C).
  - split; [intros c' [<-|[]]; exact WP|]. intros g idx I A. apply in_map_iff in I. destruct I as (g0 & <- & I). apply (proj1 (fixed_array_in g0 idx)) in A. destruct (proj2 P g0 idx I A) as (c' & v & H). exists c', v. exact H.
  - apply F2_mapl. pose proof (F2_and _ _ _ _ F1 K) as H. revert H. apply F2_imp. intros g v Ig Iv [Pv Kv]. unfold makes, dims_made. cbn [len_of fixed_array gdims].
    apply (to_fixed_makes (gdims g) (v_dims v)); [now apply U|].
    pose proof (F2_and _ _ _ _ (po_dims g v Pv) (F2_and _ _ _ _ Kv (whole_tops G c g v W Ig Pv Iv))) as H. revert H. apply F2_imp. intros gd d Igd Id ((A & B & _) & L1 & L2). repeat split; auto. now apply (whole_dims G c g v).
  - exists f. split.
    + unfold write_append in E. cbn [write_tree]. destruct (write_collection NORMAL true false c empty_file) as [x|]; [|discriminate]. cbn [bind fold_res] in *. now injection E as <-.
    + apply (complete_keeps _ PR' c); auto. split; [exact NA|]. intros g v I Iv En. apply in_map_iff in I. destruct I as (g0 & <- & I). destruct RD as [_ RD]. destruct (RD g0 v I Iv En) as [NC CM]. split.
      * intros idx A. apply (NC idx), fixed_array_in, A.
      * destruct CM as [CM|[CM|[CM|[CM1 CM2]]]]; [now left|now right; left|right; right; left|right; right; right].
        -- intros idx A. apply CM, fixed_array_in, A.
        -- split; [|exact CM2]. cbn [fixed_array gdims]. destruct (gdims g0); [congruence|discriminate].
Qed.

(** * Strings *)
Lemma put_chars_ok : forall s row col c, (row < ch_rows c)%nat -> (col + String.length s <= ch_width c)%nat ->
  exists c', put_chars row col s c = Ok c' /\ ch_rows c' = ch_rows c /\ ch_width c' = ch_width c /\
    forall i j, ch_at c' i j = if Nat.eqb i row && Nat.leb col j && Nat.ltb j (col + String.length s) then String.get (j - col) s else ch_at c i j.
Proof.
  induction s as [|a s IH]; intros row col c R W; cbn [put_chars String.length] in *.
  - exists c. repeat split. intros i j. replace (Nat.leb col j && Nat.ltb j (col + 0)) with false by lia. rewrite <- andb_assoc. replace (Nat.leb col j && Nat.ltb j (col + 0)) with false by lia. now rewrite andb_false_r.
  - replace (Nat.ltb row (ch_rows c) && Nat.ltb col (ch_width c)) with true by lia.
    destruct (IH row (S col) (mkschars (ch_rows c) (ch_width c) (fun i j => if Nat.eqb i row && Nat.eqb j col then Some a else ch_at c i j))) as (c' & E & A & B & H); [exact R|cbn [ch_width]; lia|].
    exists c'. split; [exact E|]. split; [exact A|]. split; [exact B|]. intros i j. rewrite H. cbn [ch_at]. destruct (Nat.eqb i row) eqn:Ei; cbn [andb]; [|reflexivity].
    destruct (Nat.eqb j col) eqn:Ej.
    + apply Nat.eqb_eq in Ej. subst j. replace (Nat.leb (S col) col) with false by lia. cbn [andb]. rewrite Nat.leb_refl. cbn [andb]. replace (Nat.ltb col (col + S (String.length s))) with true by lia. now rewrite Nat.sub_diag.
    + apply Nat.eqb_neq in Ej. destruct (Nat.leb (S col) j && Nat.ltb j (S col + String.length s)) eqn:Q.
      * replace (Nat.leb col j && Nat.ltb j (col + S (String.length s))) with true by lia. replace (j - col)%nat with (S (j - S col)) by lia. reflexivity.
      * replace (Nat.leb col j && Nat.ltb j (col + S (String.length s))) with false by lia. reflexivity.
Qed.

Lemma put_chars_long : forall s row col c, (col <= ch_width c)%nat -> (ch_width c < col + String.length s)%nat -> put_chars row col s c = Err IndexError.
Proof.
  induction s as [|a s IH]; intros row col c L W; cbn [put_chars String.length] in *; [lia|].
  destruct (Nat.ltb row (ch_rows c) && Nat.ltb col (ch_width c)) eqn:B; [|reflexivity]. apply IH; cbn [ch_width]; lia.
Qed.

Lemma put_strings_ok : forall l row c, (row + List.length l <= ch_rows c)%nat -> (forall s, In s l -> (String.length s <= ch_width c)%nat) ->
  exists c', put_strings row l c = Ok c' /\ ch_rows c' = ch_rows c /\ ch_width c' = ch_width c /\
    forall i j, ch_at c' i j = if Nat.leb row i && Nat.ltb i (row + List.length l) && Nat.ltb j (String.length (nth (i - row) l "")) then String.get j (nth (i - row) l "") else ch_at c i j.
Proof.
  induction l as [|s l IH]; intros row c R W; cbn [put_strings List.length] in *.
  - exists c. repeat split. intros i j. replace (Nat.leb row i && Nat.ltb i (row + 0)) with false by lia. reflexivity.
  - destruct (put_chars_ok s row 0 c) as (c1 & E1 & A1 & B1 & H1); [lia|apply W; now left|]. rewrite E1. cbn [bind].
    destruct (IH (S row) c1) as (c2 & E2 & A2 & B2 & H2); [lia|intros x X; rewrite B1; apply W; now right|].
    exists c2. split; [exact E2|]. split; [congruence|]. split; [congruence|]. intros i j. rewrite H2, H1.
    destruct (Nat.eqb i row) eqn:Ei.
    + apply Nat.eqb_eq in Ei. subst i. replace (Nat.leb (S row) row) with false by lia. cbn [andb]. rewrite Nat.leb_refl, Nat.sub_diag. replace (Nat.ltb row (row + S (List.length l))) with true by lia.
      cbn [andb nth Nat.leb Nat.add]. now rewrite Nat.sub_0_r.
    + apply Nat.eqb_neq in Ei. cbn [andb]. destruct (Nat.leb (S row) i && Nat.ltb i (S row + List.length l)) eqn:Q.
      * replace (Nat.leb row i && Nat.ltb i (row + S (List.length l))) with true by lia. replace (i - row)%nat with (S (i - S row)) by lia. reflexivity.
      * replace (Nat.leb row i && Nat.ltb i (row + S (List.length l))) with false by lia. reflexivity.
Qed.

Lemma put_strings_long : forall l row c, (row + List.length l <= ch_rows c)%nat -> (exists s, In s l /\ (ch_width c < String.length s)%nat) -> put_strings row l c = Err IndexError.
Proof.
  induction l as [|s l IH]; intros row c R (x & I & L); [easy|]. cbn [put_strings List.length] in *. destruct (Nat.leb (String.length s) (ch_width c)) eqn:B.
  - apply Nat.leb_le in B. destruct (put_chars_ok s row 0 c) as (c1 & E1 & A1 & B1 & _); [lia|exact B|]. rewrite E1. cbn [bind]. apply IH; [lia|]. exists x. destruct I as [->|I]; [lia|]. split; [exact I|lia].
  - apply Nat.leb_gt in B. rewrite put_chars_long; [reflexivity|lia|lia].
Qed.

Definition right_row (l : list string) (c : schars) (i : nat) : Prop := forall j, ch_at c i j = String.get j (nth i l "").
Definition blank_row (c : schars) (i : nat) : Prop := forall j, ch_at c i j = None.

Lemma get_short : forall s j, (String.length s <= j)%nat -> String.get j s = None.
Proof. induction s as [|a s IH]; intros j L; cbn [String.length] in L; [now destruct j|]. destruct j; [lia|]. cbn [String.get]. apply IH. lia. Qed.

Lemma nth_part (l : list string) lo hi i : (lo <= i < hi)%nat -> (hi <= List.length l)%nat -> nth (i - lo) (firstn (hi - lo) (skipn lo l)) "" = nth i l "".
Proof.
  intros H L. assert (X : forall (n : nat) (m : list string) k, (k < n)%nat -> nth k (firstn n m) "" = nth k m "").
  { induction n as [|n IH]; intros m k K; [lia|]. destruct m as [|a m]; [now destruct k|]. destruct k; cbn [firstn nth]; [reflexivity|]. apply IH. lia. }
  rewrite X by lia. assert (Y : forall lo (m : list string) k, nth k (skipn lo m) "" = nth (lo + k) m "").
  { induction lo0 as [|n IH]; intros m k; [reflexivity|]. destruct m as [|a m]; [now destruct k|]. cbn [skipn]. rewrite IH. reflexivity. }
  rewrite Y. f_equal. lia.
Qed.

Lemma fold_parts l : forall parts c, (forall s, In s parts -> string_part l s) -> ch_rows c = List.length l -> (forall x, In x l -> (String.length x <= ch_width c)%nat) ->
  (forall i, right_row l c i \/ blank_row c i) ->
  exists c', fold_res (fun c s => put_strings (d_lo (s_dim s)) (s_vals s) c) parts c = Ok c' /\ ch_rows c' = ch_rows c /\ ch_width c' = ch_width c /\
    (forall i, right_row l c i -> right_row l c' i) /\ (forall s i, In s parts -> (d_lo (s_dim s) <= i < d_hi (s_dim s))%nat -> right_row l c' i).
Proof.
  induction parts as [|s parts IH]; intros c P R W RB; cbn [fold_res].
  - exists c. repeat split; auto. easy.
  - destruct (P s (or_introl eq_refl)) as (B & _ & V).
    assert (LEN : List.length (s_vals s) = (d_hi (s_dim s) - d_lo (s_dim s))%nat) by (rewrite V, firstn_length, skipn_length; lia).
    destruct (put_strings_ok (s_vals s) (d_lo (s_dim s)) c) as (c1 & E1 & A1 & B1 & H1); [lia| |].
    { intros x X. apply W. rewrite V in X. rewrite <- (firstn_skipn (d_lo (s_dim s)) l). apply in_or_app. right. rewrite <- (firstn_skipn (d_hi (s_dim s) - d_lo (s_dim s)) (skipn (d_lo (s_dim s)) l)). apply in_or_app. now left. }
    rewrite E1. cbn [bind].
    assert (IN : forall i, (d_lo (s_dim s) <= i < d_hi (s_dim s))%nat -> right_row l c1 i).
    { intros i Hi j. rewrite H1, LEN. replace (Nat.leb (d_lo (s_dim s)) i && Nat.ltb i (d_lo (s_dim s) + (d_hi (s_dim s) - d_lo (s_dim s)))) with true by lia. cbn [andb].
      rewrite V, nth_part by lia. destruct (Nat.ltb j (String.length (nth i l ""))) eqn:Q; [reflexivity|]. apply Nat.ltb_ge in Q. rewrite get_short by exact Q.
      destruct (RB i) as [X|X]; [rewrite X; now apply get_short|apply X]. }
    assert (OUT : forall i, ~ (d_lo (s_dim s) <= i < d_hi (s_dim s))%nat -> forall j, ch_at c1 i j = ch_at c i j).
    { intros i Hi j. rewrite H1, LEN. replace (Nat.leb (d_lo (s_dim s)) i && Nat.ltb i (d_lo (s_dim s) + (d_hi (s_dim s) - d_lo (s_dim s)))) with false by lia. reflexivity. }
    assert (CASE : forall i, (d_lo (s_dim s) <= i < d_hi (s_dim s))%nat \/ ~ (d_lo (s_dim s) <= i < d_hi (s_dim s))%nat) by (intro i; lia).
    assert (KEEP : forall i, right_row l c i -> right_row l c1 i).
    { intros i X. destruct (CASE i) as [Y|Y]; [now apply IN|]. intro j. rewrite OUT by exact Y. apply X. }
    destruct (IH c1) as (c2 & E2 & A2 & B2 & K2 & S2).
    { intros x X. apply P. now right. } { congruence. } { intros x X. rewrite B1. now apply W. }
    { intro i. destruct (CASE i) as [Y|Y]; [left; now apply IN|]. destruct (RB i) as [X|X]; [left; now apply KEEP|right]. intro j. rewrite OUT by exact Y. apply X. }
    exists c2. split; [exact E2|]. split; [congruence|]. split; [congruence|]. split; [auto|]. intros x i [<-|X] Hi; [now apply K2, IN|now apply (S2 x)].
Qed.

Lemma longest_le l x : In x l -> (String.length x <= longest l)%nat.
Proof. unfold longest. induction l as [|a l IH]; [easy|]; intros [->|I]; cbn [map fold_right]; [lia|]. specialize (IH I). lia. Qed.
Lemma longest_in l : (0 < longest l)%nat -> exists x, In x l /\ String.length x = longest l.
Proof.
  unfold longest. induction l as [|a l IH]; cbn [map fold_right]; [lia|]. intro H. destruct (Nat.leb (fold_right Nat.max 0%nat (map String.length l)) (String.length a)) eqn:B.
  - apply Nat.leb_le in B. exists a. split; [now left|lia].
  - apply Nat.leb_gt in B. destruct IH as (x & I & E); [lia|]. exists x. split; [now right|lia].
Qed.

Lemma strings_ok l r parts : string_parts l (r :: parts) -> (forall n, s_max r = Some n -> (longest l <= n)%nat) ->
  exists c, write_strings (r :: parts) = Ok c /\ ch_rows c = List.length l /\ forall i, (i < List.length l)%nat -> spells c i (nth i l "").
Proof.
  intros [P C] M. unfold write_strings. set (w := string_max (r :: parts)).
  assert (LW : (longest l <= w)%nat).
  { unfold w, string_max. destruct (s_max r) as [n|] eqn:EM; [now apply M|]. destruct (Nat.eqb (longest l) 0) eqn:Z0; [lia|].
    destruct (longest_in l) as (x & Ix & Lx); [lia|]. rewrite <- Lx. apply In_nth with (d := "") in Ix. destruct Ix as (i & Hi & En). destruct (C i Hi) as (s & Is & Bs).
    destruct (P s Is) as (B & _ & V). assert (X : In x (s_vals s)).
    { rewrite <- En. rewrite <- (nth_part l (d_lo (s_dim s)) (d_hi (s_dim s)) i Bs) by lia. rewrite V. apply nth_In. rewrite firstn_length, skipn_length. lia. }
    apply longest_le in X. clear - X Is. induction (r :: parts) as [|a t IH]; [easy|]. cbn [map fold_right]. destruct Is as [->|Is]; [lia|]. specialize (IH Is). lia. }
  destruct (fold_parts l (r :: parts) (mkschars (d_global (s_dim r)) w (fun _ _ => None)) P) as (c & E & R & W & _ & S).
  { cbn [ch_rows]. apply (P r). now left. } { intros x X. cbn [ch_width]. apply longest_le in X. lia. } { intro i. now right. }
  exists c. split; [exact E|]. destruct (P r (or_introl eq_refl)) as (_ & DG & _). cbn [ch_rows ch_width] in *. split; [congruence|]. intros i Hi. destruct (C i Hi) as (s & Is & Bs). split; [lia|]. split; [|now apply (S s)].
  rewrite W. pose proof (longest_le l (nth i l "") (nth_In l "" Hi)). lia.
Qed.

Lemma put_strings_total l row c : (row + List.length l <= ch_rows c)%nat -> (exists c', put_strings row l c = Ok c' /\ ch_rows c' = ch_rows c /\ ch_width c' = ch_width c) \/ put_strings row l c = Err IndexError.
Proof.
  intro R. destruct (Nat.leb (longest l) (ch_width c)) eqn:B.
  - left. apply Nat.leb_le in B. destruct (put_strings_ok l row c R) as (c' & E & A & W & _); [intros s X; apply longest_le in X; lia|]. now exists c'.
  - right. apply Nat.leb_gt in B. apply put_strings_long; [exact R|]. destruct (longest_in l) as (x & I & E); [lia|]. exists x. split; [exact I|lia].
Qed.

Lemma fold_parts_long l x : forall parts c, (forall s, In s parts -> string_part l s) -> ch_rows c = List.length l -> (exists s, In s parts /\ In x (s_vals s)) -> (ch_width c < String.length x)%nat ->
  fold_res (fun c s => put_strings (d_lo (s_dim s)) (s_vals s) c) parts c = Err IndexError.
Proof.
  induction parts as [|s parts IH]; intros c P R (y & Iy & Ix) L; [easy|]. cbn [fold_res]. destruct (P s (or_introl eq_refl)) as (B & _ & V).
  assert (LEN : (d_lo (s_dim s) + List.length (s_vals s) <= ch_rows c)%nat) by (rewrite V, firstn_length, skipn_length; lia).
  destruct Iy as [->|Iy].
  - rewrite (put_strings_long (s_vals y) _ c); [reflexivity|exact LEN|]. now exists x.
  - destruct (put_strings_total (s_vals s) _ c LEN) as [(c' & E & A & W)|E]; rewrite E; cbn [bind]; [|reflexivity]. apply IH; [intros z Z; apply P; now right|congruence|now exists y|lia].
Qed.

Lemma strings_cached l r parts n x : string_parts l (r :: parts) -> s_max r = Some n -> In x l -> (n < String.length x)%nat -> write_strings (r :: parts) = Err IndexError.
Proof.
  intros [P C] M I L. unfold write_strings. apply (fold_parts_long l x); [exact P|cbn [ch_rows]; apply (P r); now left| |cbn [ch_width string_max]; rewrite M; exact L].
  apply In_nth with (d := "") in I. destruct I as (i & Hi & En). destruct (C i Hi) as (s & Is & Bs). exists s. split; [exact Is|]. destruct (P s Is) as (B & _ & V).
  rewrite <- En, <- (nth_part l (d_lo (s_dim s)) (d_hi (s_dim s)) i Bs) by lia. rewrite V. apply nth_In. rewrite firstn_length, skipn_length. lia.
Qed.

Lemma append_cut l r parts x : string_parts l (r :: parts) -> s_max r = None -> In x l -> (forall y, In y (s_vals r) -> (String.length y < String.length x)%nat) -> (0 < String.length x)%nat -> append_strings (r :: parts) = Err IndexError.
Proof.
  intros [P C] M I L Z. unfold append_strings. apply (fold_parts_long l x); [exact P|cbn [ch_rows]; apply (P r); now left| |].
  - apply In_nth with (d := "") in I. destruct I as (i & Hi & En). destruct (C i Hi) as (s & Is & Bs). exists s. split; [exact Is|]. destruct (P s Is) as (B & _ & V).
    rewrite <- En, <- (nth_part l (d_lo (s_dim s)) (d_hi (s_dim s)) i Bs) by lia. rewrite V. apply nth_In. rewrite firstn_length, skipn_length. lia.
  - cbn [ch_width string_max map fold_right]. rewrite M, Nat.max_0_r. destruct (Nat.eqb (longest (s_vals r)) 0) eqn:Q; [lia|]. destruct (longest_in (s_vals r)) as (y & Iy & Ly); [lia|]. rewrite <- Ly. now apply L.
Qed.

(** * Sessions *)
Definition env_after (e : envst) (l : list event) : envst := fold_left (fun e x => match x with Open s => open_source e s | _ => e end) l e.

Lemma session_app : forall l1 l2 e, session e (l1 ++ l2) = (session e l1 ++ session (env_after e l1) l2)%list.
Proof. unfold env_after. induction l1 as [|x l1 IH]; intros l2 e; [reflexivity|]. destruct x; cbn [app session fold_left]; rewrite IH; reflexivity. Qed.
Lemma session_length : forall l e, List.length (session e l) = place_of l.
Proof. unfold place_of. induction l as [|x l IH]; intro e; [reflexivity|]. destruct x; cbn [session filter visible List.length]; rewrite ?IH; reflexivity. Qed.

Lemma env_same c : forall l e, (forall s, In (Open s) l -> swaps s = true -> so_crs s = c) -> (e_crs e = None \/ e_crs e = Some c) ->
  (e_crs (env_after e l) = None \/ e_crs (env_after e l) = Some c) /\ ((exists s, In (Open s) l /\ swaps s = true) \/ e_crs e = Some c -> e_crs (env_after e l) = Some c).
Proof.
  unfold env_after. induction l as [|x l IH]; intros e H E; cbn [fold_left].
  - split; [exact E|]. intros [(s & [] & _)|X]; exact X.
  - assert (STEP : let e1 := match x with Open s => open_source e s | _ => e end in (e_crs e1 = None \/ e_crs e1 = Some c) /\ ((exists s, x = Open s /\ swaps s = true) \/ e_crs e = Some c -> e_crs e1 = Some c)).
    { destruct x as [s|s|]; cbv zeta.
      - unfold open_source. destruct (swaps s) eqn:Q.
        + cbn [e_crs]. rewrite (H s (or_introl eq_refl) Q). split; [now right|reflexivity].
        + split; [exact E|]. intros [(s' & X & Y)|X]; [injection X as <-; congruence|exact X].
      - split; [exact E|]. intros [(s' & X & Y)|X]; [discriminate|exact X].
      - split; [exact E|]. intros [(s' & X & Y)|X]; [discriminate|exact X]. }
    cbv zeta in STEP. destruct STEP as [A B]. destruct (IH _ (fun s I => H s (or_intror I)) A) as [C D]. split; [exact C|]. intros [(s & [X|X] & Y)|X]; apply D.
    + right. apply B. left. now exists s.
    + left. now exists s.
    + right. apply B. now right.
Qed.

Lemma crs_kept before s after : (forall s', In (Open s') before -> swaps s' = true -> so_crs s' = so_crs s) -> In (Open s) before ->
  nth_error (session fresh_env (before ++ Write s :: after)) (place_of before) = Some (Wrote (so_crs s)).
Proof.
  intros H I. rewrite session_app, nth_error_app2; rewrite session_length; [|lia]. rewrite Nat.sub_diag. cbn [session nth_error]. do 2 f_equal.
  destruct (env_same (so_crs s) before fresh_env H (or_introl eq_refl)) as [A B]. unfold written_crs, field_crs. destruct (swaps s) eqn:Q.
  - rewrite B; [reflexivity|]. left. now exists s.
  - destruct A as [-> | ->]; reflexivity.
Qed.

Lemma env_last : forall l e, (forall s, In (Open s) l -> swaps s = false) -> env_after e l = e.
Proof.
  unfold env_after. induction l as [|x l IH]; intros e H; [reflexivity|]. cbn [fold_left]. rewrite IH; [|intros s I; apply H; now right].
  destruct x as [s| |]; try reflexivity. unfold open_source. now rewrite (H s (or_introl eq_refl)).
Qed.

Lemma crs_taken before s' between s after : swaps s' = true -> (forall x, In (Open x) between -> swaps x = false) ->
  nth_error (session fresh_env (before ++ Open s' :: between ++ Write s :: after)) (place_of (before ++ between)) = Some (Wrote (so_crs s')).
Proof.
  intros Q H. replace (before ++ Open s' :: between ++ Write s :: after)%list with ((before ++ Open s' :: between) ++ Write s :: after)%list by (rewrite <- app_assoc; reflexivity).
  rewrite session_app, nth_error_app2; rewrite session_length; unfold place_of; rewrite !filter_app, !app_length; cbn [filter visible List.length]; [|lia]. rewrite Nat.sub_diag. cbn [session nth_error]. do 2 f_equal.
  unfold written_crs. replace (env_after fresh_env (before ++ Open s' :: between)) with (mkenv (Some (so_crs s')) false); [reflexivity|].
  symmetry. unfold env_after. rewrite fold_left_app. cbn [fold_left]. fold (env_after fresh_env before). set (e := env_after fresh_env before). unfold open_source at 2. rewrite Q. apply (env_last between _ H).
Qed.

Lemma axes_gone before s' between after : swaps s' = true -> (forall x, In (Open x) between -> swaps x = false) ->
  nth_error (session fresh_env (before ++ Open s' :: between ++ NewGrid :: after)) (place_of (before ++ between)) = Some (Axes []).
Proof.
  intros Q H. replace (before ++ Open s' :: between ++ NewGrid :: after)%list with ((before ++ Open s' :: between) ++ NewGrid :: after)%list by (rewrite <- app_assoc; reflexivity).
  rewrite session_app, nth_error_app2; rewrite session_length; unfold place_of; rewrite !filter_app, !app_length; cbn [filter visible List.length]; [|lia]. rewrite Nat.sub_diag. cbn [session nth_error]. do 2 f_equal.
  unfold grid_axis_attrs. replace (env_after fresh_env (before ++ Open s' :: between)) with (mkenv (Some (so_crs s')) false); [reflexivity|].
  symmetry. unfold env_after. rewrite fold_left_app. cbn [fold_left]. fold (env_after fresh_env before). set (e := env_after fresh_env before). unfold open_source at 2. rewrite Q. apply (env_last between _ H).
Qed.

Lemma axes_kept before after : (forall x, In (Open x) before -> swaps x = false) ->
  nth_error (session fresh_env (before ++ NewGrid :: after)) (place_of before) = Some (Axes [("x", "X"); ("y", "Y")]).
Proof.
  intro H. rewrite session_app, nth_error_app2; rewrite session_length; [|lia]. rewrite Nat.sub_diag. cbn [session nth_error]. rewrite env_last by exact H. reflexivity.
Qed.
