(** Proofs for C23. *)
From Verif Require Import Py Lib Spec PicksLib PartitionModel TimeModel TimeSpec TimeProofs CalendarProofs.
From Coq Require Import Permutation Sorted.

(** ** Sorted seasons *)
Lemma py_index_nat {A} (l : list A) i : 0 <= i < zlen l -> exists x, py_index l i = Ok x /\ nth_error l (Z.to_nat i) = Some x.
Proof.
  intros Hi. unfold py_index. destruct (Z.ltb_spec i 0); [lia|]. destruct (Z.ltb_spec i 0); [lia|]. cbn [orb].
  destruct (Z.leb_spec (zlen l) i); [lia|]. destruct (nth_error l (Z.to_nat i)) as [x|] eqn:E; [exists x; split; reflexivity|].
  exfalso. apply nth_error_None in E. unfold zlen in *. lia.
Qed.

Lemma map_res_perm {A B} (f : A -> res B) l l' : Permutation l l' -> forall r, map_res f l = Ok r -> exists r', map_res f l' = Ok r' /\ Permutation r r'.
Proof.
  induction 1 as [|x l l' HP IH|x y l|l l' l'' HP1 IH1 HP2 IH2]; intros r H.
  - exists r. split; [exact H|reflexivity].
  - cbn [map_res] in *. destruct (f x) as [z|]; cbn [bind] in *; [|discriminate]. destruct (map_res f l) as [r0|] eqn:E; cbn [bind] in H; [|discriminate].
    injection H as <-. destruct (IH r0 eq_refl) as [r' [E' HP']]. rewrite E'. cbn [bind]. eexists. split; [reflexivity|constructor; exact HP'].
  - cbn [map_res] in *. destruct (f y) as [z|]; cbn [bind] in *; [|discriminate]. destruct (f x) as [w|]; cbn [bind] in *; [|discriminate].
    destruct (map_res f l) as [r0|]; cbn [bind] in *; [|discriminate]. injection H as <-. eexists. split; [reflexivity|constructor].
  - destruct (IH1 r H) as [r1 [E1 P1]]. destruct (IH2 r1 E1) as [r2 [E2 P2]]. exists r2. split; [exact E2|]. rewrite P1. exact P2.
Qed.

Lemma fold_dset_fresh {V} : forall (l d : list (Z * V)), NoDup (map fst (d ++ l)) -> fold_left (fun d ki => dset Z.eqb d (fst ki) (snd ki)) l d = d ++ l.
Proof.
  induction l as [|[k v] t IH]; intros d H; cbn [fold_left]; [rewrite app_nil_r; reflexivity|].
  assert (E : dset Z.eqb d k v = d ++ [(k, v)]).
  { assert (Hk : ~ In k (map fst d)).
    { rewrite map_app in H. cbn [map fst] in H. apply NoDup_remove_2 in H. intros Hin. apply H. apply in_or_app. left; exact Hin. }
    clear -Hk. induction d as [|[k' v'] d IH]; [reflexivity|]. cbn [dset app]. destruct (Z.eqb_spec k k') as [->|]; [exfalso; apply Hk; left; reflexivity|].
    rewrite IH; [reflexivity|]. intros Hin. apply Hk. right; exact Hin. }
  cbn [fst snd]. rewrite E, IH; rewrite <- app_assoc; [reflexivity|exact H].
Qed.

Lemma z_extreme_in use_max l x : z_extreme use_max l = Ok x -> In x l.
Proof.
  destruct l as [|y t]; cbn [z_extreme]; [discriminate|]. intros H. injection H as <-. revert y. induction t as [|z t IH]; intros y; cbn [fold_left]; [left; reflexivity|].
  destruct (IH ((if use_max then Z.max else Z.min) y z)) as [E|E]; [|right; right; exact E]. rewrite <- E.
  destruct use_max; [destruct (Z.max_spec y z) as [[_ ->]|[_ ->]]|destruct (Z.min_spec y z) as [[_ ->]|[_ ->]]]; cbn [In]; tauto.
Qed.

Lemma combine_fst {A B} : forall (l : list A) (l' : list B), List.length l = List.length l' -> map fst (combine l l') = l.
Proof. induction l as [|x t IH]; intros [|y u] H; try discriminate; [reflexivity|]. cbn [combine map fst]. rewrite IH by (injection H; tauto). reflexivity. Qed.

Lemma nth_error_combine {A B} : forall (l : list A) (l' : list B) k x y, nth_error l k = Some x -> nth_error l' k = Some y -> nth_error (combine l l') k = Some (x, y).
Proof. induction l as [|a t IH]; intros [|b u] [|k] x y H1 H2; try discriminate; cbn [combine nth_error] in *; [congruence|]. apply IH; assumption. Qed.

Lemma map_res_of_nth {A B} (f : A -> res B) : forall keys seasons, List.length keys = List.length seasons ->
  (forall i k, nth_error keys i = Some k -> exists s, nth_error seasons i = Some s /\ f k = Ok s) -> map_res f keys = Ok seasons.
Proof.
  induction keys as [|k t IH]; intros [|s u] Hlen Hall; try discriminate; [reflexivity|]. cbn [map_res].
  destruct (Hall O k eq_refl) as [s' [E1 E2]]. injection E1 as <-. rewrite E2. cbn [bind]. rewrite (IH u); [reflexivity|injection Hlen; tauto|].
  intros i k' Hk'. apply (Hall (S i) k' Hk').
Qed.

Theorem sorted_seasons_perm use_max seasons : DisjointSeasons seasons -> (forall s, In s seasons -> s <> []) ->
  exists sorted, get_sorted_seasons use_max seasons = Ok sorted /\ Permutation seasons sorted.
Proof.
  intros Hd Hne. unfold get_sorted_seasons.
  destruct (map_res_exists (z_extreme use_max) seasons) as [keys Ek].
  { intros s Hs. destruct s as [|x t]; [exfalso; apply (Hne _ Hs eq_refl)|]. eexists; reflexivity. }
  rewrite Ek. cbn [bind]. apply map_res_ok in Ek. pose proof (Forall2_len _ _ _ Ek) as Hlen.
  assert (Hkey : forall i k, nth_error keys i = Some k -> exists s, nth_error seasons i = Some s /\ In k s).
  { intros i k Hk. destruct (proj1 (nth_error_forall2 _ _ _ Ek i) k Hk) as [s [Hs Es]]. exists s. split; [exact Hs|]. eapply z_extreme_in; exact Es. }
  assert (Hnd : NoDup keys).
  { apply NoDup_nth_error. intros i j Hi E. apply nth_error_Some in Hi. destruct (nth_error keys i) as [k|] eqn:Ei; [|congruence]. symmetry in E.
    destruct (Hkey i k Ei) as [s [Hs Hks]]. destruct (Hkey j k E) as [s' [Hs' Hks']]. eapply Hd; eassumption. }
  assert (Hidx : List.length keys = List.length (zrange 0 (zlen seasons))) by (rewrite zrange_length; unfold zlen; lia).
  rewrite fold_dset_fresh by (cbn [app]; rewrite combine_fst by exact Hidx; exact Hnd). cbn [app]. rewrite combine_fst by exact Hidx.
  assert (HP : Permutation keys (z_unique keys)).
  { apply NoDup_Permutation; [exact Hnd|apply sorted_nodup, z_unique_sorted|]. intros x. symmetry. apply z_unique_in. }
  assert (E0 : map_res (fun s => match dget Z.eqb (combine keys (zrange 0 (zlen seasons))) s with Some i => py_index seasons i | None => Err KeyError end) keys = Ok seasons).
  { assert (Hall : forall i k, nth_error keys i = Some k -> exists s, nth_error seasons i = Some s /\ match dget Z.eqb (combine keys (zrange 0 (zlen seasons))) k with Some i => py_index seasons i | None => Err KeyError end = Ok s).
    { intros i k Hk. destruct (Hkey i k Hk) as [s [Hs _]]. exists s. split; [exact Hs|].
      assert (Hi : (i < List.length seasons)%nat) by (apply nth_error_Some; congruence).
      rewrite (in_dget Z.eqb Z.eqb_spec _ k (Z.of_nat i)).
      - destruct (py_index_nat seasons (Z.of_nat i)) as [x [E1 E2]]; [unfold zlen; lia|]. rewrite E1. rewrite Nat2Z.id in E2. congruence.
      - rewrite combine_fst by exact Hidx. exact Hnd.
      - eapply nth_error_In, nth_error_combine; [exact Hk|]. rewrite nth_error_zrange by (unfold zlen; lia). reflexivity. }
    apply map_res_of_nth; [congruence|exact Hall]. }
  destruct (map_res_perm _ _ _ HP _ E0) as [r' [E1 P1]]. rewrite E1. exists r'. split; [reflexivity|exact P1].
Qed.

(** ** Seasons with or without calendar years *)
Lemma disjoint_nodup seasons : DisjointSeasons seasons -> (forall s, In s seasons -> s <> []) -> NoDup seasons.
Proof.
  intros Hd Hne. apply NoDup_nth_error. intros i j Hi E. apply nth_error_Some in Hi. destruct (nth_error seasons i) as [s|] eqn:Ei; [|congruence]. symmetry in E.
  destruct s as [|m u]; [exfalso; eapply (Hne []); [eapply nth_error_In; exact Ei|reflexivity]|]. eapply (Hd i j _ _ m); [exact Ei|exact E|left; reflexivity|left; reflexivity].
Qed.

Lemma season_member_spec season year d : season_member season year d = true <-> In (dt_month d) season /\ match year with Some y => dt_year d = y | None => True end.
Proof. unfold season_member. rewrite Bool.andb_true_iff, z_mem_spec. destruct year as [y|]; [rewrite Z.eqb_eq|]; intuition congruence. Qed.

Lemma season_members_nth t season year k : nth_error (map (season_member season year) (tv_value t)) k = Some true <-> SeasonStep t (season, year) k.
Proof.
  unfold SeasonStep; cbn [fst snd]. rewrite nth_error_map. destruct (nth_error (tv_value t) k) as [d|]; cbn [option_map].
  - split.
    + intros H. injection H as H. exists d. split; [reflexivity|apply season_member_spec; exact H].
    + intros [d' [E H]]. injection E as <-. f_equal. apply season_member_spec; exact H.
  - split; [discriminate|intros [d [E _]]; discriminate].
Qed.

Lemma season_labels t seasons sorted (has_year : bool) : Permutation seasons sorted -> NoDup seasons ->
  let ys := list_prod (if has_year then map Some (z_unique (map dt_year (tv_value t))) else [None]) sorted in
  NoDup (map (fun ys => (snd ys, fst ys)) ys) /\ forall key, SeasonLabel t seasons has_year key <-> In (snd key, fst key) ys.
Proof.
  intros HP Hnd ys. assert (Hy : forall y, In y (if has_year then map Some (z_unique (map dt_year (tv_value t))) else [None]) <->
    match y with Some y => has_year = true /\ exists d, In d (tv_value t) /\ dt_year d = y | None => has_year = false end).
  { intros y. destruct has_year.
    - rewrite in_map_iff. split.
      + intros [x [<- Hx]]. split; [reflexivity|]. rewrite z_unique_in in Hx. apply in_map_iff in Hx. destruct Hx as [d [E Hd]]. exists d; tauto.
      + destruct y as [y|]; [|discriminate]. intros [_ [d [Hd <-]]]. eexists. split; [reflexivity|]. apply z_unique_in, in_map; exact Hd.
    - split; [intros [<-|[]]; reflexivity|]. destruct y as [y|]; [intros [E _]; discriminate|left; reflexivity]. }
  split.
  - apply FinFun.Injective_map_NoDup; [intros [a b] [c d] E; injection E as -> ->; reflexivity|].
    unfold ys. assert (Hn1 : NoDup (if has_year then map Some (z_unique (map dt_year (tv_value t))) else [None])).
    { destruct has_year; [apply FinFun.Injective_map_NoDup; [intros a b E; injection E; tauto|apply sorted_nodup, z_unique_sorted]|constructor; [intros []|constructor]]. }
    assert (Hn2 : NoDup sorted) by (eapply Permutation_NoDup; eassumption). clear -Hn1 Hn2. revert Hn1. generalize (if has_year then map Some (z_unique (map dt_year (tv_value t))) else [None]).
    induction l as [|y u IH]; intros Hn1; cbn [list_prod]; [constructor|]. inversion Hn1 as [|? ? Hy Hu]; subst. apply NoDup_app_intro; [|apply IH; exact Hu|].
    + apply FinFun.Injective_map_NoDup; [intros a b E; injection E; tauto|exact Hn2].
    + intros [a b] H1 H2. apply in_map_iff in H1. destruct H1 as [s [E _]]. injection E as <- <-. apply in_prod_iff in H2. tauto.
  - intros [s y]. unfold SeasonLabel; cbn [fst snd]. unfold ys. rewrite in_prod_iff, Hy.
    assert (HPi : In s seasons <-> In s sorted) by (split; apply Permutation_in; [exact HP|symmetry; exact HP]). tauto.
Qed.

Theorem grouping_seasons_spec t seasons has_year groups : GoodTime t -> DisjointSeasons seasons -> (forall s, In s seasons -> s <> []) ->
  grouping_seasons t seasons has_year = Ok groups ->
  NoDup (map g_key groups) /\
  (forall key, In key (map g_key groups) <-> SeasonLabel t seasons has_year key) /\
  (forall g, In g groups -> Encloses t g /\ (exists k, InGroup g k) /\ forall k, InGroup g k <-> SeasonStep t (g_key g) k).
Proof.
  intros Hg Hd Hne H. unfold grouping_seasons in H. destruct (sorted_seasons_perm false seasons Hd Hne) as [sorted [Es HP]]. rewrite Es in H. cbn [bind] in H.
  destruct (season_labels t seasons sorted has_year HP (disjoint_nodup _ Hd Hne)) as [HN HI]. set (ys := list_prod _ sorted) in *. clearbody ys.
  apply map_res_ok in H.
  assert (HF : Forall2 (fun ys g => g_key g = (snd ys, fst ys) /\ g_members g = map (season_member (snd ys) (fst ys)) (tv_value t) /\ Encloses t g) ys groups).
  { eapply Forall2_imp; [|exact H]. cbn beta. intros [y s] g E. destruct (group_bounds t (map (season_member s y) (tv_value t))) as [b|] eqn:Eb; cbn [bind] in E; [|discriminate].
    destruct (season_representative b s) as [r|]; cbn [bind] in E; [|discriminate]. injection E as <-. cbn [g_key g_members fst snd]. split; [reflexivity|]. split; [reflexivity|]. apply group_bounds_ok; exact Eb. }
  clear H. assert (Ekeys : map g_key groups = map (fun ys => (snd ys, fst ys)) ys).
  { clear -HF. induction HF as [|y g l l' [E _] HF IH]; [reflexivity|]. cbn [map]. rewrite IH, E. reflexivity. }
  rewrite Ekeys. split; [exact HN|]. split.
  - intros key. rewrite HI, in_map_iff. split.
    + intros [[y s] [<- Hin]]. exact Hin.
    + intros Hin. exists (snd key, fst key). split; [destruct key; reflexivity|exact Hin].
  - intros g Hin. apply In_nth_error in Hin. destruct Hin as [i Hi]. destruct (proj1 (nth_error_forall2 _ _ _ HF i) g Hi) as [[y s] [_ [E1 [E2 E3]]]]. cbn [fst snd] in *.
    split; [exact E3|]. split.
    + destruct E3 as [_ [[k [b [Hk _]]] _]]. exists k; exact Hk.
    + intros k. unfold InGroup. rewrite E1, E2. apply season_members_nth.
Qed.

Lemma season_representative_ok b s : s <> [] -> exists r, season_representative b s = Ok r.
Proof.
  intros Hs. unfold season_representative. destruct b as [lo hi]. destruct (is_interannual s); cbn [bind]; [|eexists; reflexivity].
  destruct (py_index_nat s (zlen s / 2)) as [x [E _]].
  - destruct s as [|x t]; [congruence|]. rewrite zlen_cons. pose proof (zlen_nonneg t). lia.
  - rewrite E. cbn [bind]. eexists; reflexivity.
Qed.

Theorem grouping_seasons_ok t seasons has_year : GoodTime t -> DisjointSeasons seasons -> (forall s, In s seasons -> s <> []) ->
  ((exists groups, grouping_seasons t seasons has_year = Ok groups) <-> (forall key, SeasonLabel t seasons has_year key -> exists k, SeasonStep t key k)) /\
  ((exists key, SeasonLabel t seasons has_year key /\ forall k, ~ SeasonStep t key k) -> grouping_seasons t seasons has_year = Err ValueError).
Proof.
  intros Hg Hd Hne. assert (Hexists : forall s y, existsb (fun b => b) (map (season_member s y) (tv_value t)) = true <-> exists k, SeasonStep t (s, y) k).
  { intros s y. rewrite existsb_exists. split.
    - intros [b [Hb ->]]. apply In_nth_error in Hb. destruct Hb as [k Hk]. exists k. apply season_members_nth; exact Hk.
    - intros [k Hk]. exists true. split; [|reflexivity]. apply season_members_nth in Hk. eapply nth_error_In; exact Hk. }
  assert (H2 : (exists key, SeasonLabel t seasons has_year key /\ forall k, ~ SeasonStep t key k) -> grouping_seasons t seasons has_year = Err ValueError).
  { intros [[s y] [Hl Hk]]. unfold grouping_seasons. destruct (sorted_seasons_perm false seasons Hd Hne) as [sorted [Es HP]]. rewrite Es. cbn [bind].
    destruct (season_labels t seasons sorted has_year HP (disjoint_nodup _ Hd Hne)) as [HN HI]. pose proof (proj1 (HI _) Hl) as Hin. cbn [fst snd] in Hin.
    assert (Hs : forall y s, In (y, s) (list_prod (if has_year then map Some (z_unique (map dt_year (tv_value t))) else [None]) sorted) -> s <> []).
    { intros y0 s0 H0. apply (Hne s0). apply in_prod_iff in H0. eapply Permutation_in; [symmetry; exact HP|tauto]. }
    set (ys := list_prod _ sorted) in *. clearbody ys. clear HN HI. induction ys as [|[y0 s0] u IH]; [destruct Hin|]. cbn [map_res].
    destruct (existsb (fun b => b) (map (season_member s0 y0) (tv_value t))) eqn:Ex.
    - destruct (group_bounds_succeeds t (map (season_member s0 y0) (tv_value t)) Hg) as [b Eb]; [apply map_length|exact Ex|]. rewrite Eb. cbn [bind].
      destruct (season_representative_ok b s0) as [r Er]; [apply (Hs y0); left; reflexivity|]. rewrite Er. cbn [bind].
      destruct Hin as [E|Hin]; [injection E as -> ->; exfalso; apply Hexists in Ex; destruct Ex as [k Ek]; apply (Hk k Ek)|].
      rewrite IH; [reflexivity|exact Hin|]. intros y1 s1 H1. apply (Hs y1). right; exact H1.
    - rewrite group_bounds_empty by exact Ex. reflexivity. }
  split; [|exact H2]. split.
  - intros [groups H] key Hl. destruct (grouping_seasons_spec t seasons has_year groups Hg Hd Hne H) as [_ [HK HG]]. apply HK, in_map_iff in Hl. destruct Hl as [g [<- Hin]].
    destruct (HG g Hin) as [_ [[k Hk] Hiff]]. exists k. apply Hiff; exact Hk.
  - intros Hall. unfold grouping_seasons. destruct (sorted_seasons_perm false seasons Hd Hne) as [sorted [Es HP]]. rewrite Es. cbn [bind].
    destruct (season_labels t seasons sorted has_year HP (disjoint_nodup _ Hd Hne)) as [HN HI]. apply map_res_exists. intros [y s] Hin.
    assert (Hl : SeasonLabel t seasons has_year (s, y)) by (apply HI; exact Hin). pose proof (Hall _ Hl) as Hex. apply Hexists in Hex.
    destruct (group_bounds_succeeds t (map (season_member s y) (tv_value t)) Hg) as [b Eb]; [apply map_length|exact Hex|]. cbv zeta. rewrite Eb. cbn [bind].
    destruct (season_representative_ok b s) as [r Er]; [apply Hne; apply Hl|]. rewrite Er. eexists; reflexivity.
Qed.
