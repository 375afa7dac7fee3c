(** Proofs for C22, C24, C25 and C26. *)
From Verif Require Import Py Lib Spec PicksLib PartitionModel TimeModel TimeSpec.
From Coq Require Import Sorted.

(** ** Order of dates *)
Lemma date_ltb_spec d e : date_ltb d e = true <-> DateLt d e.
Proof.
  unfold date_ltb, DateLt. cbn [map all_parts part lex_ltb].
  rewrite ?orb_true_iff, ?andb_true_iff, ?orb_true_iff, ?andb_true_iff, ?orb_true_iff, ?andb_true_iff, ?orb_true_iff, ?andb_true_iff, ?orb_true_iff, ?andb_true_iff, ?orb_true_iff, ?andb_true_iff.
  rewrite ?Z.ltb_lt, ?Z.eqb_eq. intuition (try discriminate).
Qed.

Lemma date_ltb_false d e : date_ltb d e = false <-> DateLe e d.
Proof.
  unfold DateLe. rewrite <- date_ltb_spec. destruct (date_ltb d e); split; congruence.
Qed.

Lemma date_lt_trans d e f : DateLt d e -> DateLt e f -> DateLt d f.
Proof. unfold DateLt. lia. Qed.
Lemma date_le_trans d e f : DateLe d e -> DateLe e f -> DateLe d f.
Proof. unfold DateLe, DateLt. lia. Qed.
Lemma date_le_refl d : DateLe d d.
Proof. unfold DateLe, DateLt. lia. Qed.
Lemma date_lt_le d e : DateLt d e -> DateLe d e.
Proof. unfold DateLe, DateLt. lia. Qed.

Lemma dates_min_spec l d : dates_min l = Ok d -> In d l /\ forall e, In e l -> DateLe d e.
Proof.
  destruct l as [|x t]; cbn [dates_min]; [discriminate|]. intros H. injection H as <-. revert x.
  induction t as [|y t IH]; intros x; cbn [fold_left].
  - split; [left; reflexivity|]. intros e [<-|[]]. apply date_le_refl.
  - destruct (date_ltb y x) eqn:E.
    + destruct (IH y) as [H1 H2]. apply date_ltb_spec in E. split; [right; exact H1|]. intros e [<-|H]; [|apply H2; exact H].
      eapply date_le_trans; [apply H2; left; reflexivity|apply date_lt_le; exact E].
    + destruct (IH x) as [H1 H2]. apply date_ltb_false in E. split; [destruct H1 as [H1|H1]; [left; exact H1|right; right; exact H1]|].
      intros e [<-|[<-|H]]; [apply H2; left; reflexivity| |apply H2; right; exact H].
      eapply date_le_trans; [apply H2; left; reflexivity|exact E].
Qed.

Lemma dates_max_spec l d : dates_max l = Ok d -> In d l /\ forall e, In e l -> DateLe e d.
Proof.
  destruct l as [|x t]; cbn [dates_max]; [discriminate|]. intros H. injection H as <-. revert x.
  induction t as [|y t IH]; intros x; cbn [fold_left].
  - split; [left; reflexivity|]. intros e [<-|[]]. apply date_le_refl.
  - destruct (date_ltb x y) eqn:E.
    + destruct (IH y) as [H1 H2]. apply date_ltb_spec in E. split; [right; exact H1|]. intros e [<-|H]; [|apply H2; exact H].
      eapply date_le_trans; [apply date_lt_le; exact E|apply H2; left; reflexivity].
    + destruct (IH x) as [H1 H2]. apply date_ltb_false in E. split; [destruct H1 as [H1|H1]; [left; exact H1|right; right; exact H1]|].
      intros e [<-|[<-|H]]; [apply H2; left; reflexivity| |apply H2; right; exact H].
      eapply date_le_trans; [exact E|apply H2; left; reflexivity].
Qed.

(** ** Unique values *)
Lemma z_insert_in x : forall l y, In y (z_insert x l) <-> y = x \/ In y l.
Proof.
  induction l as [|z t IH]; intros y; cbn [z_insert].
  - cbn [In]. intuition.
  - destruct (x <? z); [cbn [In]; intuition|]. destruct (Z.eqb_spec x z) as [->|]; [cbn [In]; intuition|].
    cbn [In]. rewrite IH. intuition.
Qed.
Lemma z_insert_sorted x : forall l, StronglySorted Z.lt l -> StronglySorted Z.lt (z_insert x l).
Proof.
  induction l as [|z t IH]; intros H; cbn [z_insert]; [repeat constructor|]. inversion H as [|? ? Ht HF]; subst.
  destruct (Z.ltb_spec x z) as [Hx|Hx].
  - constructor; [exact H|]. constructor; [exact Hx|]. eapply Forall_impl; [|exact HF]. cbn beta; lia.
  - destruct (Z.eqb_spec x z) as [->|Hne]; [exact H|]. constructor; [apply IH; exact Ht|].
    apply Forall_forall. intros y Hy. apply z_insert_in in Hy. rewrite Forall_forall in HF. destruct Hy as [->|Hy]; [lia|apply HF; exact Hy].
Qed.
Lemma z_unique_in l y : In y (z_unique l) <-> In y l.
Proof.
  induction l as [|x t IH]; [tauto|]. unfold z_unique in *; cbn [fold_right]. rewrite z_insert_in, IH. cbn [In]. intuition.
Qed.
Lemma z_unique_sorted l : StronglySorted Z.lt (z_unique l).
Proof. induction l as [|x t IH]; [constructor|]. unfold z_unique in *; cbn [fold_right]. apply z_insert_sorted, IH. Qed.

Lemma sorted_nodup l : StronglySorted Z.lt l -> NoDup l.
Proof.
  induction 1 as [|x t H IH HF]; constructor; [|exact IH]. intros Hin. rewrite Forall_forall in HF. specialize (HF x Hin). lia.
Qed.

Lemma z_mem_spec x l : z_mem x l = true <-> In x l.
Proof.
  unfold z_mem. rewrite existsb_exists. split; [intros [y [H E]]; apply Z.eqb_eq in E; subst; exact H|intros H; exists x; split; [exact H|apply Z.eqb_refl]].
Qed.

(** ** Products *)
Lemma list_product_in {A} : forall (ls : list (list A)) x, In x (list_product ls) <-> Forall2 (fun l y => In y l) ls x.
Proof.
  induction ls as [|l t IH]; intros x; cbn [list_product].
  - split; [intros [<-|[]]; constructor|intros H; inversion H; left; reflexivity].
  - rewrite in_flat_map. split.
    + intros [y [Hy H]]. apply in_map_iff in H. destruct H as [u [<- Hu]]. constructor; [exact Hy|apply IH; exact Hu].
    + intros H. inversion H as [|? y ? u Hy Hu]; subst. exists y. split; [exact Hy|]. apply in_map. apply IH; exact Hu.
Qed.

Lemma sorted_app {A} (R : A -> A -> Prop) : forall a b, StronglySorted R a -> StronglySorted R b ->
  (forall x y, In x a -> In y b -> R x y) -> StronglySorted R (a ++ b).
Proof.
  induction a as [|x t IH]; intros b Ha Hb H; [exact Hb|]. inversion Ha as [|? ? Ht HF]; subst. cbn [app]. constructor.
  - apply IH; [exact Ht|exact Hb|]. intros u v Hu Hv. apply H; [right; exact Hu|exact Hv].
  - apply Forall_forall. intros y Hy. apply in_app_iff in Hy. destruct Hy as [Hy|Hy]; [rewrite Forall_forall in HF; apply HF; exact Hy|apply H; [left; reflexivity|exact Hy]].
Qed.

Lemma sorted_map {A B} (R : A -> A -> Prop) (S : B -> B -> Prop) (f : A -> B) : (forall x y, R x y -> S (f x) (f y)) ->
  forall l, StronglySorted R l -> StronglySorted S (map f l).
Proof.
  intros H. induction 1 as [|x t Ht IH HF]; cbn [map]; constructor; [exact IH|]. apply Forall_forall. intros y Hy. apply in_map_iff in Hy.
  destruct Hy as [z [<- Hz]]. apply H. rewrite Forall_forall in HF. apply HF; exact Hz.
Qed.

Lemma sorted_filter' {A} (R : A -> A -> Prop) (f : A -> bool) : forall l, StronglySorted R l -> StronglySorted R (filter f l).
Proof.
  induction 1 as [|x t Ht IH HF]; cbn [filter]; [constructor|]. destruct (f x); [|exact IH]. constructor; [exact IH|].
  apply Forall_forall. intros y Hy. apply filter_In in Hy. rewrite Forall_forall in HF. apply HF. tauto.
Qed.

Definition optval (o : option Z) : Z := match o with Some x => x | None => 0 end.

Lemma list_product_sorted : forall (ls : list (list (option Z))),
  Forall (StronglySorted (fun a b => optval a < optval b)) ls ->
  StronglySorted (fun a b => LexLt (label a) (label b)) (list_product ls).
Proof.
  induction ls as [|l t IH]; intros HF; cbn [list_product]; [repeat constructor|]. apply Forall_cons_iff in HF. destruct HF as [Hl Ht]. specialize (IH Ht).
  induction Hl as [|x u Hu IHu HF]; cbn [flat_map]; [constructor|]. apply sorted_app; [|exact IHu|].
  - eapply sorted_map; [|exact IH]. intros a b H. cbn [label map LexLt]. right. split; [reflexivity|exact H].
  - intros a b Ha Hb. apply in_map_iff in Ha. destruct Ha as [a' [<- Ha']]. apply in_flat_map in Hb. destruct Hb as [y [Hy Hb]].
    apply in_map_iff in Hb. destruct Hb as [b' [<- Hb']]. cbn [label map LexLt]. left. rewrite Forall_forall in HF. apply (HF y Hy).
Qed.

Lemma lex_irrefl : forall a, ~ LexLt a a.
Proof. induction a as [|x t IH]; cbn [LexLt]; [tauto|]. intros [H|[_ H]]; [lia|apply IH; exact H]. Qed.

Lemma sorted_nodup' {A} (R : A -> A -> Prop) : (forall x, ~ R x x) -> forall l, StronglySorted R l -> NoDup l.
Proof.
  intros Hi. induction 1 as [|x t Ht IH HF]; constructor; [|exact IH]. intros Hin. rewrite Forall_forall in HF. apply (Hi x), HF, Hin.
Qed.

(** ** C22: labels *)
Lemma part_mem_spec p l : part_mem p l = true <-> In p l.
Proof.
  unfold part_mem. rewrite existsb_exists. split.
  - intros [q [H E]]. unfold part_eqb in E. apply Nat.eqb_eq in E. destruct p, q; try discriminate; exact H.
  - intros H. exists p. split; [exact H|apply Nat.eqb_refl].
Qed.

Definition key_of (grouping : list dpart) (d : date) : list (option Z) :=
  map (fun p => if part_mem p grouping then Some (part p d) else None) all_parts.

Lemma nth_key_of grouping d p : nth (part_index p) (key_of grouping d) None = if part_mem p grouping then Some (part p d) else None.
Proof. destruct p; reflexivity. Qed.

Lemma optZ_eqb_eq a b : optZ_eqb a b = true <-> a = b.
Proof. destruct a, b; cbn [optZ_eqb]; try rewrite Z.eqb_eq; split; congruence. Qed.

Lemma product_nth values grouping sel : In sel (list_product (group_unique values grouping)) ->
  List.length sel = 6%nat /\ forall p, if part_mem p grouping then exists d, In d values /\ nth (part_index p) sel None = Some (part p d)
                                       else nth (part_index p) sel None = None.
Proof.
  intros H.
  assert (Hg : forall q y, In y (if part_mem q grouping then map Some (z_unique (map (part q) values)) else [None]) ->
    if part_mem q grouping then exists d, In d values /\ y = Some (part q d) else y = None).
  { intros q y Hy. destruct (part_mem q grouping); [|destruct Hy as [<-|[]]; reflexivity].
    apply in_map_iff in Hy. destruct Hy as [z [<- Hz]]. apply z_unique_in, in_map_iff in Hz. destruct Hz as [d [<- Hd]]. exists d; tauto. }
  apply list_product_in in H. unfold group_unique in H. cbn [map all_parts] in H.
  repeat match goal with H : Forall2 _ (_ :: _) _ |- _ => inversion H; subst; clear H | H : Forall2 _ [] _ |- _ => inversion H; subst; clear H end.
  split; [reflexivity|]. intros p.
  destruct p; cbn [part_index nth]; apply Hg; assumption.
Qed.

Lemma key_of_in values grouping d : In d values -> In (key_of grouping d) (list_product (group_unique values grouping)).
Proof.
  intros Hd. apply list_product_in. unfold group_unique, key_of.
  assert (Hg : forall q, In (if part_mem q grouping then Some (part q d) else None) (if part_mem q grouping then map Some (z_unique (map (part q) values)) else [None])).
  { intros q. destruct (part_mem q grouping); [|left; reflexivity]. apply in_map. apply z_unique_in. apply in_map. exact Hd. }
  induction all_parts as [|p t IH]; cbn [map]; constructor; [apply Hg|exact IH].
Qed.

Definition match_key (grouping : list dpart) (sel : list (option Z)) (d : date) : bool :=
  forallb (fun p => optZ_eqb (nth (part_index p) sel None) (Some (part p d))) grouping.

Lemma nth_ext6 (a b : list (option Z)) : List.length a = 6%nat -> List.length b = 6%nat ->
  (forall p, nth (part_index p) a None = nth (part_index p) b None) -> a = b.
Proof.
  intros Ha Hb H. do 7 (destruct a as [|? a]; try discriminate). do 7 (destruct b as [|? b]; try discriminate).
  pose proof (H PYear); pose proof (H PMonth); pose proof (H PDay); pose proof (H PHour); pose proof (H PMinute); pose proof (H PSecond).
  cbn in *. congruence.
Qed.

Lemma match_key_spec values grouping sel d : In sel (list_product (group_unique values grouping)) ->
  (match_key grouping sel d = true <-> sel = key_of grouping d).
Proof.
  intros Hin. destruct (product_nth values grouping sel Hin) as [Hl Hp]. unfold match_key. rewrite forallb_forall. split.
  - intros H. apply nth_ext6; [exact Hl|reflexivity|]. intros p. rewrite nth_key_of. specialize (Hp p). destruct (part_mem p grouping) eqn:E; [|exact Hp].
    apply optZ_eqb_eq. apply H. apply part_mem_spec; exact E.
  - intros -> p Hpin. rewrite nth_key_of. apply part_mem_spec in Hpin. rewrite Hpin. apply optZ_eqb_eq. reflexivity.
Qed.

Lemma group_selects_spec values grouping :
  StronglySorted (fun a b => LexLt (label a) (label b)) (group_selects values grouping) /\
  NoDup (group_selects values grouping) /\
  forall sel, In sel (group_selects values grouping) <-> exists d, In d values /\ sel = key_of grouping d.
Proof.
  assert (HS : StronglySorted (fun a b => LexLt (label a) (label b)) (group_selects values grouping)).
  { unfold group_selects. apply sorted_filter'. apply list_product_sorted. unfold group_unique. apply Forall_forall. intros l Hl. apply in_map_iff in Hl.
    destruct Hl as [p [<- _]]. destruct (part_mem p grouping); [|repeat constructor].
    eapply sorted_map; [|apply z_unique_sorted]. intros x y H. exact H. }
  split; [exact HS|]. split; [apply (sorted_nodup' _ (fun x => lex_irrefl (label x)) _ HS)|].
  intros sel. unfold group_selects. rewrite filter_In. unfold dgrp_of. split.
  - intros [Hin Hex]. apply existsb_exists in Hex. destruct Hex as [b [Hb ->]]. apply in_map_iff in Hb. destruct Hb as [d [E Hd]].
    exists d. split; [exact Hd|]. apply (match_key_spec values grouping sel d Hin). exact E.
  - intros [d [Hd ->]]. pose proof (key_of_in values grouping d Hd) as Hin. split; [exact Hin|]. apply existsb_exists. exists true. split; [|reflexivity].
    apply in_map_iff. exists d. split; [|exact Hd]. apply (match_key_spec values grouping _ d Hin). reflexivity.
Qed.

(** ** Bounds of groups *)
Lemma bool_select_in {A} : forall m (l : list A) x, In x (bool_select m l) <-> exists k, nth_error m k = Some true /\ nth_error l k = Some x.
Proof.
  induction m as [|b m IH]; intros [|y l] x; cbn [bool_select].
  - split; [intros []|intros [[|k] [H _]]; discriminate].
  - split; [intros []|intros [[|k] [H _]]; discriminate].
  - split; [intros []|intros [[|k] [_ H]]; discriminate].
  - assert (E : In x (bool_select m l) <-> exists k, nth_error (b :: m) (S k) = Some true /\ nth_error (y :: l) (S k) = Some x) by apply IH.
    destruct b; cbn [In].
    + rewrite E. split.
      * intros [->|[k H]]; [exists O; split; reflexivity|exists (S k); exact H].
      * intros [[|k] [H1 H2]]; [left; injection H2; tauto|right; exists k; tauto].
    + rewrite E. split; [intros [k H]; exists (S k); exact H|]. intros [[|k] [H1 H2]]; [discriminate|exists k; tauto].
Qed.

Lemma group_bounds_ok {K} t members (key : K) r b : group_bounds t members = Ok b -> Encloses t (mkgroup key members b r).
Proof.
  unfold group_bounds. set (sel := flat_map _ _). intros H.
  destruct (dates_min sel) as [lo|] eqn:E1; cbn [bind] in H; [|discriminate]. destruct (dates_max sel) as [hi|] eqn:E2; cbn [bind] in H; [|discriminate]. injection H as <-.
  apply dates_min_spec in E1. apply dates_max_spec in E2. destruct E1 as [M1 M2], E2 as [N1 N2].
  assert (Hsel : forall d, In d sel <-> exists k b, nth_error members k = Some true /\ nth_error (lower_upper t) k = Some b /\ (d = fst b \/ d = snd b)).
  { intros d. unfold sel. rewrite in_flat_map. split.
    - intros [b [Hb Hd]]. apply bool_select_in in Hb. destruct Hb as [k [H1 H2]]. exists k, b. split; [exact H1|]. split; [exact H2|].
      destruct Hd as [<-|[<-|[]]]; tauto.
    - intros [k [b [H1 [H2 H3]]]]. exists b. split; [apply bool_select_in; exists k; tauto|]. destruct H3 as [->| ->]; [left|right; left]; reflexivity. }
  unfold Encloses, InGroup; cbn [g_members g_bounds fst snd]. split; [|split].
  - intros k b H1 H2. repeat split; first [apply M2|apply N2]; apply Hsel; exists k, b; tauto.
  - apply Hsel in M1. destruct M1 as [k [b H]]. exists k, b. tauto.
  - apply Hsel in N1. destruct N1 as [k [b H]]. exists k, b. tauto.
Qed.

Lemma lower_upper_length t : GoodTime t -> List.length (lower_upper t) = List.length (tv_value t).
Proof. unfold GoodTime, lower_upper. destruct (tv_bounds t); [tauto|intros _; apply map_length]. Qed.

Lemma group_bounds_succeeds t members : GoodTime t -> List.length members = List.length (tv_value t) ->
  existsb (fun b => b) members = true -> exists b, group_bounds t members = Ok b.
Proof.
  intros Hg Hl Hex. unfold group_bounds. set (sel := flat_map _ _). assert (Hne : exists d, In d sel).
  { apply existsb_exists in Hex. destruct Hex as [b [Hb ->]]. apply In_nth_error in Hb. destruct Hb as [k Hk].
    assert (Hk' : (k < List.length (lower_upper t))%nat) by (rewrite lower_upper_length, <- Hl by exact Hg; apply nth_error_Some; congruence).
    apply nth_error_Some in Hk'. destruct (nth_error (lower_upper t) k) as [b|] eqn:E; [|congruence]. exists (fst b). apply in_flat_map. exists b.
    split; [apply bool_select_in; exists k; tauto|left; reflexivity]. }
  destruct sel as [|d u]; [destruct Hne as [d []]|]. cbn [dates_min dates_max bind]. eexists; reflexivity.
Qed.

Lemma group_bounds_empty t members : existsb (fun b => b) members = false -> group_bounds t members = Err ValueError.
Proof.
  intros H. unfold group_bounds. assert (E : bool_select members (lower_upper t) = []).
  { destruct (bool_select members (lower_upper t)) as [|x u] eqn:E; [reflexivity|]. exfalso.
    assert (Hin : In x (bool_select members (lower_upper t))) by (rewrite E; left; reflexivity). apply bool_select_in in Hin. destruct Hin as [k [Hk _]].
    apply nth_error_In in Hk. assert (existsb (fun b => b) members = true) by (apply existsb_exists; exists true; tauto). congruence. }
  rewrite E. reflexivity.
Qed.

(** ** C22 *)
Lemma same_parts_spec g h : same_parts g h = true <-> forall p, In p g <-> In p h.
Proof.
  unfold same_parts. rewrite andb_true_iff, !forallb_forall. split.
  - intros [H1 H2] p. split; intros H; [apply part_mem_spec, H1, H|apply part_mem_spec, H2, H].
  - intros H. split; intros p Hp; apply part_mem_spec, H, Hp.
Qed.

Lemma part_in_dec (p : dpart) l : In p l \/ ~ In p l.
Proof. destruct (part_mem p l) eqn:E; [left; apply part_mem_spec; exact E|right; intros H; apply part_mem_spec in H; congruence]. Qed.

Lemma representative_ok grouping b d : Supported grouping -> exists r, representative grouping b (key_of grouping d) = Ok r.
Proof.
  intros [[p0 Hp0] Hs].
  assert (Hf : forall l, (forall p, In p grouping <-> In p l) -> same_parts grouping l = true) by (intros l; apply same_parts_spec).
  assert (Hin : forall l, (forall p, p = PYear \/ p = PMonth \/ p = PDay -> (In p grouping <-> In p l)) -> (forall p, In p l -> p = PYear \/ p = PMonth \/ p = PDay) -> same_parts grouping l = true).
  { intros l H1 H2. apply Hf. intros p. split; intros H; [apply H1; [apply Hs; exact H|exact H]|apply H1; [apply H2; exact H|exact H]]. }
  unfold representative.
  destruct (same_parts grouping [PMonth]) eqn:E1; [eexists; reflexivity|].
  destruct (same_parts grouping [PYear]) eqn:E2; [eexists; reflexivity|].
  destruct (same_parts grouping [PMonth; PYear]) eqn:E3; [eexists; reflexivity|].
  destruct (same_parts grouping [PDay]) eqn:E4; [eexists; reflexivity|].
  destruct (same_parts grouping [PDay; PMonth]) eqn:E5; [eexists; reflexivity|].
  destruct (same_parts grouping [PDay; PYear]) eqn:E6; [eexists; reflexivity|].
  destruct (same_parts grouping [PDay; PYear; PMonth]) eqn:E7; [eexists; reflexivity|]. exfalso.
  assert (Hl : exists l, same_parts grouping l = true /\
    (l = [] \/ l = [PMonth] \/ l = [PYear] \/ l = [PMonth; PYear] \/ l = [PDay] \/ l = [PDay; PMonth] \/ l = [PDay; PYear] \/ l = [PDay; PYear; PMonth])).
  { destruct (part_in_dec PYear grouping) as [Hy|Hy], (part_in_dec PMonth grouping) as [Hm|Hm], (part_in_dec PDay grouping) as [Hd|Hd];
      [exists [PDay; PYear; PMonth]|exists [PMonth; PYear]|exists [PDay; PYear]|exists [PYear]|exists [PDay; PMonth]|exists [PMonth]|exists [PDay]|exists []];
      (split; [|tauto]); apply Hin; cbn [In]; intros p; intuition (subst; try tauto; try discriminate). }
  destruct Hl as [l [El Hl]]. destruct Hl as [->|[->|[->|[->|[->|[->|[->| ->]]]]]]]; try congruence.
  apply (proj1 (same_parts_spec _ _) El) in Hp0. destruct Hp0.
Qed.

Lemma representative_supported grouping b sel r : representative grouping b sel = Ok r -> Supported grouping.
Proof.
  unfold representative. cbv zeta. intros H.
  assert (Hs : forall l, same_parts grouping l = true -> l <> [] -> (forall p, In p l -> p = PYear \/ p = PMonth \/ p = PDay) -> Supported grouping).
  { intros l El Hl Hp. pose proof (proj1 (same_parts_spec _ _) El) as E. split.
    - destruct l as [|q l]; [congruence|]. exists q. apply E. left; reflexivity.
    - intros p Hin. apply Hp, E, Hin. }
  repeat match type of H with
    | (if same_parts grouping ?l then _ else _) = _ => let E := fresh "E" in destruct (same_parts grouping l) eqn:E; [eapply Hs; [exact E|discriminate|intros p Hp; cbn in Hp; intuition (subst; tauto)]|]
    end.
  discriminate.
Qed.

Lemma representative_parts grouping b d r p : representative grouping b (key_of grouping d) = Ok r -> In p grouping -> part p r = part p d.
Proof.
  unfold representative. cbv zeta. intros H Hp.
  assert (Hk : forall q, In q grouping -> key_part (key_of grouping d) q = part q d).
  { intros q Hq. unfold key_part. rewrite nth_key_of, (proj2 (part_mem_spec q grouping) Hq). reflexivity. }
  repeat match type of H with
    | (if same_parts grouping ?l then _ else _) = _ =>
        let E := fresh "E" in destruct (same_parts grouping l) eqn:E;
        [pose proof (proj1 (proj1 (same_parts_spec _ _) E p) Hp) as Hin; injection H as <-; cbn [In] in Hin;
         repeat match type of Hin with _ \/ _ => destruct Hin as [Hin|Hin] end; try destruct Hin; subst;
         cbn [part dt_year dt_month dt_day]; rewrite Hk by assumption; reflexivity|]
    end.
  discriminate.
Qed.

Lemma dgrp_of_nth values grouping sel k : nth_error (dgrp_of values grouping sel) k = option_map (match_key grouping sel) (nth_error values k).
Proof. unfold dgrp_of. apply nth_error_map. Qed.

Lemma nth_error_forall2 {A B} (R : A -> B -> Prop) : forall l l', Forall2 R l l' -> forall k,
  (forall y, nth_error l' k = Some y -> exists x, nth_error l k = Some x /\ R x y) /\ (forall x, nth_error l k = Some x -> exists y, nth_error l' k = Some y /\ R x y).
Proof.
  induction 1 as [|x y l l' Hxy HF IH]; intros [|k]; cbn [nth_error]; try (split; discriminate).
  - split; intros z Hz; injection Hz as <-; eexists; split; try reflexivity; assumption.
  - apply IH.
Qed.

Theorem grouping_parts_spec t grouping groups : GoodTime t -> grouping_parts t grouping = Ok groups ->
  (forall k d, nth_error (tv_value t) k = Some d -> ExactlyOne (fun g => InGroup g k) groups) /\
  (forall g, In g groups -> exists k, InGroup g k) /\
  (forall g j k d e, In g groups -> InGroup g j -> nth_error (tv_value t) j = Some d -> nth_error (tv_value t) k = Some e ->
     (InGroup g k <-> SameParts grouping d e)) /\
  (forall g, In g groups -> Encloses t g) /\
  (forall g k d, In g groups -> InGroup g k -> nth_error (tv_value t) k = Some d -> SameParts grouping (g_repr g) d) /\
  (forall g k d p, In g groups -> InGroup g k -> nth_error (tv_value t) k = Some d -> In p grouping ->
     nth_error (g_key g) (part_index p) = Some (Some (part p d))) /\
  StronglySorted (fun g h => LexLt (label (g_key g)) (label (g_key h))) groups.
Proof.
  intros Hg H. unfold grouping_parts in H. apply map_res_ok in H.
  destruct (group_selects_spec (tv_value t) grouping) as [HS [HN HI]].
  assert (HF : Forall2 (fun sel g => g_key g = sel /\ g_members g = dgrp_of (tv_value t) grouping sel /\ Encloses t g /\ representative grouping (g_bounds g) sel = Ok (g_repr g)) (group_selects (tv_value t) grouping) groups).
  { eapply Forall2_imp; [|exact H]. cbn beta. intros sel g E. destruct (group_bounds t (dgrp_of (tv_value t) grouping sel)) as [b|] eqn:Eb; cbn [bind] in E; [|discriminate].
    destruct (representative grouping b sel) as [r|] eqn:Er; cbn [bind] in E; [|discriminate]. injection E as <-. cbn [g_key g_members g_bounds g_repr].
    split; [reflexivity|]. split; [reflexivity|]. split; [apply group_bounds_ok; exact Eb|exact Er]. }
  clear H.
  assert (Hmem : forall g, In g groups -> exists d0, In d0 (tv_value t) /\ g_key g = key_of grouping d0 /\ representative grouping (g_bounds g) (g_key g) = Ok (g_repr g) /\ Encloses t g /\
     forall k, InGroup g k <-> exists d, nth_error (tv_value t) k = Some d /\ key_of grouping d = g_key g).
  { intros g Hin. apply In_nth_error in Hin. destruct Hin as [i Hi]. destruct (proj1 (nth_error_forall2 _ _ _ HF i) g Hi) as [sel [Hsel [E1 [E2 [E3 E4]]]]].
    assert (Hsin : In sel (group_selects (tv_value t) grouping)) by (eapply nth_error_In; exact Hsel).
    pose proof (proj1 (HI sel) Hsin) as [d0 [Hd0 Es]]. exists d0. split; [exact Hd0|]. split; [congruence|]. split; [congruence|]. split; [exact E3|].
    intros k. unfold InGroup. rewrite E2, dgrp_of_nth, E1. unfold group_selects in Hsin. apply filter_In in Hsin. destruct Hsin as [Hp _].
    destruct (nth_error (tv_value t) k) as [d|]; cbn [option_map].
    - split.
      + intros Hm. injection Hm as Hm. exists d. split; [reflexivity|]. symmetry. apply (match_key_spec _ _ _ d Hp). exact Hm.
      + intros [d' [Ed Hk]]. injection Ed as <-. f_equal. apply (match_key_spec _ _ _ d Hp). symmetry; exact Hk.
    - split; [discriminate|intros [d [E _]]; discriminate]. }
  assert (Hkey : forall d e, key_of grouping d = key_of grouping e <-> SameParts grouping d e).
  { intros d e. split.
    - intros E p Hp. apply part_mem_spec in Hp. pose proof (nth_key_of grouping d p) as H1. pose proof (nth_key_of grouping e p) as H2. rewrite Hp in H1, H2. congruence.
    - intros E. apply nth_ext6; [reflexivity|reflexivity|]. intros p. rewrite !nth_key_of. destruct (part_mem p grouping) eqn:Ep; [|reflexivity]. rewrite (E p); [reflexivity|apply part_mem_spec; exact Ep]. }
  split; [|split; [|split; [|split; [|split; [|split]]]]].
  - intros k d Hd. assert (Hin : In (key_of grouping d) (group_selects (tv_value t) grouping)) by (apply HI; exists d; split; [eapply nth_error_In; exact Hd|reflexivity]).
    apply In_nth_error in Hin. destruct Hin as [i Hi]. destruct (proj2 (nth_error_forall2 _ _ _ HF i) _ Hi) as [g [Hgi [E1 _]]].
    exists i, g. split; [exact Hgi|]. destruct (Hmem g (nth_error_In _ _ Hgi)) as [_ [_ [_ [_ [_ Hm]]]]]. split; [apply Hm; exists d; split; [exact Hd|congruence]|].
    intros i' g' Hgi' Hin'. destruct (Hmem g' (nth_error_In _ _ Hgi')) as [_ [_ [_ [_ [_ Hm']]]]]. apply Hm' in Hin'. destruct Hin' as [d' [Hd' Ek]].
    rewrite Hd in Hd'. injection Hd' as <-. destruct (proj1 (nth_error_forall2 _ _ _ HF i') g' Hgi') as [sel' [Hsel' [E1' _]]].
    assert (sel' = key_of grouping d) by congruence. subst sel'. apply (NoDup_nth_error (group_selects (tv_value t) grouping)); [exact HN|apply nth_error_Some; congruence|congruence].
  - intros g Hin. destruct (Hmem g Hin) as [d0 [Hd0 [Ek [_ [_ Hm]]]]]. apply In_nth_error in Hd0. destruct Hd0 as [k Hk]. exists k. apply Hm. exists d0. split; [exact Hk|congruence].
  - intros g j k d e Hin Hj Hd He. destruct (Hmem g Hin) as [_ [_ [_ [_ [_ Hm]]]]]. apply Hm in Hj. destruct Hj as [d' [Hd' Ek]]. rewrite Hd in Hd'. injection Hd' as <-.
    rewrite Hm, <- Hkey. split.
    + intros [e' [He' Ek']]. rewrite He in He'. injection He' as <-. congruence.
    + intros E. exists e. split; [exact He|congruence].
  - intros g Hin. destruct (Hmem g Hin) as [_ [_ [_ [_ [He _]]]]]. exact He.
  - intros g k d Hin Hk Hd p Hp. destruct (Hmem g Hin) as [d0 [Hd0 [Ek0 [Er [_ Hm]]]]]. apply Hm in Hk. destruct Hk as [d' [Hd' Ek]]. rewrite Hd in Hd'. injection Hd' as <-.
    rewrite <- Ek in Er. eapply representative_parts; eassumption.
  - intros g k d p Hin Hk Hd Hp. destruct (Hmem g Hin) as [d0 [Hd0 [Ek0 [Er [_ Hm]]]]]. apply Hm in Hk. destruct Hk as [d' [Hd' Ek]]. rewrite Hd in Hd'. injection Hd' as <-.
    rewrite <- Ek. pose proof (nth_key_of grouping d p) as E. rewrite (proj2 (part_mem_spec p grouping) Hp) in E. rewrite <- E. apply nth_error_nth'. destruct p; cbn; lia.
  - clear -HF HS. revert HS. induction HF as [|sel g l l' E HF IH]; intros HS; [constructor|]. inversion HS as [|? ? HSt HFt]; subst. constructor; [apply IH; exact HSt|].
    apply Forall_forall. intros h Hh. apply In_nth_error in Hh. destruct Hh as [i Hi]. destruct (proj1 (nth_error_forall2 _ _ _ HF i) h Hi) as [s [Hs [E1 _]]].
    destruct E as [E0 _]. rewrite E0, E1. rewrite Forall_forall in HFt. apply HFt. eapply nth_error_In; exact Hs.
Qed.

Theorem grouping_parts_succeeds t grouping : GoodTime t -> Supported grouping -> exists groups, grouping_parts t grouping = Ok groups.
Proof.
  intros Hg Hs. unfold grouping_parts. destruct (group_selects_spec (tv_value t) grouping) as [_ [_ HI]].
  apply map_res_exists. intros sel Hin. cbv zeta.
  pose proof (proj1 (HI sel) Hin) as [d [Hd Ed]]. unfold group_selects in Hin. apply filter_In in Hin. destruct Hin as [_ Hex].
  destruct (group_bounds_succeeds t (dgrp_of (tv_value t) grouping sel) Hg) as [b Eb]; [unfold dgrp_of; apply map_length|exact Hex|].
  destruct (representative_ok grouping b d Hs) as [r Er]. rewrite <- Ed in Er. rewrite Eb; cbn [bind]. rewrite Er; cbn [bind]. eexists; reflexivity.
Qed.

Theorem grouping_parts_unsupported t grouping : GoodTime t -> tv_value t <> [] -> ~ Supported grouping -> grouping_parts t grouping = Err NotImplementedError.
Proof.
  intros Hg Hne Hs. unfold grouping_parts. destruct (group_selects_spec (tv_value t) grouping) as [_ [_ HI]].
  destruct (group_selects (tv_value t) grouping) as [|sel l] eqn:E.
  - exfalso. destruct (tv_value t) as [|d u]; [congruence|]. apply (proj2 (HI (key_of grouping d))). exists d. split; [left; reflexivity|reflexivity].
  - assert (Hin : In sel (group_selects (tv_value t) grouping)) by (rewrite E; left; reflexivity). unfold group_selects in Hin. apply filter_In in Hin. destruct Hin as [_ Hex].
    destruct (group_bounds_succeeds t (dgrp_of (tv_value t) grouping sel) Hg) as [b Eb]; [unfold dgrp_of; apply map_length|exact Hex|].
    cbn [map_res]. rewrite Eb; cbn [bind]. destruct (representative grouping b sel) as [r|e] eqn:Er; [exfalso; apply Hs; eapply representative_supported; exact Er|].
    cbn [bind]. unfold representative in Er; cbv zeta in Er. repeat match type of Er with (if ?c then _ else _) = _ => destruct c; [discriminate|] end. injection Er as <-. reflexivity.
Qed.

Theorem grouping_all_spec t : GoodTime t -> tv_value t <> [] ->
  exists g, grouping_all t = Ok [g] /\ Encloses t g /\ (forall k, (k < List.length (tv_value t))%nat -> InGroup g k) /\ In (g_repr g) (tv_value t).
Proof.
  intros Hg Hne. unfold grouping_all.
  destruct (group_bounds_succeeds t (map (fun _ => true) (tv_value t)) Hg) as [b Eb]; [apply map_length|destruct (tv_value t); [congruence|reflexivity]|].
  rewrite Eb; cbn [bind]. assert (Hn : 1 <= zlen (tv_value t)) by (destruct (tv_value t); [congruence|rewrite zlen_cons; pose proof (zlen_nonneg l); lia]).
  assert (Hr : exists r, py_index (tv_value t) (Z.quot (zlen (tv_value t) - 2) 2) = Ok r /\ In r (tv_value t)).
  { assert (Hq : 0 <= Z.quot (zlen (tv_value t) - 2) 2 < zlen (tv_value t)).
    { destruct (Z.eq_dec (zlen (tv_value t)) 1) as [->|]; [cbn; lia|]. rewrite Z.quot_div_nonneg by lia. lia. }
    unfold py_index. destruct (Z.ltb_spec (Z.quot (zlen (tv_value t) - 2) 2) 0); [lia|]. cbn [orb].
    destruct (Z.leb_spec (zlen (tv_value t)) (Z.quot (zlen (tv_value t) - 2) 2)); [lia|]. destruct (Z.ltb_spec (Z.quot (zlen (tv_value t) - 2) 2) 0); [lia|]. cbn [orb].
    destruct (nth_error (tv_value t) (Z.to_nat (Z.quot (zlen (tv_value t) - 2) 2))) as [r|] eqn:E.
    - exists r. split; [reflexivity|eapply nth_error_In; exact E].
    - exfalso. apply nth_error_None in E. unfold zlen in *. lia. }
  destruct Hr as [r [Er Hin]]. rewrite Er; cbn [bind]. eexists. split; [reflexivity|]. split; [apply group_bounds_ok; exact Eb|]. cbn [g_repr]. split; [|exact Hin].
  intros k Hk. unfold InGroup; cbn [g_members]. rewrite nth_error_map. apply nth_error_Some in Hk. destruct (nth_error (tv_value t) k); [reflexivity|congruence].
Qed.
