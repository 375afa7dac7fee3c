From Verif Require Import Py Lib SubsetModel SubsetSpec.
From Coq Require Sorted.

(** ** Lists of indices *)

Lemma existsb_ext {A} (p q : A -> bool) l : (forall x, In x l -> p x = q x) -> existsb p l = existsb q l.
Proof.
  induction l as [|x t IH]; intro E; [reflexivity|]. cbn [existsb].
  rewrite (E x (or_introl eq_refl)), IH; [reflexivity|]. intros y I. apply E. now right.
Qed.

Lemma in_seq0 n k : In k (seq 0 n) <-> (k < n)%nat.
Proof. rewrite in_seq. lia. Qed.

Lemma exists_seq p n : existsb p (seq 0 n) = true <-> exists k, (k < n)%nat /\ p k = true.
Proof.
  rewrite existsb_exists. split.
  - intros [k [I E]]. apply in_seq0 in I. eauto.
  - intros [k [I E]]. exists k. split; [now apply in_seq0 | exact E].
Qed.

Lemma exists_seq_false p n : existsb p (seq 0 n) = false <-> forall k, (k < n)%nat -> p k = false.
Proof.
  destruct (existsb p (seq 0 n)) eqn:E.
  - apply exists_seq in E as [k [L E]]. split; [discriminate|]. intro H. rewrite (H k L) in E. discriminate.
  - split; [|reflexivity]. intros _ k L. destruct (p k) eqn:K; [|reflexivity].
    assert (X : existsb p (seq 0 n) = true) by (apply exists_seq; eauto). congruence.
Qed.

Lemma exists_grid (p : nat -> nat -> bool) n m :
  existsb (fun j => existsb (fun i => p j i) (seq 0 m)) (seq 0 n) = true <->
  exists j i, (j < n)%nat /\ (i < m)%nat /\ p j i = true.
Proof.
  rewrite exists_seq. split.
  - intros [j [L E]]. apply exists_seq in E as [i [M E]]. eauto.
  - intros [j [i [L [M E]]]]. exists j. split; [exact L|]. apply exists_seq. eauto.
Qed.

Lemma exists_grid_false (p : nat -> nat -> bool) n m :
  existsb (fun j => existsb (fun i => p j i) (seq 0 m)) (seq 0 n) = false <->
  forall j i, (j < n)%nat -> (i < m)%nat -> p j i = false.
Proof.
  rewrite exists_seq_false. split.
  - intros H j i L M. specialize (H j L). rewrite exists_seq_false in H. auto.
  - intros H j L. apply exists_seq_false. auto.
Qed.

Lemma exists_grid_ext (p q : nat -> nat -> bool) n m :
  (forall j i, (j < n)%nat -> (i < m)%nat -> p j i = q j i) ->
  existsb (fun j => existsb (fun i => p j i) (seq 0 m)) (seq 0 n) =
  existsb (fun j => existsb (fun i => q j i) (seq 0 m)) (seq 0 n).
Proof.
  intro E. apply existsb_ext. intros j L. apply existsb_ext. intros i M.
  apply in_seq0 in L, M. auto.
Qed.

Lemma extent_ext p q n : (forall k, (k < n)%nat -> p k = q k) -> extent p n = extent q n.
Proof.
  intro E. unfold extent. assert (F : filter p (seq 0 n) = filter q (seq 0 n)).
  { apply filter_ext_in. intros k I. apply in_seq0 in I. auto. }
  now rewrite F.
Qed.

Lemma sorted_seq_filter p a n : Sorted.StronglySorted lt (filter p (seq a n)).
Proof.
  revert a. induction n as [|n IH]; intro a; cbn [seq filter]; [constructor|].
  destruct (p a); [|apply IH]. constructor; [apply IH|].
  apply Forall_forall. intros x I. apply filter_In in I as [I _]. apply in_seq in I. lia.
Qed.

Lemma sorted_last l k d : Sorted.StronglySorted lt l -> In k l -> (k <= last l d)%nat.
Proof.
  revert k. induction l as [|x t IH]; intros k S I; [destruct I|].
  inversion S as [|? ? S' F]; subst. destruct t as [|y t'].
  - destruct I as [<-|[]]. cbn. lia.
  - change (last (x :: y :: t') d) with (last (y :: t') d).
    destruct I as [<-|I]; [|now apply IH].
    assert (H : (y <= last (y :: t') d)%nat) by (apply IH; [exact S' | now left]).
    inversion F; subst. lia.
Qed.

Lemma last_in (l : list nat) d : l <> [] -> In (last l d) l.
Proof.
  induction l as [|x t IH]; intro N; [congruence|]. destruct t as [|y t'].
  - now left.
  - right. change (last (x :: y :: t') d) with (last (y :: t') d). apply IH. discriminate.
Qed.

Lemma extent_spec p n a b : existsb p (seq 0 n) = true -> extent p n = (a, b) ->
  p a = true /\ p (b - 1)%nat = true /\ (a < b)%nat /\ (b <= n)%nat /\
  forall k, (k < n)%nat -> p k = true -> (a <= k < b)%nat.
Proof.
  intros E X. unfold extent in X. injection X as <- <-.
  apply exists_seq in E as [k0 [L0 E0]].
  set (l := filter p (seq 0 n)). pose proof (sorted_seq_filter p 0 n) as So. fold l in So.
  assert (I0 : In k0 l) by (apply filter_In; split; [now apply in_seq0 | exact E0]).
  assert (N : l <> []) by (intro Z; rewrite Z in I0; destruct I0).
  assert (K : forall k, In k l -> (k < n)%nat /\ p k = true).
  { intros k I. apply filter_In in I as [I J]. split; [now apply in_seq0 | exact J]. }
  pose proof (last_in l 0 N) as IL.
  assert (IH : In (hd 0%nat l) l) by (destruct l; [congruence | now left]).
  assert (G : forall k, In k l -> (hd 0%nat l <= k <= last l 0)%nat).
  { intros k I. split; [|now apply sorted_last].
    destruct l as [|x t]; [congruence|]. cbn [hd]. inversion So as [|? ? S' F]; subst.
    destruct I as [<-|I]; [lia|]. rewrite Forall_forall in F. specialize (F k I). lia. }
  repeat split.
  - now apply K.
  - replace (S (last l 0) - 1)%nat with (last l 0%nat) by lia. now apply K.
  - specialize (G _ IL). lia.
  - apply K in IL. lia.
  - assert (I : In k l) by (apply filter_In; split; [now apply in_seq0 | assumption]).
    now apply G.
  - assert (I : In k l) by (apply filter_In; split; [now apply in_seq0 | assumption]).
    apply G in I. lia.
Qed.

(** ** States and longitudes *)

Lemma state_ext c ny nx lon lon' :
  (forall j i, (j < ny)%nat -> (i < nx)%nat -> lon j i = lon' j i) -> state_of c ny nx lon = state_of c ny nx lon'.
Proof.
  intro E. unfold state_of. destruct c; try reflexivity.
  - rewrite (exists_grid_ext (fun j i => 180 <? lon j i) (fun j i => 180 <? lon' j i)) by (intros; now rewrite E).
    rewrite (exists_grid_ext (fun j i => lon j i <? 0) (fun j i => lon' j i <? 0)) by (intros; now rewrite E).
    reflexivity.
  - rewrite (exists_grid_ext (fun j i => 180 <? lon j i) (fun j i => 180 <? lon' j i)) by (intros; now rewrite E).
    rewrite (exists_grid_ext (fun j i => lon j i <? 0) (fun j i => lon' j i <? 0)) by (intros; now rewrite E).
    reflexivity.
Qed.

Lemma state_cases c ny nx lon :
  match state_of c ny nx lon with
  | Unwrapped => (c = Sph \/ c = Geo) /\ exists j i, (j < ny)%nat /\ (i < nx)%nat /\ 180 < lon j i
  | Wrapped => (c = Sph \/ c = Geo) /\ (forall j i, (j < ny)%nat -> (i < nx)%nat -> lon j i <= 180) /\
               exists j i, (j < ny)%nat /\ (i < nx)%nat /\ lon j i < 0
  | Unknown => (c = Sph \/ c = Geo) /\ forall j i, (j < ny)%nat -> (i < nx)%nat -> 0 <= lon j i <= 180
  | NoState => c = Rot \/ c = Flat
  end.
Proof.
  unfold state_of.
  assert (M : c = Sph \/ c = Geo ->
    match (if existsb (fun j => existsb (fun i => 180 <? lon j i) (seq 0 nx)) (seq 0 ny) then Unwrapped
           else if existsb (fun j => existsb (fun i => lon j i <? 0) (seq 0 nx)) (seq 0 ny) then Wrapped else Unknown) with
    | Unwrapped => (c = Sph \/ c = Geo) /\ exists j i, (j < ny)%nat /\ (i < nx)%nat /\ 180 < lon j i
    | Wrapped => (c = Sph \/ c = Geo) /\ (forall j i, (j < ny)%nat -> (i < nx)%nat -> lon j i <= 180) /\
                 exists j i, (j < ny)%nat /\ (i < nx)%nat /\ lon j i < 0
    | Unknown => (c = Sph \/ c = Geo) /\ forall j i, (j < ny)%nat -> (i < nx)%nat -> 0 <= lon j i <= 180
    | NoState => c = Rot \/ c = Flat
    end).
  { intro C. destruct (existsb (fun j => existsb (fun i => 180 <? lon j i) (seq 0 nx)) (seq 0 ny)) eqn:E.
    - apply exists_grid in E as (j & i & L & M & E). split; [exact C|]. exists j, i. repeat split; auto. lia.
    - rewrite exists_grid_false in E.
      destruct (existsb (fun j => existsb (fun i => lon j i <? 0) (seq 0 nx)) (seq 0 ny)) eqn:K.
      + apply exists_grid in K as (j & i & L & M & K). split; [exact C|]. split.
        * intros j' i' L' M'. specialize (E j' i' L' M'). lia.
        * exists j, i. repeat split; auto. lia.
      + rewrite exists_grid_false in K. split; [exact C|].
        intros j i L M. specialize (E j i L M). specialize (K j i L M). lia. }
  destruct c; first [apply M; tauto | tauto].
Qed.

(** The place of a longitude between -180 and 360. *)
Lemma place_wrap c x p : c = Sph \/ c = Geo -> -180 < x <= 360 -> (PlaceOf c x p <-> p = wrap_x x).
Proof.
  intros C R. unfold wrap_x. split.
  - intro P. assert (Q : -180 < p <= 180 /\ exists k, x = p + 360 * k) by (destruct C; subst; exact P).
    destruct Q as [Q [k E]]. destruct (180 <? x) eqn:K; lia.
  - intros ->. assert (Q : -180 < (if 180 <? x then x - 360 else x) <= 180 /\
                            exists k, x = (if 180 <? x then x - 360 else x) + 360 * k).
    { destruct (180 <? x) eqn:K; (split; [lia|]); [exists 1 | exists 0]; lia. }
    destruct C; subst; exact Q.
Qed.

Lemma wrap_idem x : x <= 540 -> wrap_x (wrap_x x) = wrap_x x.
Proof. intro. unfold wrap_x. destruct (180 <? x) eqn:E; [|now rewrite E]. destruct (180 <? x - 360) eqn:K; lia. Qed.

(** ** One subset *)

(** The cells the operation selects. *)
Definition chosen (f : field) (inside : Z -> Z -> bool) (j i : nat) : bool :=
  let s := field_state f in
  let x := if (match f_crs f with Sph => wstate_eqb s Unwrapped | _ => false end) && (f_lon f j i <? 0)
           then f_lon f j i + 360 else f_lon f j i in
  geom_at s inside x (f_lat f j i).

(** The window around the selected cells. *)
Definition Win (ny nx : nat) (sel : nat -> nat -> bool) (r : result) : Prop :=
  (r_j1 r <= ny)%nat /\ (r_i1 r <= nx)%nat /\ (r_j0 r < r_j1 r)%nat /\ (r_i0 r < r_i1 r)%nat /\
  (forall j i, (j < ny)%nat -> (i < nx)%nat -> sel j i = true -> (r_j0 r <= j < r_j1 r)%nat /\ (r_i0 r <= i < r_i1 r)%nat) /\
  (exists i, (i < nx)%nat /\ sel (r_j0 r) i = true) /\ (exists i, (i < nx)%nat /\ sel (r_j1 r - 1)%nat i = true) /\
  (exists j, (j < ny)%nat /\ sel j (r_i0 r) = true) /\ (exists j, (j < ny)%nat /\ sel j (r_i1 r - 1)%nat = true).

Lemma win_unique ny nx sel sel' r r' : (forall j i, (j < ny)%nat -> (i < nx)%nat -> sel j i = sel' j i) ->
  Win ny nx sel r -> Win ny nx sel' r' ->
  r_j0 r = r_j0 r' /\ r_j1 r = r_j1 r' /\ r_i0 r = r_i0 r' /\ r_i1 r = r_i1 r'.
Proof.
  intros E (A & B & C & D & F & (a & La & Sa) & (b & Lb & Sb) & (c & Lc & Sc) & (d & Ld & Sd))
           (A' & B' & C' & D' & F' & (a' & La' & Sa') & (b' & Lb' & Sb') & (c' & Lc' & Sc') & (d' & Ld' & Sd')).
  rewrite E in Sa, Sb, Sc, Sd by lia. rewrite <- E in Sa', Sb', Sc', Sd' by lia.
  apply F' in Sa, Sb, Sc, Sd; try lia. apply F in Sa', Sb', Sc', Sd'; try lia.
Qed.

(** The data mask of a field after a subset. *)
Definition mask_after (f : field) (r : result) (sel : nat -> nat -> bool) : option (nat -> nat -> nat -> bool) :=
  match f_mask f with
  | Some d => Some (fun t j i => d t j i || (((r_j0 r <=? j) && (j <? r_j1 r)) && ((r_i0 r <=? i) && (i <? r_i1 r)))%nat && negb (sel j i))
  | None => None
  end.

Lemma grid_subset_spec f sel :
  match grid_subset f sel with
  | Ok (r, f') =>
      Win (f_ny f) (f_nx f) sel r /\ r_crs r = f_crs f /\ r_own r = None /\
      (forall j i, r_smask r j i = negb (sel (r_j0 r + j) (r_i0 r + i))%nat) /\
      f_crs f' = f_crs f /\ f_ny f' = f_ny f /\ f_nx f' = f_nx f /\ f_vec f' = f_vec f /\
      f_lon f' = f_lon f /\ f_lat f' = f_lat f /\ f_loaded f' = f_loaded f /\
      (f_mask f' = f_mask f \/ f_loaded f = true /\ f_mask f' = mask_after f r sel) /\
      (r_dmask r = Some (fun t j i => match f_mask f with Some d => d t (r_j0 r + j)%nat (r_i0 r + i)%nat | None => false end || r_smask r j i) \/
       r_dmask r = None /\ f_mask f' = f_mask f /\
       forall j i, (j < height r)%nat -> (i < width r)%nat -> r_smask r j i = false)
  | Err e => e = EmptySubsetError /\ forall j i, (j < f_ny f)%nat -> (i < f_nx f)%nat -> sel j i = false
  end.
Proof.
  unfold grid_subset. cbv zeta.
  destruct (existsb (fun j => existsb (fun i => sel j i) (seq 0 (f_nx f))) (seq 0 (f_ny f))) eqn:E.
  2: { split; [reflexivity|]. now apply exists_grid_false. }
  assert (E' : existsb (fun i => existsb (fun j => sel j i) (seq 0 (f_ny f))) (seq 0 (f_nx f)) = true).
  { apply exists_grid in E as (j & i & L & M & E). apply (exists_grid (fun i j => sel j i)). exists i, j. auto. }
  destruct (extent (fun j => existsb (fun i => sel j i) (seq 0 (f_nx f))) (f_ny f)) as [j0 j1] eqn:X.
  destruct (extent (fun i => existsb (fun j => sel j i) (seq 0 (f_ny f))) (f_nx f)) as [i0 i1] eqn:Y.
  apply extent_spec in X; [|exact E]. apply extent_spec in Y; [|exact E'].
  destruct X as (X1 & X2 & X3 & X4 & X5). destruct Y as (Y1 & Y2 & Y3 & Y4 & Y5).
  apply exists_seq in X1, X2, Y1, Y2.
  assert (W : forall c o s d, Win (f_ny f) (f_nx f) sel (mkR c j0 j1 i0 i1 o s d)).
  { intros. unfold Win; cbn [r_j0 r_j1 r_i0 r_i1]. repeat (split; [assumption|]).
    split; [|auto]. intros j i L M K. split.
    - apply X5; [exact L|]. apply exists_seq. eauto.
    - apply Y5; [exact M|]. apply exists_seq. eauto. }
  destruct (existsb (fun j => existsb (fun i => negb (sel (j0 + j)%nat (i0 + i)%nat)) (seq 0 (i1 - i0))) (seq 0 (j1 - j0))) eqn:M.
  - destruct (f_loaded f) eqn:Lo; cbn [r_crs r_j0 r_j1 r_i0 r_i1 r_own r_smask r_dmask set_dmask f_crs f_ny f_nx f_vec f_lon f_lat f_mask f_loaded].
    + split; [apply W|]. do 10 (split; [solve [auto]|]). split; [|now left].
      right. split; [reflexivity|]. unfold mask_after. cbn [r_j0 r_j1 r_i0 r_i1]. now destruct (f_mask f).
    + split; [apply W|]. do 10 (split; [solve [auto]|]). split; now left.
  - cbn [r_crs r_j0 r_j1 r_i0 r_i1 r_own r_smask r_dmask height width].
    split; [apply W|]. do 10 (split; [solve [auto]|]). split; [now left|].
    right. split; [reflexivity|]. split; [reflexivity|]. rewrite exists_grid_false in M. exact M.
Qed.

Definition InWin (r : result) (j i : nat) : bool :=
  (((r_j0 r <=? j) && (j <? r_j1 r)) && ((r_i0 r <=? i) && (i <? r_i1 r)))%nat.

Definition GrownMask (f f' : field) (r : result) (inside : Z -> Z -> bool) : Prop :=
  f_loaded f = true /\ exists d d', f_mask f = Some d /\ f_mask f' = Some d' /\
    forall t j i, d' t j i = d t j i || (InWin r j i && negb (chosen f inside j i)).

Definition shifts (f : field) : bool := match f_crs f with Sph => wstate_eqb (field_state f) Unwrapped | _ => false end.

Definition base_mask (f : field) (r : result) (t j i : nat) : bool :=
  match f_mask f with Some d => d t (r_j0 r + j)%nat (r_i0 r + i)%nat | None => false end.

Definition Outcome (f : field) (inside : Z -> Z -> bool) (f' : field) (r : result) : Prop :=
  Win (f_ny f) (f_nx f) (chosen f inside) r /\ r_crs r = f_crs f /\ r_own r = None /\
  (forall j i, (j < height r)%nat -> (i < width r)%nat -> r_smask r j i = negb (chosen f inside (r_j0 r + j) (r_i0 r + i)%nat)) /\
  f_crs f' = f_crs f /\ f_ny f' = f_ny f /\ f_nx f' = f_nx f /\ f_vec f' = f_vec f /\
  (forall j i, f_lon f' j i = f_lon f j i) /\ f_lat f' = f_lat f /\ f_loaded f' = f_loaded f /\
  (f_mask f' = f_mask f \/ GrownMask f f' r inside) /\
  ((exists d, r_dmask r = Some d /\ forall t j i, (j < height r)%nat -> (i < width r)%nat -> d t j i = base_mask f r t j i || r_smask r j i) \/
   r_dmask r = None /\ f_mask f' = f_mask f /\
   forall j i, (j < height r)%nat -> (i < width r)%nat -> r_smask r j i = false).

Definition Failure (f : field) (inside : Z -> Z -> bool) (f' : field) : Prop :=
  (forall j i, (j < f_ny f)%nat -> (i < f_nx f)%nat -> chosen f inside j i = false) /\
  f_crs f' = f_crs f /\ f_ny f' = f_ny f /\ f_nx f' = f_nx f /\ f_vec f' = f_vec f /\
  f_lat f' = f_lat f /\ f_loaded f' = f_loaded f /\ f_mask f' = f_mask f /\
  forall j i, f_lon f' j i = f_lon f j i \/ shifts f = true /\ f_lon f j i < 0 /\ f_lon f' j i = f_lon f j i + 360.

(** An operation object at its start leaves nothing behind in itself. *)
Lemma subset_spec reproject f inside : f_crs f <> Rot ->
  match get_spatial_subset reproject (new_operation false None) f inside with
  | (Ok r, _, f') => Outcome f inside f' r
  | (Err e, _, f') => e = EmptySubsetError /\ Failure f inside f'
  end.
Proof.
  intro NR. unfold get_spatial_subset. cbv zeta.
  destruct (prepare_target reproject (new_operation false None) f) as [o1 f1] eqn:P.
  assert (H : o_wrap o1 = false /\ o_output o1 = None /\ o_rotated o1 = false /\
    f_crs f1 = f_crs f /\ f_ny f1 = f_ny f /\ f_nx f1 = f_nx f /\ f_vec f1 = f_vec f /\ f_lat f1 = f_lat f /\
    f_loaded f1 = f_loaded f /\ f_mask f1 = f_mask f /\
    (forall j i, (j < f_ny f)%nat -> (i < f_nx f)%nat ->
       geom_at (field_state f) inside (f_lon f1 j i) (f_lat f1 j i) = chosen f inside j i) /\
    (forall j i, f_lon f1 j i = f_lon f j i \/ shifts f = true /\ f_lon f j i < 0 /\ f_lon f1 j i = f_lon f j i + 360) /\
    (forall g, f_lon g = f_lon f1 -> let g' := snd (finalize_target o1 g) in
       (forall j i, f_lon g' j i = f_lon f j i) /\ f_crs g' = f_crs g /\ f_ny g' = f_ny g /\ f_nx g' = f_nx g /\
       f_vec g' = f_vec g /\ f_lat g' = f_lat g /\ f_loaded g' = f_loaded g /\ f_mask g' = f_mask g)).
  { unfold prepare_target in P. cbv zeta in P.
    assert (Same : (o1, f1) = (new_operation false None, f) ->
      (forall j i, (j < f_ny f)%nat -> (i < f_nx f)%nat -> shifts f = true -> 0 <= f_lon f j i) ->
      o_wrap o1 = false /\ o_output o1 = None /\ o_rotated o1 = false /\
      f_crs f1 = f_crs f /\ f_ny f1 = f_ny f /\ f_nx f1 = f_nx f /\ f_vec f1 = f_vec f /\ f_lat f1 = f_lat f /\
      f_loaded f1 = f_loaded f /\ f_mask f1 = f_mask f /\
      (forall j i, (j < f_ny f)%nat -> (i < f_nx f)%nat ->
         geom_at (field_state f) inside (f_lon f1 j i) (f_lat f1 j i) = chosen f inside j i) /\
      (forall j i, f_lon f1 j i = f_lon f j i \/ shifts f = true /\ f_lon f j i < 0 /\ f_lon f1 j i = f_lon f j i + 360) /\
      (forall g, f_lon g = f_lon f1 -> let g' := snd (finalize_target o1 g) in
         (forall j i, f_lon g' j i = f_lon f j i) /\ f_crs g' = f_crs g /\ f_ny g' = f_ny g /\ f_nx g' = f_nx g /\
         f_vec g' = f_vec g /\ f_lat g' = f_lat g /\ f_loaded g' = f_loaded g /\ f_mask g' = f_mask g)).
    { intros E Z. injection E as -> ->. do 10 (split; [reflexivity|]). split; [|split].
      - intros j i L M. unfold chosen. fold (shifts f).
        destruct (shifts f) eqn:S; cbn [andb]; [|reflexivity].
        specialize (Z j i L M eq_refl). destruct (f_lon f j i <? 0) eqn:K; [lia|]. reflexivity.
      - intros. now left.
      - intros g E. cbn. rewrite E. repeat split. }
    destruct (f_crs f) eqn:C; try congruence.
    - destruct (wstate_eqb (field_state f) Unwrapped) eqn:S.
      2: { apply Same; [congruence|]. unfold shifts. rewrite C, S. discriminate. }
      destruct (existsb (fun j => existsb (fun i => f_lon f j i <? 0) (seq 0 (f_nx f))) (seq 0 (f_ny f))) eqn:X.
      2: { apply Same; [congruence|]. rewrite exists_grid_false in X. intros j i L M _. specialize (X j i L M). lia. }
      injection P as <- <-. cbn [o_wrap o_output o_rotated new_operation set_lon f_crs f_ny f_nx f_vec f_lat f_loaded f_mask f_lon].
      rewrite C. do 10 (split; [reflexivity|]). split; [|split].
      + intros j i L M. unfold chosen. rewrite C, S. reflexivity.
      + intros j i. unfold shifts. rewrite C, S. destruct (f_lon f j i <? 0) eqn:K; [right | now left]. split; [reflexivity|]. lia.
      + intros g E. cbn [finalize_target o_shifted snd set_lon f_lon f_crs f_ny f_nx f_vec f_lat f_loaded f_mask].
        split; [|repeat split]. intros j i. rewrite E. destruct (f_lon f j i <? 0) eqn:K; lia.
    - apply Same; [congruence|]. unfold shifts. rewrite C. discriminate.
    - apply Same; [congruence|]. unfold shifts. rewrite C. discriminate. }
  destruct H as (H1 & H2 & H3 & H4 & H5 & H6 & H7 & H8 & H9 & H10 & H11 & H12 & H13).
  pose proof (grid_subset_spec f1 (fun j i => geom_at (field_state f) inside (f_lon f1 j i) (f_lat f1 j i))) as G.
  destruct (grid_subset f1 (fun j i => geom_at (field_state f) inside (f_lon f1 j i) (f_lat f1 j i))) as [[r f2]|e].
  2: { destruct G as [-> G]. split; [reflexivity|]. rewrite H5, H6 in G.
       unfold Failure. repeat (split; [solve [auto] || (intros j i L M; rewrite <- H11 by assumption; now apply G)|]). exact H12. }
  destruct G as (W & G2 & G3 & G4 & G5 & G6 & G7 & G8 & G9 & G10 & G11 & G12 & G13).
  rewrite H2, H1, H3. cbn [andb].
  specialize (H13 f2 G9). destruct (finalize_target o1 f2) as [o2 f4] eqn:F. cbn [snd] in H13. cbv zeta in H13.
  destruct H13 as (K1 & K2 & K3 & K4 & K5 & K6 & K7 & K8).
  rewrite H5, H6 in W.
  assert (B : (r_j1 r <= f_ny f)%nat /\ (r_i1 r <= f_nx f)%nat) by (destruct W as (? & ? & _); auto).
  unfold Outcome. split.
  { unfold Win in *. destruct W as (A & B' & C & D & E & (a & La & Sa) & (b & Lb & Sb) & (c & Lc & Sc) & (d & Ld & Sd)).
    repeat (split; [assumption|]). split.
    - intros j i L M S. apply E; auto. rewrite H11; auto.
    - rewrite H11 in Sa, Sb, Sc, Sd by lia. split; [now exists a|]. split; [now exists b|]. split; [now exists c | now exists d]. }
  split; [congruence|]. split; [exact G3|]. split.
  { intros j i L M. rewrite G4, H11; [reflexivity| |]; unfold height, width in *; lia. }
  do 4 (split; [congruence|]). split; [exact K1|]. split; [congruence|]. split; [congruence|]. split.
  - destruct G12 as [G12|[G12 G12']]; [left; congruence|]. unfold mask_after in G12'. rewrite H10 in G12'.
    destruct (f_mask f) as [d|] eqn:D; [|left; congruence].
    right. split; [congruence|]. eexists d, _. split; [exact D|]. split; [rewrite K8; exact G12'|].
    intros t j i. cbv beta. fold (InWin r j i). destruct (InWin r j i) eqn:I; [|reflexivity].
    rewrite H11; [reflexivity| |]; unfold InWin in I; lia.
  - destruct G13 as [G13|(G13 & G14 & G15)].
    + left. rewrite H10 in G13. eexists. split; [exact G13|]. intros t j i _ _. reflexivity.
    + right. split; [exact G13|]. split; [congruence|exact G15].
Qed.

Lemma chosen_place f inside j i : InRange f -> f_crs f <> Rot -> (j < f_ny f)%nat -> (i < f_nx f)%nat ->
  chosen f inside j i = inside (match f_crs f with Flat => f_lon f j i | _ => wrap_x (f_lon f j i) end) (f_lat f j i).
Proof.
  intros R NR L M. unfold chosen.
  pose proof (state_cases (f_crs f) (f_ny f) (f_nx f) (f_lon f)) as St. fold (field_state f) in St.
  unfold InRange in R. destruct (f_crs f) eqn:C; try congruence.
  - pose proof (R j i L M) as X. destruct (field_state f) eqn:S; cbn [wstate_eqb andb geom_at].
    + destruct St as (_ & St & _). specialize (St j i L M). unfold wrap_x. destruct (180 <? f_lon f j i) eqn:K; [lia|reflexivity].
    + destruct (f_lon f j i <? 0) eqn:K.
      * destruct (0 <=? f_lon f j i + 360) eqn:K1; [|lia]. destruct (180 <? f_lon f j i + 360) eqn:K2; [|lia].
        unfold wrap_x. destruct (180 <? f_lon f j i) eqn:K3; [lia|]. cbn [andb]. f_equal. lia.
      * destruct (0 <=? f_lon f j i) eqn:K1; [|lia]. reflexivity.
    + destruct St as (_ & St). specialize (St j i L M). unfold wrap_x. destruct (180 <? f_lon f j i) eqn:K; [lia|reflexivity].
    + destruct St; discriminate.
  - cbn [andb]. destruct (field_state f) eqn:S; cbn [geom_at].
    + destruct St as (_ & St & _). specialize (St j i L M). unfold wrap_x. destruct (180 <? f_lon f j i) eqn:K; [lia|reflexivity].
    + destruct St as (_ & j' & i' & L' & M' & X). destruct R as [R|R]; [specialize (R j' i' L' M'); lia|].
      specialize (R j i L M). destruct (0 <=? f_lon f j i) eqn:K; [reflexivity|lia].
    + destruct St as (_ & St). specialize (St j i L M). unfold wrap_x. destruct (180 <? f_lon f j i) eqn:K; [lia|reflexivity].
    + destruct St; discriminate.
  - cbn [andb]. destruct (field_state f); cbn [geom_at]; try reflexivity; destruct St as [[?|?] _]; discriminate.
Qed.

Lemma range_place f j i : InRange f -> f_crs f <> Rot -> (j < f_ny f)%nat -> (i < f_nx f)%nat ->
  forall p, PlaceOf (f_crs f) (f_lon f j i) p <-> p = match f_crs f with Flat => f_lon f j i | _ => wrap_x (f_lon f j i) end.
Proof.
  intros R NR L M p. unfold InRange in R. destruct (f_crs f) eqn:C; try congruence.
  - apply place_wrap; auto.
  - apply place_wrap; [auto|]. destruct R as [R|R]; specialize (R j i L M); lia.
  - cbn. tauto.
Qed.

Lemma chosen_inside f inside j i : InRange f -> f_crs f <> Rot -> (j < f_ny f)%nat -> (i < f_nx f)%nat ->
  (chosen f inside j i = true <-> Inside f inside j i).
Proof.
  intros R NR L M. rewrite chosen_place by assumption. unfold Inside. split.
  - intro E. split; [exact L|]. split; [exact M|]. eexists. split; [|exact E]. now apply range_place.
  - intros (_ & _ & p & P & E). apply range_place in P; try assumption. now rewrite <- P.
Qed.

Lemma base_masked f r t j i : base_mask f r t j i = true <-> Masked f t (r_j0 r + j) (r_i0 r + i).
Proof.
  unfold base_mask, Masked. split.
  - destruct (f_mask f) as [d|]; [|discriminate]. eauto.
  - intros (d & -> & E). exact E.
Qed.

Lemma not_inside f inside j i : InRange f -> f_crs f <> Rot -> (j < f_ny f)%nat -> (i < f_nx f)%nat ->
  (negb (chosen f inside j i) = true <-> ~ Inside f inside j i).
Proof.
  intros R NR L M. rewrite <- chosen_inside by assumption. destruct (chosen f inside j i); cbn; intuition congruence.
Qed.

Lemma outcome_subset f inside f' r : InRange f -> f_crs f <> Rot -> Outcome f inside f' r -> SubsetOf f inside f' r.
Proof.
  intros R NR (W & O2 & O3 & O4 & O5 & O6 & O7 & O8 & O9 & O10 & O11 & O12 & O13).
  pose proof W as W'. destruct W' as (A & B & C & D & E & (a & La & Sa) & (b & Lb & Sb) & (c & Lc & Sc) & (d & Ld & Sd)).
  unfold SubsetOf. split; [exact O2|]. split; [exact A|]. split; [exact B|]. split.
  { intros j i I. pose proof I as (L & M & _). apply E; auto. now apply chosen_inside. }
  split; [exists a; apply chosen_inside; auto; lia|]. split; [exists b; apply chosen_inside; auto; lia|].
  split; [exists c; apply chosen_inside; auto; lia|]. split; [exists d; apply chosen_inside; auto; lia|].
  intros j i L M. rewrite (O4 j i L M). unfold height, width in L, M.
  split; [apply not_inside; auto; lia|].
  split; [unfold read_lon; rewrite O3; apply O9|]. split; [unfold read_lat; rewrite O3, O10; reflexivity|].
  intro t. rewrite <- base_masked, <- not_inside by (auto; lia). rewrite <- (O4 j i L M).
  unfold read_mask. destruct O13 as [(dm & Dm & Rd)|(Dm & Fm & Nm)]; rewrite Dm.
  - rewrite (Rd t j i L M), orb_true_iff. tauto.
  - rewrite Fm, (Nm j i L M). fold (base_mask f r t j i). unfold base_mask. destruct (f_mask f); intuition congruence.
Qed.

Lemma result_partial reproject f inside o f' r : InRange f -> f_crs f <> Rot ->
  get_spatial_subset reproject (new_operation false None) f inside = (Ok r, o, f') -> SubsetOf f inside f' r.
Proof.
  intros R NR E. pose proof (subset_spec reproject f inside NR) as S. rewrite E in S. now apply outcome_subset.
Qed.

Lemma nothing_partial reproject f inside : InRange f -> f_crs f <> Rot ->
  match get_spatial_subset reproject (new_operation false None) f inside with
  | (Ok _, _, _) => exists j i, Inside f inside j i
  | (Err e, _, _) => e = EmptySubsetError /\ forall j i, ~ Inside f inside j i
  end.
Proof.
  intros R NR. pose proof (subset_spec reproject f inside NR) as S.
  destruct (get_spatial_subset reproject (new_operation false None) f inside) as [[[r|e] o] f'].
  - apply outcome_subset in S; auto. destruct S as (_ & _ & _ & _ & (i & I) & _). eauto.
  - destruct S as [-> (F & _)]. split; [reflexivity|]. intros j i I. pose proof I as (L & M & _).
    apply chosen_inside in I; auto. rewrite F in I; auto. discriminate.
Qed.

Lemma same_partial reproject f inside r o f' : f_crs f <> Rot -> f_loaded f = false \/ f_mask f = None ->
  get_spatial_subset reproject (new_operation false None) f inside = (Ok r, o, f') -> SameField f' f.
Proof.
  intros NR U E. pose proof (subset_spec reproject f inside NR) as S. rewrite E in S.
  destruct S as (W & O2 & O3 & O4 & O5 & O6 & O7 & O8 & O9 & O10 & O11 & O12 & O13).
  unfold SameField. rewrite O10. repeat (split; [solve [auto]|]).
  intros t j i. destruct O12 as [O12|[Lo (d & d' & D & _)]].
  - unfold Masked. rewrite O12. tauto.
  - destruct U; congruence.
Qed.

Lemma same_empty_partial reproject f inside o f' : f_crs f <> Rot ->
  f_crs f <> Sph \/ (forall j i, 0 <= f_lon f j i) \/ (forall j i, f_lon f j i <= 180) ->
  get_spatial_subset reproject (new_operation false None) f inside = (Err EmptySubsetError, o, f') -> SameField f' f.
Proof.
  intros NR U E. pose proof (subset_spec reproject f inside NR) as S. rewrite E in S.
  destruct S as [_ (F1 & F2 & F3 & F4 & F5 & F6 & F7 & F8 & F9)].
  unfold SameField. rewrite F6. repeat (split; [solve [auto]|]). split.
  - intros j i. destruct (F9 j i) as [X|(S & N & X)]; [exact X|]. exfalso.
    unfold shifts in S. destruct (f_crs f) eqn:C; try discriminate.
    destruct U as [U|[U|U]]; [congruence | specialize (U j i); lia |].
    destruct (field_state f) eqn:St; try discriminate.
    pose proof (state_cases (f_crs f) (f_ny f) (f_nx f) (f_lon f)) as Sc. fold (field_state f) in Sc. rewrite St in Sc.
    destruct Sc as (_ & j' & i' & _ & _ & Y). specialize (U j' i'). lia.
  - split; [reflexivity|]. intros t j i. unfold Masked. rewrite F8. tauto.
Qed.
