(** Proofs for C42, C43: text, booleans, ranges, unique sequences, slices. *)
From Coq Require Import QArith Ascii Sorted Permutation.
From Verif Require Import Py Lib Spec PicksLib NdProofs CalcProofs TimeModel TimeSpec CalcModel OpsModel OpsSpec.
Local Open Scope string_scope.
Local Open Scope Z_scope.

(** ** Text *)

Lemma is_space_spec c : is_space c = true <-> Blank c.
Proof. unfold is_space, Blank, code. cbv zeta. lia. Qed.

Lemma code_range c : 0 <= code c < 256.
Proof. unfold code. pose proof (nat_ascii_bounded c). lia. Qed.

Lemma code_ascii n : 0 <= n < 256 -> code (ascii_of_nat (Z.to_nat n)) = n.
Proof. intros H. unfold code. rewrite nat_ascii_embedding; lia. Qed.

Lemma code_inj c d : code c = code d -> c = d.
Proof. intros H. rewrite <- (ascii_nat_embedding c), <- (ascii_nat_embedding d). f_equal. unfold code in H. lia. Qed.

Lemma lower_spec c d : SameLetter c d <-> d = lower_char c.
Proof.
  unfold lower_char. cbv zeta. change (Z.of_nat (nat_of_ascii c)) with (code c).
  pose proof (code_range c). unfold SameLetter. split.
  - intros [[-> Hn]|[Hc Hd]].
    + destruct ((65 <=? code d) && (code d <=? 90)) eqn:E; [lia|reflexivity].
    + replace ((65 <=? code c) && (code c <=? 90)) with true by lia.
      apply code_inj. rewrite code_ascii; lia.
  - destruct ((65 <=? code c) && (code c <=? 90)) eqn:E; intros ->.
    + right. rewrite code_ascii by lia. lia.
    + left. split; [reflexivity|lia].
Qed.

Lemma lower_blank c : is_space (lower_char c) = is_space c.
Proof.
  apply eq_true_iff_eq. rewrite !is_space_spec. unfold Blank.
  destruct (proj2 (lower_spec c (lower_char c)) eq_refl) as [[E _]|[A B]]; [rewrite <- E; reflexivity|]. lia.
Qed.

Lemma lower_list l m : Forall2 SameLetter l m <-> m = map lower_char l.
Proof.
  split.
  - induction 1 as [|c d l m Hcd _ IH]; [reflexivity|]. cbn. apply lower_spec in Hcd. congruence.
  - intros ->. induction l as [|c l IH]; cbn; constructor; [apply lower_spec; reflexivity|exact IH].
Qed.

Definition spaces (l : list ascii) : Prop := Forall (fun c => is_space c = true) l.
Definition trim (l : list ascii) : Prop :=
  (forall c t, l = c :: t -> is_space c = false) /\ (forall c t, l = (t ++ [c])%list -> is_space c = false).

Lemma drop_spaces_split l : exists pre, l = (pre ++ drop_spaces l)%list /\ spaces pre /\
  forall c t, drop_spaces l = c :: t -> is_space c = false.
Proof.
  induction l as [|c l IH]; cbn.
  - exists []. split; [reflexivity|]. split; [constructor|discriminate].
  - destruct (is_space c) eqn:E.
    + destruct IH as (pre & H & Hs & Hc). exists (c :: pre). split; [cbn; congruence|]. split; [constructor; assumption|exact Hc].
    + exists []. split; [reflexivity|]. split; [constructor|]. intros c' t H. injection H as <- <-. exact E.
Qed.

Lemma drop_spaces_app pre l : spaces pre -> drop_spaces (pre ++ l) = drop_spaces l.
Proof. induction 1 as [|c pre Hc _ IH]; [reflexivity|]. cbn. rewrite Hc. exact IH. Qed.

Lemma drop_spaces_id l : (forall c t, l = c :: t -> is_space c = false) -> drop_spaces l = l.
Proof. destruct l as [|c l]; [reflexivity|]. intros H. cbn. rewrite (H c l eq_refl). reflexivity. Qed.

Lemma spaces_rev l : spaces l -> spaces (rev l).
Proof. apply Forall_rev. Qed.

Lemma strip_split l : exists pre suf, l = (pre ++ strip_chars l ++ suf)%list /\ spaces pre /\ spaces suf /\ trim (strip_chars l).
Proof.
  destruct (drop_spaces_split l) as (pre & H1 & H2 & H3).
  destruct (drop_spaces_split (rev (drop_spaces l))) as (suf & H4 & H5 & H6).
  exists pre, (rev suf). unfold strip_chars. split.
  - rewrite H1 at 1. f_equal. rewrite <- rev_app_distr. rewrite <- H4. rewrite rev_involutive. reflexivity.
  - split; [exact H2|]. split; [apply spaces_rev; exact H5|]. split.
    + intros c t E. apply H3 with (t := (t ++ rev suf)%list).
      rewrite <- (rev_involutive (drop_spaces l)), H4, rev_app_distr, E. reflexivity.
    + intros c t E. apply H6 with (t := rev t). rewrite <- (rev_involutive (drop_spaces (rev (drop_spaces l)))), E.
      rewrite rev_app_distr. reflexivity.
Qed.

Lemma strip_of pre mid suf : spaces pre -> spaces suf -> trim mid -> strip_chars (pre ++ mid ++ suf) = mid.
Proof.
  intros Hp Hs [Ht1 Ht2]. unfold strip_chars. rewrite drop_spaces_app by exact Hp.
  destruct mid as [|c mid].
  - cbn [app]. assert (E : drop_spaces suf = []).
    { rewrite <- (app_nil_r suf), drop_spaces_app by exact Hs. reflexivity. }
    rewrite E. reflexivity.
  - rewrite (drop_spaces_id ((c :: mid) ++ suf)).
    + rewrite rev_app_distr, drop_spaces_app by (apply spaces_rev; exact Hs).
      rewrite drop_spaces_id; [apply rev_involutive|].
      intros d t E. apply Ht2 with (t := rev t). rewrite <- (rev_involutive (c :: mid)), E. reflexivity.
    + intros d t E. injection E as <- _. exact (Ht1 c mid eq_refl).
Qed.

Lemma letters_of l : letters (of_chars l) = l.
Proof. apply list_ascii_of_string_of_list_ascii. Qed.
Lemma of_letters s : of_chars (letters s) = s.
Proof. apply string_of_list_ascii_of_string. Qed.
Lemma letters_app s t : letters (s ++ t) = (letters s ++ letters t)%list.
Proof. induction s as [|c s IH]; [reflexivity|]. cbn. f_equal. exact IH. Qed.
Lemma of_chars_app l m : of_chars (l ++ m)%list = of_chars l ++ of_chars m.
Proof. induction l as [|c l IH]; [reflexivity|]. cbn. f_equal. exact IH. Qed.

Lemma spaces_blank l : spaces l <-> Forall Blank l.
Proof. unfold spaces. rewrite !Forall_forall. split; intros H c Hc; apply is_space_spec, H, Hc. Qed.

Lemma trim_spec l : trim l <-> Trimmed (of_chars l).
Proof.
  unfold trim, Trimmed. rewrite letters_of. split; intros [A B]; split; intros c t E.
  - intros Hb. apply is_space_spec in Hb. rewrite (A _ _ E) in Hb. discriminate.
  - intros Hb. apply is_space_spec in Hb. rewrite (B _ _ E) in Hb. discriminate.
  - destruct (is_space c) eqn:F; [|reflexivity]. apply is_space_spec in F. destruct (A _ _ E F).
  - destruct (is_space c) eqn:F; [|reflexivity]. apply is_space_spec in F. destruct (B _ _ E F).
Qed.

Lemma spaces_lower l : spaces (map lower_char l) <-> spaces l.
Proof.
  unfold spaces. rewrite Forall_map, !Forall_forall. split; intros H c Hc; specialize (H c Hc); rewrite lower_blank in *; exact H.
Qed.

Lemma clean_spec s w : of_chars (strip_chars (map lower_char (chars s))) = w <-> Spelled s w /\ Trimmed w.
Proof.
  change (chars s) with (letters s). split.
  - intros <-. destruct (strip_split (map lower_char (letters s))) as (pre & suf & E & Hp & Hs & Ht).
    set (mid := strip_chars (map lower_char (letters s))) in *. split; [|apply trim_spec; exact Ht].
    assert (H : exists p m u, letters s = (p ++ m ++ u)%list /\ map lower_char p = pre /\ map lower_char m = mid /\ map lower_char u = suf).
    { apply map_eq_app in E. destruct E as (p & r & E1 & E2 & E3). apply map_eq_app in E3. destruct E3 as (m & u & E3 & E4 & E5).
      exists p, m, u. subst. repeat split; auto. }
    destruct H as (p & m & u & E1 & <- & E2 & <-). exists (of_chars p), (of_chars m), (of_chars u).
    unfold AllBlank. rewrite !letters_of. split; [|split; [|split]].
    + rewrite <- !of_chars_app, <- E1. symmetry. apply of_letters.
    + apply spaces_blank, spaces_lower, Hp.
    + apply spaces_blank, spaces_lower, Hs.
    + apply lower_list. symmetry. exact E2.
  - intros [(pre & mid & suf & -> & Hp & Hs & Hm) Ht]. rewrite !letters_app, !map_app. apply lower_list in Hm. rewrite <- Hm.
    rewrite strip_of; [apply of_letters|apply spaces_lower, spaces_blank, Hp|apply spaces_lower, spaces_blank, Hs|].
    apply trim_spec. rewrite of_letters. exact Ht.
Qed.

(** ** Booleans *)

Definition true_words : list string := ["true"; "t"; "1"].
Definition false_words : list string := ["false"; "f"; "0"].

Lemma trimmed_word w : In w (["true"; "t"; "1"] ++ ["false"; "f"; "0"] ++ ["none"])%list -> Trimmed w.
Proof.
  intros H. rewrite <- (of_letters w). apply trim_spec.
  assert (E : (match letters w with c :: _ => is_space c | [] => true end) = false /\
              (match rev (letters w) with c :: _ => is_space c | [] => true end) = false).
  { cbn in H. repeat (destruct H as [<-|H]; [split; reflexivity|]). destruct H. }
  destruct E as [A B]. split.
  - intros c t Ec. rewrite Ec in A. exact A.
  - intros c t Ec. rewrite Ec in B. rewrite rev_app_distr in B. exact B.
Qed.

Lemma boolean_text s b : boolean_set (PStr s) = Ok b <->
  exists w, In w (if b then ["true"; "t"; "1"] else ["false"; "f"; "0"]) /\ Spelled s w.
Proof.
  unfold boolean_set, parse_string. cbv zeta.
  set (m := of_chars (strip_chars (map lower_char (chars s)))).
  assert (Hm : forall w, m = w <-> Spelled s w /\ Trimmed w) by (intros w; apply clean_spec).
  transitivity (In m (if b then ["true"; "t"; "1"] else ["false"; "f"; "0"])).
  - clearbody m. clear Hm. destruct (String.eqb_spec m "none") as [->|Hn].
    { cbn. split; [discriminate|]. destruct b; cbn; intuition discriminate. }
    unfold boolean_of_string. cbn [existsb].
    destruct (String.eqb_spec m "true") as [->|H1]; [cbn; destruct b; cbn; intuition congruence|].
    destruct (String.eqb_spec m "t") as [->|H2]; [cbn; destruct b; cbn; intuition congruence|].
    destruct (String.eqb_spec m "1") as [->|H3]; [cbn; destruct b; cbn; intuition congruence|].
    destruct (String.eqb_spec m "false") as [->|H4]; [cbn; destruct b; cbn; intuition congruence|].
    destruct (String.eqb_spec m "f") as [->|H5]; [cbn; destruct b; cbn; intuition congruence|].
    destruct (String.eqb_spec m "0") as [->|H6]; [cbn; destruct b; cbn; intuition congruence|].
    cbn. split; [discriminate|]. destruct b; cbn; intuition congruence.
  - split.
    + intros H. exists m. split; [exact H|]. apply Hm. reflexivity.
    + intros (w & Hw & Hs). assert (E : m = w).
      { apply Hm. split; [exact Hs|]. apply trimmed_word. apply in_or_app. destruct b; [left; exact Hw|right; apply in_or_app; left; exact Hw]. }
      rewrite E. exact Hw.
Qed.

Lemma boolean_value v b : (forall s, v <> PStr s) ->
  boolean_set v = Ok b <-> v = PBool b \/ exists z, v = PInt z /\ (b = true <-> z <> 0).
Proof.
  intros Hs. destruct v as [|c|z|q| |s|t|l|l|n]; cbn; try (split; [discriminate|intros [H|(z & H & _)]; discriminate]).
  - destruct c; cbn; split; intros H; try (left; congruence); destruct H as [H|(z & H & _)]; congruence.
  - unfold Qeq_bool. cbn. rewrite !Z.mul_1_r. rewrite <- !Zeq_is_eq_bool || idtac.
    replace (Zeq_bool z 0) with (z =? 0) by (rewrite Zeq_is_eq_bool || idtac; unfold Zeq_bool; rewrite Z.eqb_compare; destruct (z ?= 0); reflexivity).
    replace (Zeq_bool z 1) with (z =? 1) by (unfold Zeq_bool; rewrite Z.eqb_compare; destruct (z ?= 1); reflexivity).
    destruct (Z.eqb_spec z 0) as [->|Hz]; [|destruct (Z.eqb_spec z 1) as [->|Hz1]].
    + split.
      * intros H. right. exists 0. split; [reflexivity|]. assert (b = false) by congruence. subst b. split; [discriminate|lia].
      * intros [H|(z & H & Hb)]; [discriminate|]. injection H as <-. destruct b; [|reflexivity]. destruct (proj1 Hb eq_refl). reflexivity.
    + split.
      * intros H. right. exists 1. split; [reflexivity|]. assert (b = true) by congruence. subst b. split; [lia|reflexivity].
      * intros [H|(z & H & Hb)]; [discriminate|]. injection H as <-. f_equal. symmetry. apply Hb. lia.
    + replace (z =? 0) with false by lia. cbn. split.
      * intros H. right. exists z. split; [reflexivity|]. assert (b = true) by congruence. subst b. tauto.
      * intros [H|(z' & H & Hb)]; [discriminate|]. injection H as <-. f_equal. symmetry. apply Hb. exact Hz.
  - destruct (Hs s eq_refl).
Qed.

Lemma boolean_error v e : boolean_set v = Err e -> e = DefinitionValidationError.
Proof.
  destruct v as [|c|z|q| |s|t|l|l|n]; cbn; try congruence.
  - destruct c; cbn; congruence.
  - destruct (Qeq_bool _ _); [congruence|]. destruct (Qeq_bool _ _); congruence.
  - destruct (parse_string s) as [t|]; cbn; [|congruence]. unfold boolean_of_string.
    repeat match goal with |- context [if ?b then _ else _] => destruct b; cbn; try congruence end.
Qed.

(** ** Sequences *)

Lemma map_res_same {A} (f : A -> bool) e (l r : list A) :
  map_res (fun x => if f x then Ok x else Err e) l = Ok r <-> r = l /\ Forall (fun x => f x = true) l.
Proof.
  revert r. induction l as [|x l IH]; intros r; cbn.
  - split; [intros H; injection H as <-; split; [reflexivity|constructor]|intros [-> _]; reflexivity].
  - destruct (f x) eqn:E; cbn.
    + destruct (map_res _ l) as [r'|e'] eqn:F; cbn.
      * destruct (proj1 (IH r') eq_refl) as [-> Hl]. split.
        -- intros H. injection H as <-. split; [reflexivity|constructor; assumption].
        -- intros [-> _]. reflexivity.
      * split; [discriminate|]. intros [-> H]. inversion H as [|? ? _ Hl]; subst.
        destruct (proj2 (IH l) (conj eq_refl Hl)) || (assert (X := proj2 (IH l) (conj eq_refl Hl)); discriminate).
    + split; [discriminate|]. intros [_ H]. inversion H; congruence.
Qed.

Lemma py_gt_num a b x y : NumberOf a x -> NumberOf b y -> py_gt a b = Ok (negb (Qle_bool x y)).
Proof. intros [(z & -> & ->)| ->] [(w & -> & ->)| ->]; reflexivity. Qed.

Lemma range_pair types value : forall r,
  (do ret <- check_types types value; do _ <- validate_range ret; Ok (Some ret)) = Ok (Some r) <->
  r = value /\ exists a b, value = [a; b] /\ type_mem (type_of a) types = true /\ type_mem (type_of b) types = true /\ py_gt a b = Ok false.
Proof.
  intros r. unfold check_types. split.
  - destruct (map_res _ value) as [ret|e] eqn:E; cbn; [|discriminate].
    apply map_res_same in E. destruct E as [-> Hf].
    destruct value as [|a [|b [|c t]]]; cbn; try discriminate.
    destruct (py_gt a b) as [g|e] eqn:Eg; cbn; [|discriminate]. destruct g; cbn; [discriminate|].
    intros H. injection H as <-. split; [reflexivity|]. exists a, b. inversion Hf as [|? ? Ha Hb]; subst. inversion Hb; subst.
    repeat split; auto.
  - intros (-> & a & b & -> & Ha & Hb & Hg). cbn. rewrite Ha, Hb. cbn. rewrite Hg. reflexivity.
Qed.

Lemma split_none sep a acc : ~ In sep a -> split_chars sep a acc = [(rev acc ++ a)%list].
Proof.
  revert acc. induction a as [|c a IH]; intros acc H; cbn; [rewrite app_nil_r; reflexivity|].
  destruct (Ascii.eqb_spec c sep) as [->|Hc]; [destruct H; left; reflexivity|].
  rewrite IH by (intros X; apply H; right; exact X). cbn. rewrite <- app_assoc. reflexivity.
Qed.

Lemma split_sep sep a b acc : ~ In sep a -> split_chars sep (a ++ sep :: b)%list acc = (rev acc ++ a)%list :: split_chars sep b [].
Proof.
  revert acc. induction a as [|c a IH]; intros acc H; cbn.
  - rewrite Ascii.eqb_refl, app_nil_r. reflexivity.
  - destruct (Ascii.eqb_spec c sep) as [->|Hc]; [destruct H; left; reflexivity|].
    rewrite IH by (intros X; apply H; right; exact X). cbn. rewrite <- app_assoc. reflexivity.
Qed.

Lemma split_cases sep (l : list ascii) : ~ In sep l \/ exists a b, l = (a ++ sep :: b)%list /\ ~ In sep a.
Proof.
  induction l as [|c l IH]; [left; intros []|].
  destruct (ascii_dec c sep) as [->|Hc].
  - right. exists [], l. split; [reflexivity|intros []].
  - destruct IH as [H|(a & b & -> & H)].
    + left. intros [X|X]; [congruence|exact (H X)].
    + right. exists (c :: a), b. split; [reflexivity|]. intros [X|X]; [congruence|exact (H X)].
Qed.

Lemma split_not_nil sep l acc : split_chars sep l acc <> [].
Proof. revert acc. induction l as [|c l IH]; intros acc; cbn; [discriminate|]. destruct (Ascii.eqb c sep); [discriminate|apply IH]. Qed.

Lemma split_one sep l a : split_chars sep l [] = [a] -> l = a /\ ~ In sep a.
Proof.
  destruct (split_cases sep l) as [H|(x & y & -> & H)].
  - rewrite split_none by exact H. cbn. intros E. injection E as <-. split; [reflexivity|exact H].
  - rewrite split_sep by exact H. cbn. intros E. injection E as _ E. destruct (split_not_nil _ _ _ E).
Qed.

Lemma split_two sep l a b : split_chars sep l [] = [a; b] -> l = (a ++ sep :: b)%list /\ ~ In sep a /\ ~ In sep b.
Proof.
  destruct (split_cases sep l) as [H|(x & y & -> & H)].
  - rewrite split_none by exact H. discriminate.
  - rewrite split_sep by exact H. cbn. intros E. injection E as <- E. apply split_one in E. destruct E as [-> Hb].
    split; [reflexivity|split; assumption].
Qed.

(** An element of a text, after cleaning. *)
Lemma parse_string_some s w : parse_string s = Some w <-> Spelled s w /\ Trimmed w /\ w <> "none".
Proof.
  unfold parse_string. cbv zeta. pose proof (clean_spec s) as Hc.
  set (m := of_chars (strip_chars (map lower_char (chars s)))) in *. clearbody m.
  destruct (String.eqb_spec m "none") as [->|Hn].
  - split; [discriminate|]. intros (H1 & H2 & H3). destruct H3. symmetry. apply Hc. split; assumption.
  - split.
    + intros H. injection H as <-. destruct (proj1 (Hc m) eq_refl) as [H1 H2]. auto.
    + intros (H1 & H2 & _). f_equal. apply Hc. split; assumption.
Qed.

(** A text of a sequence parameter whose elements stay text. *)
Lemma text_elements elem s : (exists e, sequence_input elem (PStr s) = Err e) \/ sequence_input elem (PStr s) = Ok None \/
  exists l : list pv, sequence_input elem (PStr s) = Ok (Some l) /\
    Forall2 (fun part x => (parse_string (of_chars part) = None /\ x = PNone) \/
                           exists t, parse_string (of_chars part) = Some t /\ elem t = Ok x) (split_chars "|"%char (chars s) []) l.
Proof.
  unfold sequence_input, parse_string_list.
  destruct (map_res _ (split_chars _ _ _)) as [l|e] eqn:E; cbn; [|left; exists e; reflexivity].
  right. assert (Hl : Forall2 (fun part x => (parse_string (of_chars part) = None /\ x = PNone) \/
                           exists t, parse_string (of_chars part) = Some t /\ elem t = Ok x) (split_chars "|"%char (chars s) []) l).
  { apply map_res_ok in E. eapply Forall2_imp; [|exact E]. cbn. intros part x H.
    destruct (parse_string (of_chars part)) as [t|]; [right; exists t; auto|left; split; congruence]. }
  destruct l as [|[| | | | | | | | |] [|y t]]; cbn; (left; reflexivity) || (right; eexists; split; [reflexivity|exact Hl]).
Qed.

Lemma level_range v r : (forall l, Sequence v l -> ~ In PNan l) ->
  level_range_set v = Ok (Some r) <->
  exists a b x y, Sequence v [a; b] /\ r = [a; b] /\ NumberOf a x /\ NumberOf b y /\ (x <= y)%Q.
Proof.
  intros Hn. unfold level_range_set, range_set.
  assert (Hseq : forall l, Sequence v l -> 
    (do ret <- check_types [TInt; TFloat] l; do _ <- validate_range ret; Ok (Some ret)) = Ok (Some r) <->
    exists a b x y, l = [a; b] /\ r = [a; b] /\ NumberOf a x /\ NumberOf b y /\ (x <= y)%Q).
  { intros l Hl. rewrite range_pair. specialize (Hn l Hl). split.
    - intros (-> & a & b & -> & Ha & Hb & Hg).
      assert (N : forall c, type_mem (type_of c) [TInt; TFloat] = true -> c <> PNan -> exists x, NumberOf c x).
      { intros c Hc Hcn. destruct c; try discriminate; try congruence; eexists; [left|right]; eauto. }
      destruct (N a Ha) as (x & Hx); [intros X; apply Hn; left; exact X|].
      destruct (N b Hb) as (y & Hy); [intros X; apply Hn; right; left; exact X|].
      exists a, b, x, y. rewrite (py_gt_num _ _ _ _ Hx Hy) in Hg. repeat split; auto.
      apply Qle_bool_iff. destruct (Qle_bool x y); [reflexivity|discriminate].
    - intros (a & b & x & y & -> & -> & Ha & Hb & Hxy). split; [reflexivity|]. exists a, b.
      split; [reflexivity|]. rewrite (py_gt_num _ _ _ _ Ha Hb). apply Qle_bool_iff in Hxy. rewrite Hxy.
      destruct Ha as [(z & -> & _)| ->], Hb as [(z' & -> & _)| ->]; repeat split; reflexivity. }
  destruct v as [|c|z|q| |s|t|l|l|n]; try (cbn; split; [discriminate|intros (a & b & x & y & [H|H] & _); discriminate]).
  - assert (R : forall a b x y, ~ (Sequence (PStr s) [a; b] /\ r = [a; b] /\ NumberOf a x /\ NumberOf b y /\ (x <= y)%Q)).
    { intros a b x y ([H|H] & _); discriminate. }
    split; [|intros (a & b & x & y & H); destruct (R _ _ _ _ H)]. intros H. exfalso.
    destruct (text_elements (fun s => Ok (PStr s)) s) as [(e & E)|[E|(l & E & Hl)]]; rewrite E in H; cbn [bind] in H; try discriminate.
    apply range_pair in H. destruct H as (-> & a & b & -> & Ha & _).
    inversion Hl as [|? ? ? ? [[_ ->]|(u & _ & Hu)] _]; subst; [discriminate|]. injection Hu as <-. discriminate.
  - cbn [sequence_input bind]. rewrite (Hseq l (or_introl eq_refl)). split; intros (a & b & x & y & H1 & H2).
    + exists a, b, x, y. subst l. split; [left; reflexivity|exact H2].
    + exists a, b, x, y. split; [|exact H2]. destruct H1 as [H|H]; congruence.
  - cbn [sequence_input bind]. rewrite (Hseq l (or_intror eq_refl)). split; intros (a & b & x & y & H1 & H2).
    + exists a, b, x, y. subst l. split; [right; reflexivity|exact H2].
    + exists a, b, x, y. split; [|exact H2]. destruct H1 as [H|H]; congruence.
Qed.

Lemma date_pair l r : (do ret <- check_types [TDate] l; do _ <- validate_range ret; Ok (Some ret)) = Ok (Some r) <->
  r = l /\ exists s t, l = [PDate s; PDate t] /\ s <= t.
Proof.
  rewrite range_pair. split.
  - intros (-> & a & b & -> & Ha & Hb & Hg). split; [reflexivity|].
    destruct a; try discriminate. destruct b; try discriminate. cbn in Hg. exists t, t0. split; [reflexivity|].
    assert (E : (t0 <? t) = false) by congruence. lia.
  - intros (-> & s & t & -> & H). split; [reflexivity|]. exists (PDate s), (PDate t). repeat split. cbn. f_equal. lia.
Qed.

Lemma time_range strptime v r : time_range_set strptime v = Ok (Some r) <->
  exists s t, r = [PDate s; PDate t] /\ s <= t /\
    (Sequence v r \/
     exists a b a' b', v = PStr (a ++ "|" ++ b) /\ NoBar a /\ NoBar b /\
       Spelled a a' /\ Trimmed a' /\ a' <> "none" /\ strptime a' = Some s /\
       Spelled b b' /\ Trimmed b' /\ b' <> "none" /\ strptime b' = Some t).
Proof.
  unfold time_range_set, range_set. set (elem := fun s => match strptime s with Some t => Ok (PDate t) | None => Err AssertionError end).
  destruct v as [|c|z|q| |s|t|l|l|n]; try (cbn; split; [discriminate|intros (a & b & _ & _ & [[H|H]|(? & ? & ? & ? & H & _)]); discriminate]).
  - split.
    + intros H. destruct (text_elements elem s) as [(e & E)|[E|(l & E & Hl)]]; rewrite E in H; cbn [bind] in H; try discriminate.
      apply date_pair in H. destruct H as (-> & x & y & -> & Hxy). exists x, y. split; [reflexivity|]. split; [exact Hxy|]. right.
      inversion Hl as [|p px ps pxs Hp Hps E1]; subst. inversion Hps as [|p2 p2x ps2 pxs2 Hp2 Hps2 E2]; subst. inversion Hps2; subst.
      destruct Hp as [[_ Hp]|(a' & Ha & Hx)]; [discriminate|]. destruct Hp2 as [[_ Hp2]|(b' & Hb & Hy)]; [discriminate|].
      symmetry in E1. apply split_two in E1. destruct E1 as (Es & Na & Nb).
      exists (of_chars p), (of_chars p2), a', b'. apply parse_string_some in Ha. apply parse_string_some in Hb.
      unfold NoBar. rewrite !letters_of. subst elem. cbn in Hx, Hy.
      destruct (strptime a') eqn:Ea; [|discriminate]. destruct (strptime b') eqn:Eb; [|discriminate].
      split; [|intuition congruence]. f_equal. rewrite <- (of_letters s). unfold letters. change (list_ascii_of_string s) with (chars s).
      rewrite Es. rewrite of_chars_app. reflexivity.
    + intros (x & y & -> & Hxy & [[H|H]|(a & b & a' & b' & Hs & Na & Nb & H1 & H2 & H3 & H4 & H5 & H6 & H7 & H8)]); try discriminate.
      injection Hs as ->. unfold sequence_input, parse_string_list.
      assert (Es : chars (a ++ "|" ++ b) = (letters a ++ "|"%char :: letters b)%list) by (apply (letters_app a ("|" ++ b))).
      cbn [append] in Es. rewrite Es.
      rewrite split_sep by exact Na. rewrite split_none by exact Nb. cbn [rev app].
      cbn [map_res]. rewrite !of_letters.
      rewrite (proj2 (parse_string_some a a') (conj H1 (conj H2 H3))), (proj2 (parse_string_some b b') (conj H5 (conj H6 H7))).
      unfold elem. rewrite H4, H8. cbn. replace (y <? x) with false by lia. reflexivity.
  - cbn [sequence_input bind]. rewrite date_pair. split.
    + intros (-> & s & t & -> & H). exists s, t. repeat split; auto. left. left. reflexivity.
    + intros (s & t & -> & H & [[Hv|Hv]|(a & b & a' & b' & Hv & _)]); try discriminate. injection Hv as ->. eauto.
  - cbn [sequence_input bind]. rewrite date_pair. split.
    + intros (-> & s & t & -> & H). exists s, t. repeat split; auto. left. right. reflexivity.
    + intros (s & t & -> & H & [[Hv|Hv]|(a & b & a' & b' & Hv & _)]); try discriminate. injection Hv as ->. eauto.
Qed.

(** ** Unique sequences *)

Lemma set_add_len acc x : (List.length (set_add acc x) <= S (List.length acc))%nat.
Proof. unfold set_add. destruct (existsb _ _); [lia|]. rewrite app_length. cbn. lia. Qed.
Lemma fold_set_len l : forall acc, (List.length (fold_left set_add l acc) <= List.length acc + List.length l)%nat.
Proof. induction l as [|x l IH]; intros acc; cbn; [lia|]. specialize (IH (set_add acc x)). pose proof (set_add_len acc x). lia. Qed.

(** Every element is added exactly if the set has as many members. *)
Lemma fold_set_all l : forall acc,
  List.length (fold_left set_add l acc) = (List.length acc + List.length l)%nat <->
  (forall i x y, nth_error l i = Some y -> In x acc -> py_eq x y = false) /\ AllDifferent l.
Proof.
  induction l as [|x l IH]; intros acc; cbn.
  - split; [|lia]. intros _. split; [intros [|i] ? ? H; discriminate|intros [|i] j ? ? _ H; discriminate].
  - unfold set_add at 2. destruct (existsb (fun y => py_eq y x) acc) eqn:E.
    + split.
      * pose proof (fold_set_len l acc). lia.
      * intros [H _]. apply existsb_exists in E. destruct E as (z & Hz & Ez). rewrite (H 0%nat z x eq_refl Hz) in Ez. discriminate.
    + rewrite <- Nat.add_succ_comm. replace (S (List.length acc)) with (List.length (acc ++ [x])%list) by (rewrite app_length; cbn; lia).
      rewrite IH. split; intros [H1 H2]; split.
      * intros [|i] z y Hy Hz; cbn in Hy.
        -- injection Hy as <-. apply existsb_false_forall with (x := z) in E; assumption.
        -- apply (H1 i). exact Hy. apply in_or_app. left. exact Hz.
      * intros [|i] [|j] a b Hij Ha Hb; cbn in *; try lia.
        -- injection Ha as <-. apply (H1 j); [exact Hb|]. apply in_or_app. right. left. reflexivity.
        -- apply (H2 i j); [lia|assumption|assumption].
      * intros i z y Hy Hz. apply in_app_or in Hz. destruct Hz as [Hz|[<-|[]]].
        -- apply (H1 (S i)); assumption.
        -- apply (H2 0%nat (S i)); [lia|reflexivity|exact Hy].
      * intros i j a b Hij Ha Hb. apply (H2 (S i) (S j)); [lia|assumption|assumption].
Qed.

Lemma py_set_len l s : py_set l = Ok s -> zlen s <= zlen l /\ (zlen s = zlen l <-> AllDifferent l).
Proof.
  unfold py_set. destruct (forallb hashable l); [|discriminate]. intros H. injection H as <-.
  pose proof (fold_set_len l []) as Hl. pose proof (fold_set_all l []) as Ha. cbn [List.length] in Hl, Ha.
  rewrite Nat.add_0_l in Hl, Ha. unfold zlen. split; [lia|]. split.
  - intros H. apply Ha. lia.
  - intros H. rewrite (proj2 Ha); [reflexivity|]. split; [intros ? ? ? _ []|exact H].
Qed.

Lemma check_unique_hash cb l : forallb hashable l = true ->
  (check_unique cb l l = Ok tt <-> AllDifferent l) /\ (check_unique cb l l <> Ok tt -> check_unique cb l l = Err DefinitionValidationError).
Proof.
  intros H. unfold check_unique. destruct (py_set l) as [s|e] eqn:E.
  - destruct (py_set_len _ _ E) as [H1 H2]. rewrite <- H2. destruct (zlen s <? zlen l) eqn:F.
    + split; [|reflexivity]. split; [discriminate|lia].
    + split; [|congruence]. split; [lia|reflexivity].
  - unfold py_set in E. rewrite H in E. discriminate.
Qed.

Lemma ints_different zs : AllDifferent (map PInt zs) <-> NoDup zs.
Proof.
  assert (E : forall a b, py_eq (PInt a) (PInt b) = (a =? b)).
  { intros a b. cbn. unfold Qeq_bool. cbn. rewrite !Z.mul_1_r. unfold Zeq_bool. rewrite Z.eqb_compare. destruct (a ?= b); reflexivity. }
  split.
  - intros H. apply NoDup_nth_error. intros i j Hi Hij.
    destruct (Nat.lt_trichotomy i j) as [L|[L|L]]; [|exact L|]; exfalso.
    + destruct (nth_error zs i) as [z|] eqn:Ez; [|apply nth_error_None in Ez; lia].
      specialize (H i j (PInt z) (PInt z) L). rewrite !nth_error_map, Ez, <- Hij in H. cbn [option_map] in H.
      specialize (H eq_refl eq_refl). rewrite E in H. lia.
    + destruct (nth_error zs i) as [z|] eqn:Ez; [|apply nth_error_None in Ez; lia].
      specialize (H j i (PInt z) (PInt z) L). rewrite !nth_error_map, Ez, <- Hij in H. cbn [option_map] in H.
      specialize (H eq_refl eq_refl). rewrite E in H. lia.
  - intros H i j x y Hij Hx Hy. rewrite nth_error_map in Hx, Hy.
    destruct (nth_error zs i) as [a|] eqn:Ea; [|discriminate]. destruct (nth_error zs j) as [b|] eqn:Eb; [|discriminate].
    injection Hx as <-. injection Hy as <-. rewrite E. destruct (Z.eqb_spec a b) as [->|]; [|reflexivity].
    assert (i = j); [|lia]. apply (proj1 (NoDup_nth_error zs) H); [apply nth_error_Some; congruence|congruence].
Qed.

Lemma convert_ints_map zs : convert_ints (map PInt zs) = Ok zs.
Proof. unfold convert_ints. induction zs as [|z zs IH]; [reflexivity|]. cbn. rewrite IH. reflexivity. Qed.

Lemma forallb_hash_ints zs : forallb hashable (map PInt zs) = true.
Proof. induction zs; [reflexivity|exact IHzs]. Qed.

Lemma geom_select_ints v zs : Sequence v (map PInt zs) ->
  (NoDup zs -> geom_select_uid_set v = Ok (Some zs)) /\
  (~ NoDup zs -> geom_select_uid_set v = Err DefinitionValidationError).
Proof.
  intros Hv. assert (E : geom_select_uid_set v = do _ <- check_unique true (map PInt zs) (map PInt zs); Ok (Some zs)).
  { destruct Hv as [-> | ->]; cbn; rewrite convert_ints_map; reflexivity. }
  rewrite E. destruct (check_unique_hash true _ (forallb_hash_ints zs)) as [H1 H2].
  rewrite ints_different in H1. split; intros H.
  - rewrite (proj2 H1 H). reflexivity.
  - rewrite H2; [reflexivity|]. intros X. apply H, H1, X.
Qed.

(** A list with an unhashable element is never accepted as a sequence of integers. *)
Lemma convert_unhashable l zs : convert_ints l = Ok zs -> forallb hashable l = true.
Proof.
  unfold convert_ints. revert zs. induction l as [|x l IH]; intros zs; cbn; [reflexivity|].
  destruct x as [|c|z|q| |s|t|m|m|n]; cbn; try discriminate.
  all: try (destruct (parse_int s); cbn; try discriminate).
  all: destruct (map_res _ l) as [r|e] eqn:F; cbn; try discriminate; intros _; exact (IH _ eq_refl).
Qed.

Lemma geom_select_sound v l zs : Sequence v l -> geom_select_uid_set v = Ok (Some zs) ->
  AllDifferent l /\ Forall2 (fun x z => py_int x = Ok z) l zs.
Proof.
  intros Hv. assert (E : geom_select_uid_set v = do _ <- check_unique true l l; do ret <- convert_ints l; Ok (Some ret)).
  { destruct Hv as [-> | ->]; reflexivity. }
  rewrite E. destruct (check_unique true l l) as [[]|e] eqn:Eu; cbn; [|discriminate].
  destruct (convert_ints l) as [r|e] eqn:Er; cbn; [|discriminate]. intros H. injection H as <-.
  pose proof (convert_unhashable _ _ Er) as Hh. split.
  - apply (check_unique_hash true l Hh). exact Eu.
  - apply map_res_ok in Er. eapply Forall2_imp; [|exact Er]. cbn. intros x z. destruct (py_int x) as [w|[]]; congruence.
Qed.

(** ** Slices *)

Lemma picks_window {A} (l : list A) (a n : nat) : Picks (fun k => (a <= k < a + n)%nat) l (firstn n (skipn a l)).
Proof.
  exists (seq a (Nat.min n (List.length l - a))). split; [apply sorted_seq|]. split.
  - intros k. rewrite in_seq. lia.
  - apply nth_error_ext'. intros k. rewrite !nth_error_map. rewrite nth_error_firstn', nth_error_skipn'.
    destruct (Nat.ltb_spec k (Nat.min n (List.length l - a))) as [H|H].
    + replace (k <? n)%nat with true by (symmetry; apply Nat.ltb_lt; lia).
      rewrite (nth_error_nth' _ 0%nat) by (rewrite seq_length; exact H). rewrite seq_nth by exact H. cbn.
      destruct (nth_error l (a + k)) eqn:E; [reflexivity|]. apply nth_error_None in E. lia.
    + rewrite (proj2 (nth_error_None (seq _ _) k)) by (rewrite seq_length; exact H).
      destruct (Nat.lt_ge_cases k n) as [F|F].
      * rewrite (proj2 (nth_error_None l (a + k))) by lia. destruct (k <? n)%nat; reflexivity.
      * apply Nat.ltb_ge in F. rewrite F. reflexivity.
Qed.

Lemma picks_slice {A} (P : nat -> Prop) (l : list A) (a b : option Z) :
  (forall k, (k < List.length l)%nat ->
     (clip_end (zlen l) 0 a <= Z.of_nat k < clip_end (zlen l) (zlen l) b <-> P k)) ->
  Picks P l (py_slice l (mkslice a b)).
Proof.
  intros H. unfold py_slice, slice_bounds. cbn [sl_start sl_stop].
  eapply picks_ext; [apply picks_window|]. cbn beta. intros k Hk. rewrite <- H by exact Hk.
  assert (0 <= clip_end (zlen l) 0 a).
  { unfold clip_end. destruct a as [i|]; [|lia]. pose proof (zlen_nonneg l). destruct (i <? 0) eqn:E; lia. }
  lia.
Qed.

Lemma slice_item r v : request_value r v -> (forall i, r = RIndex i -> -1 <= i) ->
  exists args, slice_elem v = Ok args /\
    forall (A : Type) (l : list A), exists out, apply_slice args l = Some out /\ Picks (Asked r (List.length l)) l out.
Proof.
  destruct r as [|i|a b]; cbn [request_value]; intros Hv Hi.
  - subst v. eexists. split; [reflexivity|]. intros A l. eexists. split; [reflexivity|].
    apply picks_slice. intros k Hk. cbn. unfold zlen. intuition lia.
  - subst v. specialize (Hi i eq_refl). cbn. destruct (i <? 0) eqn:E.
    + assert (i = -1) by lia. subst i. eexists. split; [reflexivity|]. intros A l. eexists. split; [reflexivity|].
      apply picks_slice. intros k Hk. unfold Asked, clip_end, from_end, zlen. change (-1 <? 0) with true. cbv iota. lia.
    + eexists. split; [reflexivity|]. intros A l. eexists. split; [reflexivity|].
      apply picks_slice. intros k Hk. cbn. unfold clip_end, from_end, zlen. rewrite E.
      replace (i + 1 <? 0) with false by lia. lia.
  - destruct Hv as [-> | ->]; (eexists; split; [reflexivity|]; intros A l; eexists; split; [reflexivity|];
      apply picks_slice; intros k Hk; cbn; unfold clip_end, from_end, zlen;
      destruct (a <? 0) eqn:Ea, (b <? 0) eqn:Eb; lia).
Qed.

Lemma slice_param v rs vs : Sequence v vs -> Forall2 request_value rs vs -> List.length rs = 5%nat ->
  (forall i, In (RIndex i) rs -> -1 <= i) ->
  exists d, slice_set v = Ok (Some d) /\ map fst d = ["realization"; "time"; "level"; "y"; "x"] /\
    Forall2 (fun r kv => forall (A : Type) (l : list A), exists out, apply_slice (snd kv) l = Some out /\ Picks (Asked r (List.length l)) l out) rs d.
Proof.
  intros Hv H2 H5 Hi.
  assert (E : exists argss, map_res slice_elem vs = Ok argss /\
    Forall2 (fun r args => forall (A : Type) (l : list A), exists out, apply_slice args l = Some out /\ Picks (Asked r (List.length l)) l out) rs argss).
  { clear H5 Hv. induction H2 as [|r x rs vs Hr _ IH]; [exists []; split; [reflexivity|constructor]|].
    destruct IH as (t & Et & Ht); [intros i Hin; apply Hi; right; exact Hin|].
    destruct (slice_item r x Hr) as (args & Ea & Ha); [intros i ->; apply Hi; left; reflexivity|].
    exists (args :: t). split; [cbn; rewrite Ea; cbn; rewrite Et; reflexivity|constructor; assumption]. }
  destruct E as (argss & E & Ha).
  assert (L : List.length argss = 5%nat) by (rewrite <- (Forall2_len _ _ _ Ha); exact H5).
  exists (combine slice_keys argss).
  assert (S : slice_set v = Ok (Some (combine slice_keys argss))).
  { destruct Hv as [-> | ->]; unfold slice_set; cbn [sequence_input bind]; rewrite E; cbn [bind];
      (replace (zlen argss <? 5) with false by (unfold zlen; lia)); reflexivity. }
  split; [exact S|].
  destruct argss as [|a1 [|a2 [|a3 [|a4 [|a5 [|a6 t]]]]]]; try discriminate. split; [reflexivity|].
  destruct rs as [|r1 [|r2 [|r3 [|r4 [|r5 [|r6 t]]]]]]; try discriminate.
  cbn. repeat match goal with H : Forall2 _ (_ :: _) (_ :: _) |- _ => inversion H; clear H; subst end.
  repeat apply Forall2_cons; try apply Forall2_nil; cbn [snd]; assumption.
Qed.
