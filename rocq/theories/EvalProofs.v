(** Proofs of C72. *)
From Verif Require Import Py Lib EvalModel EvalSpec.
Local Open Scope char_scope.
Local Open Scope list_scope.

(** ** Characters *)

Lemma existsb_ascii : forall c cs, existsb (Ascii.eqb c) cs = true <-> In c cs.
Proof.
  intros c cs. rewrite existsb_exists. split.
  - intros (x & I & E). apply Ascii.eqb_eq in E. subst x. exact I.
  - intros I. exists c. split; [exact I|apply Ascii.eqb_refl].
Qed.

Lemma is_word_iff : forall c, is_word c = true <-> WordChar c.
Proof.
  intros c. unfold WordChar. rewrite <- existsb_ascii.
  assert (E : is_word c = existsb (Ascii.eqb c) (list_ascii_of_string "ABCDEFGHIJKLMNOPQRSTUVWXYZabcdefghijklmnopqrstuvwxyz0123456789_")).
  { destruct c as [[] [] [] [] [] [] [] []]; vm_compute; reflexivity. }
  rewrite E. reflexivity.
Qed.

Lemma is_letter_iff : forall c, is_letter c = true <-> Letter c.
Proof.
  intros c. unfold Letter. rewrite <- existsb_ascii.
  assert (E : is_letter c = existsb (Ascii.eqb c) (list_ascii_of_string "ABCDEFGHIJKLMNOPQRSTUVWXYZabcdefghijklmnopqrstuvwxyz")).
  { destruct c as [[] [] [] [] [] [] [] []]; vm_compute; reflexivity. }
  rewrite E. reflexivity.
Qed.

Lemma is_math_iff : forall c, is_math c = true <-> MathChar c.
Proof.
  intros c. unfold MathChar. rewrite <- existsb_ascii.
  assert (E : is_math c = existsb (Ascii.eqb c) ["("; ")"; "+"; "-"; "*"; "/"]).
  { destruct c as [[] [] [] [] [] [] [] []]; vm_compute; reflexivity. }
  rewrite E. reflexivity.
Qed.

Lemma math_not_word : forall c, is_math c = true -> is_word c = false.
Proof. intros c. destruct c as [[] [] [] [] [] [] [] []]; vm_compute; congruence. Qed.
Lemma word_not_math : forall c, is_word c = true -> is_math c = false.
Proof. intros c H. destruct (is_math c) eqn:E; [|reflexivity]. apply math_not_word in E. congruence. Qed.

Definition all_word (w : text) : Prop := Forall (fun c => is_word c = true) w.
Lemma all_word_iff : forall w, all_word w <-> Forall WordChar w.
Proof. intros w. unfold all_word. rewrite !Forall_forall. split; intros H c I; apply is_word_iff, H, I. Qed.
Lemma not_word : forall c, ~ WordChar c <-> is_word c = false.
Proof. intros c. rewrite <- is_word_iff. destruct (is_word c); split; congruence. Qed.

Lemma text_eqb_spec : forall a b, reflect (a = b) (text_eqb a b).
Proof.
  induction a as [|x a IH]; intros [|y b]; cbn; try (constructor; congruence).
  destruct (Ascii.eqb_spec x y) as [->|D]; cbn; [|constructor; congruence].
  destruct (IH b) as [->|D]; constructor; congruence.
Qed.

Lemma tmem_in : forall w ws, tmem w ws = true <-> In w ws.
Proof.
  intros w ws. unfold tmem. rewrite existsb_exists. split.
  - intros (x & I & E). destruct (text_eqb_spec w x); [subst; exact I|discriminate].
  - intros I. exists w. split; [exact I|]. destruct (text_eqb_spec w w); congruence.
Qed.

(** ** Words in texts *)

Definition Stop (s : text) : Prop := match s with [] => True | c :: _ => is_word c = false end.

Lemma strip_app : forall k s, strip k (k ++ s) = Some s.
Proof. induction k as [|x k IH]; intros s; [reflexivity|]. cbn. rewrite Ascii.eqb_refl. apply IH. Qed.

Lemma strip_some : forall k s u, strip k s = Some u -> s = k ++ u.
Proof.
  induction k as [|x k IH]; intros s u E; [injection E as ->; reflexivity|].
  destruct s as [|y s]; [discriminate|]. cbn in E. destruct (Ascii.eqb_spec x y) as [->|D]; [|discriminate].
  cbn. rewrite (IH s u E). reflexivity.
Qed.

Lemma word_prefix : forall f w rest u, all_word f -> Stop rest -> w ++ rest = f ++ u -> exists b, w = f ++ b.
Proof.
  induction f as [|x f IH]; intros w rest u Hf Hr E; [exists w; reflexivity|].
  inversion Hf as [|? ? Hx Hf']; subst. destruct w as [|y w].
  - cbn in E. subst rest. cbn in Hr. congruence.
  - cbn in E. injection E as -> E. destruct (IH w rest u Hf' Hr E) as (b & ->). exists b. reflexivity.
Qed.

Lemma word_unique : forall w k rest u, all_word w -> all_word k -> Stop rest -> Stop u -> w ++ rest = k ++ u -> w = k /\ rest = u.
Proof.
  induction w as [|x w IH]; intros [|y k] rest u Hw Hk Hr Hu E.
  - split; [reflexivity|exact E].
  - cbn in E. subst rest. inversion Hk; subst. cbn in Hr. congruence.
  - cbn in E. subst u. inversion Hw; subst. cbn in Hu. congruence.
  - cbn in E. injection E as -> E. inversion Hw; subst. inversion Hk; subst. destruct (IH k rest u) as (-> & ->); try assumption. split; reflexivity.
Qed.

Lemma proper_cons : forall it t, Proper (it :: t) -> Proper t.
Proof. intros [w|c] t H; cbn in H; apply H. Qed.

Lemma proper_word : forall w t, Proper (Word w :: t) -> w <> [] /\ all_word w /\ Stop (spelling t) /\ Proper t.
Proof.
  intros w t (H1 & H2 & H3 & H4). split; [exact H1|]. split; [apply all_word_iff; exact H2|]. split; [|exact H4].
  destruct t as [|[w'|c] t]; [exact I|destruct H3|]. cbn in H4. cbn. apply not_word. apply H4.
Qed.

Lemma proper_sign : forall c t, Proper (Sign c :: t) -> is_word c = false /\ Proper t.
Proof. intros c t (H1 & H2). split; [apply not_word; exact H1|exact H2]. Qed.

Lemma spelling_cons : forall it t, spelling (it :: t) = spell it ++ spelling t.
Proof. reflexivity. Qed.
Lemma spelling_app : forall a b, spelling (a ++ b) = spelling a ++ spelling b.
Proof. intros a b. unfold spelling. rewrite map_app, concat_app. reflexivity. Qed.

Lemma proper_app_l : forall a b, Proper (a ++ b) -> Proper a.
Proof.
  induction a as [|[w|c] a IH]; intros b H; [exact I| |].
  - destruct H as (H1 & H2 & H3 & H4). split; [exact H1|]. split; [exact H2|]. split; [destruct a as [|[]]; auto|exact (IH b H4)].
  - destruct H as (H1 & H2). split; [exact H1|exact (IH b H2)].
Qed.
Lemma proper_app_r : forall a b, Proper (a ++ b) -> Proper b.
Proof. induction a as [|it a IH]; intros b H; [exact H|]. apply (IH b). exact (proper_cons it (a ++ b) H). Qed.

(** ** Replacing a word *)

Lemma replace_skip : forall k v g s, replace k v (g ++ s) (length g) = replace k v s 0.
Proof. induction g as [|x g IH]; intros s; [reflexivity|]. exact (IH s). Qed.

Lemma replace_word : forall f v w rest, all_word f -> ~ Inside f w -> all_word w -> Stop rest ->
  replace f v (w ++ rest) 0 = w ++ replace f v rest 0.
Proof.
  intros f v w rest Hf. induction w as [|x w IH]; intros N Hw Hr; [reflexivity|].
  cbn [app replace]. destruct (strip f (x :: w ++ rest)) as [u|] eqn:E.
  - apply strip_some in E. destruct (word_prefix f (x :: w) rest u Hf Hr E) as (b & E'). exfalso. apply N. exists [], b. exact E'.
  - f_equal. apply IH; [|inversion Hw; assumption|exact Hr]. intros (a & b & E'). apply N. exists (x :: a), b. rewrite E'. reflexivity.
Qed.

Lemma replace_same : forall f v rest, f <> [] -> replace f v (f ++ rest) 0 = v ++ replace f v rest 0.
Proof.
  intros [|x f] v rest N; [destruct (N eq_refl)|]. cbn [app replace].
  change (x :: f ++ rest) with ((x :: f) ++ rest). rewrite strip_app. f_equal. cbn [length pred]. apply replace_skip.
Qed.

Lemma replace_sign : forall f v c rest, f <> [] -> all_word f -> is_word c = false -> replace f v (c :: rest) 0 = c :: replace f v rest 0.
Proof.
  intros [|x f] v c rest N Hf Hc; [destruct (N eq_refl)|]. cbn [replace strip]. destruct (Ascii.eqb_spec x c) as [->|D]; [|reflexivity].
  inversion Hf; subst. congruence.
Qed.

Definition np : text := chars "np".
Definition expand (f : text) (it : item) : list item :=
  match it with
  | Word w => if text_eqb w f then [Word np; Sign "."; Word w] else [it]
  | Sign _ => [it]
  end.

Lemma replace_items : forall f items, f <> [] -> all_word f -> Proper items ->
  (forall w, In (Word w) items -> w = f \/ ~ Inside f w) ->
  replace f (chars "np." ++ f) (spelling items) 0 = spelling (flat_map (expand f) items).
Proof.
  intros f items Nf Hf. induction items as [|[w|c] t IH]; intros P H; [reflexivity| |].
  - destruct (proper_word w t P) as (Nw & Hw & St & Pt). cbn [flat_map expand]. rewrite spelling_app, spelling_cons. cbn [spell].
    assert (IHt := IH Pt (fun w' I => H w' (or_intror I))).
    destruct (text_eqb_spec w f) as [->|D].
    + rewrite replace_same by exact Nf. rewrite IHt. unfold spelling at 2. cbn [map spell concat np chars list_ascii_of_string app]. rewrite app_nil_r. reflexivity.
    + destruct (H w (or_introl eq_refl)) as [E|NI]; [congruence|].
      rewrite replace_word by assumption. rewrite IHt. unfold spelling at 2. cbn [map spell concat]. rewrite app_nil_r. reflexivity.
  - destruct (proper_sign c t P) as (Hc & Pt). cbn [flat_map expand app]. rewrite !spelling_cons. cbn [spell app].
    rewrite replace_sign by assumption. f_equal. exact (IH Pt (fun w' I => H w' (or_intror I))).
Qed.

(** All the functions. *)
Definition expands (fs : list text) (it : item) : list item :=
  match it with
  | Word w => if tmem w fs then [Word np; Sign "."; Word w] else [it]
  | Sign _ => [it]
  end.

Lemma head_expands : forall fs t, match t with Word _ :: _ => False | _ => True end ->
  match flat_map (expands fs) t with Word _ :: _ => False | _ => True end.
Proof. intros fs [|[w|c] t] H; [exact I|destruct H|exact I]. Qed.

Lemma proper_expands : forall fs items, Proper items -> Proper (flat_map (expands fs) items).
Proof.
  intros fs. induction items as [|[w|c] t IH]; intros P; [exact I| |].
  - cbn in P. destruct P as (P1 & P2 & P3 & P4). cbn [flat_map expands].
    assert (Hd := head_expands fs t P3). assert (Pt := IH P4).
    destruct (tmem w fs); cbn [app Proper].
    + repeat split; try assumption; try discriminate.
      * apply all_word_iff. repeat constructor.
      * apply not_word. reflexivity.
    + repeat split; assumption.
  - cbn in P. cbn [flat_map expands app Proper]. split; [apply P|apply IH, P].
Qed.

Lemma in_expands : forall fs items w, In (Word w) (flat_map (expands fs) items) -> w = np \/ In (Word w) items.
Proof.
  intros fs items w I. apply in_flat_map in I. destruct I as ([w'|c] & J & K); cbn in K.
  - destruct (tmem w' fs).
    + destruct K as [K|[K|[K|[]]]]; [left; symmetry; injection K as K; exact K|discriminate|right; injection K as <-; exact J].
    + destruct K as [K|[]]. right. injection K as <-. exact J.
  - destruct K as [K|[]]. discriminate.
Qed.

Lemma function_inside : forall f g, In f functions -> In g functions -> Inside f g -> f = g.
Proof.
  intros f g Hf Hg (a & b & E).
  assert (L : (length a <= 5)%nat).
  { assert (length g = length a + length f + length b)%nat by (rewrite E, !app_length; lia).
    cbn in Hg. destruct Hg as [<-|[<-|[<-|[<-|[]]]]]; cbn in H; lia. }
  cbn in Hf, Hg.
  destruct Hf as [<-|[<-|[<-|[<-|[]]]]]; destruct Hg as [<-|[<-|[<-|[<-|[]]]]]; try reflexivity; exfalso;
    cbn in E; repeat (destruct a as [|? a]; cbn in E; try discriminate E; injection E as ? E; subst; try discriminate).
Qed.

Lemma np_no_function : forall f, In f functions -> ~ Inside f np.
Proof.
  intros f Hf (a & b & E). assert (length np = length a + length f + length b)%nat by (rewrite E, !app_length; lia).
  cbn in Hf. destruct Hf as [<-|[<-|[<-|[<-|[]]]]]; cbn in H; lia.
Qed.

Lemma function_word : forall f, In f functions -> f <> [] /\ all_word f.
Proof. intros f Hf. cbn in Hf. destruct Hf as [<-|[<-|[<-|[<-|[]]]]]; (split; [discriminate|repeat constructor]). Qed.

Lemma expand_expands : forall f fs items, In f functions -> ~ In f fs ->
  flat_map (expand f) (flat_map (expands fs) items) = flat_map (expands (fs ++ [f])) items.
Proof.
  intros f fs items Hf N. induction items as [|[w|c] t IH]; [reflexivity| |].
  - cbn [flat_map expands]. rewrite flat_map_app, IH. f_equal.
    assert (M : tmem w (fs ++ [f]) = tmem w fs || text_eqb w f) by (unfold tmem; rewrite existsb_app; cbn; rewrite orb_false_r; reflexivity).
    rewrite M. destruct (tmem w fs) eqn:T; cbn [orb flat_map expand app].
    + assert (w <> f) by (intros ->; apply tmem_in in T; contradiction).
      assert (np <> f) by (intros E; apply (np_no_function f Hf); exists [], []; rewrite app_nil_r; exact E).
      destruct (text_eqb_spec np f); [contradiction|]. destruct (text_eqb_spec w f); [contradiction|]. reflexivity.
    + destruct (text_eqb w f); reflexivity.
  - cbn [flat_map expands app expand]. rewrite IH. reflexivity.
Qed.

Lemma expands_nil : forall items, flat_map (expands []) items = items.
Proof. induction items as [|[w|c] t IH]; [reflexivity| |]; cbn [flat_map expands tmem existsb app]; rewrite IH; reflexivity. Qed.

Lemma stage_functions : forall fs done items, Proper items -> NoDup (done ++ fs) -> (forall f, In f fs -> In f functions) ->
  (forall w, In (Word w) items -> In w functions \/ forall f, In f functions -> ~ Inside f w) ->
  fold_left (fun e f => replace f (chars "np." ++ f) e 0) fs (spelling (flat_map (expands done) items)) =
  spelling (flat_map (expands (done ++ fs)) items).
Proof.
  induction fs as [|f fs IH]; intros done items P N F H.
  - rewrite app_nil_r. reflexivity.
  - cbn [fold_left]. assert (Hf := F f (or_introl eq_refl)). destruct (function_word f Hf) as (Nf & Wf).
    assert (Nd : ~ In f done) by (intros I; apply NoDup_remove_2 in N; apply N, in_or_app; left; exact I).
    rewrite replace_items; [|exact Nf|exact Wf|apply proper_expands; exact P|].
    + rewrite expand_expands by assumption.
      replace (done ++ f :: fs) with ((done ++ [f]) ++ fs) in * by (rewrite <- app_assoc; reflexivity).
      apply IH; [exact P|exact N| |exact H]. intros g I. apply F. right. exact I.
    + intros w I. apply in_expands in I. destruct I as [->|I]; [right; apply np_no_function; exact Hf|].
      destruct (H w I) as [K|K]; [|right; apply K; exact Hf].
      destruct (text_eqb_spec w f) as [->|D]; [left; reflexivity|]. right. intros J. apply D. symmetry. exact (function_inside f w Hf K J).
Qed.

Lemma forall2_length : forall {A B} (R : A -> B -> Prop) a b, Forall2 R a b -> length a = length b.
Proof. intros A B R a b F. induction F; [reflexivity|cbn; lia]. Qed.

(** ** One regular expression *)

Section OneName.
Variables k v : text.
Hypothesis Nk : k <> [].
Hypothesis Wk : all_word k.
Hypothesis Nv : v <> [].
Hypothesis Wv : all_word v.
Hypothesis Dv : v <> k.

(** Some occurrences of the name are replaced. *)
Definition Rel (a b : item) : Prop := a = b \/ (a = Word k /\ b = Word v).

Definition is_k (it : item) : bool := match it with Word w => text_eqb w k | Sign _ => false end.
Definition count (items : list item) : nat := length (filter is_k items).

Lemma is_k_k : is_k (Word k) = true.
Proof. cbn. destruct (text_eqb_spec k k); congruence. Qed.
Lemma is_k_v : is_k (Word v) = false.
Proof. cbn. destruct (text_eqb_spec v k); congruence. Qed.

Lemma rel_refl : forall items, Forall2 Rel items items.
Proof. induction items; constructor; [left; reflexivity|assumption]. Qed.

Lemma rel_trans : forall a b c, Forall2 Rel a b -> Forall2 Rel b c -> Forall2 Rel a c.
Proof.
  intros a b c F. revert c. induction F as [|x y a b H F IH]; intros c G; inversion G; subst; constructor.
  - destruct H as [->|(-> & ->)]; [assumption|]. destruct H2 as [<-|(E & _)]; [right; split; reflexivity|congruence].
  - apply IH. assumption.
Qed.

Lemma rel_count : forall a b, Forall2 Rel a b -> (count b <= count a)%nat.
Proof.
  intros a b F. unfold count. induction F as [|x y a b [->|(-> & ->)] F IH]; cbn [filter]; [lia| |].
  - destruct (is_k y); cbn [length]; lia.
  - rewrite is_k_k, is_k_v. cbn [length]. lia.
Qed.

Lemma rel_proper : forall a b, Forall2 Rel a b -> Proper a -> Proper b.
Proof.
  intros a b F. induction F as [|x y a b H F IH]; intros P; [exact I|].
  assert (Hd : match a with Word _ :: _ => False | _ => True end -> match b with Word _ :: _ => False | _ => True end).
  { intros D. destruct F as [|x' y' a b H' F]; [exact I|]. destruct H' as [->|(-> & ->)]; [exact D|destruct D]. }
  destruct H as [->|(-> & ->)].
  - destruct y as [w|c]; cbn in *; intuition.
  - destruct P as (P1 & P2 & P3 & P4). split; [exact Nv|]. split; [apply all_word_iff; exact Wv|]. split; [exact (Hd P3)|exact (IH P4)].
Qed.

Lemma rel_split : forall a b', Forall2 Rel a b' -> forall l' r', b' = l' ++ Word k :: r' ->
  exists l r, a = l ++ Word k :: r /\ Forall2 Rel l l' /\ Forall2 Rel r r'.
Proof.
  intros a b' F. induction F as [|x y a b H F IH]; intros l' r' E; [destruct l'; discriminate|].
  destruct l' as [|z l'].
  - cbn in E. injection E as -> ->. exists [], a. destruct H as [->|(_ & E)]; [|congruence]. split; [reflexivity|]. split; [constructor|exact F].
  - cbn in E. injection E as -> E. destruct (IH l' r' E) as (l0 & r & -> & F1 & F2). exists (x :: l0), r.
    split; [reflexivity|]. split; [constructor; assumption|exact F2].
Qed.

Lemma rel_sign_head : forall c a b, Forall2 Rel (Sign c :: a) b -> exists b', b = Sign c :: b' /\ Forall2 Rel a b'.
Proof. intros c a b F. inversion F as [|x y a' b' H F']; subst. destruct H as [<-|(E & _)]; [|discriminate]. exists b'. split; [reflexivity|exact F']. Qed.

Lemma rel_sign_last : forall c a b, Forall2 Rel (a ++ [Sign c]) b -> exists b', b = b' ++ [Sign c] /\ Forall2 Rel a b'.
Proof.
  induction a as [|x a IH]; intros b F.
  - destruct (rel_sign_head c [] b F) as (b' & -> & F'). inversion F'; subst. exists []. split; [reflexivity|constructor].
  - inversion F as [|? y ? b' H F']; subst. destruct (IH b' F') as (b'' & -> & F''). exists (y :: b''). split; [reflexivity|constructor; assumption].
Qed.

(** What the right end matches. *)
Lemma right_stop : forall r u e, EvalModel.right r u = Some e -> Stop u /\ (e = [] \/ exists c, e = [c] /\ is_word c = false /\ exists u', u = c :: u').
Proof.
  intros r u e E. destruct r; destruct u as [|c u]; cbn [EvalModel.right] in E; try discriminate.
  - destruct (is_math c) eqn:M; [|discriminate]. injection E as <-. apply math_not_word in M. split; [exact M|]. right. exists c. split; [reflexivity|]. split; [exact M|]. exists u. reflexivity.
  - injection E as <-. split; [exact I|left; reflexivity].
  - destruct u; [|discriminate]. destruct (Ascii.eqb_spec c "010") as [->|]; [|discriminate]. injection E as <-. split; [reflexivity|left; reflexivity].
  - destruct (Ascii.eqb_spec c ",") as [->|]; [|discriminate]. injection E as <-. split; [reflexivity|]. right. exists ",". split; [reflexivity|]. split; [reflexivity|]. exists u. reflexivity.
Qed.

(** The items after a word that the right end matches. *)
Lemma right_items : forall r t e, Proper t -> EvalModel.right r (spelling t) = Some e ->
  exists s t', t = s ++ t' /\ spelling s = e /\ (s = [] \/ exists c, s = [Sign c]).
Proof.
  intros r t e P E. destruct (right_stop r _ e E) as (_ & [->|(c & -> & Hc & u' & Eu)]).
  - exists [], t. split; [reflexivity|]. split; [reflexivity|left; reflexivity].
  - destruct t as [|[w|c'] t].
    + discriminate.
    + destruct (proper_word w t P) as (Nw & Hw & _ & _). destruct w as [|x w]; [destruct (Nw eq_refl)|].
      rewrite spelling_cons in Eu. cbn in Eu. injection Eu as -> _. inversion Hw; subst. congruence.
    + rewrite spelling_cons in Eu. cbn in Eu. injection Eu as -> _. exists [Sign c], t. split; [reflexivity|]. split; [reflexivity|]. right. exists c. reflexivity.
Qed.

Lemma strip_items : forall t u, Proper t -> Stop u -> strip k (spelling t) = Some u -> exists t', t = Word k :: t' /\ u = spelling t'.
Proof.
  intros t u P S E. apply strip_some in E. destruct t as [|[w|c] t].
  - destruct k; [destruct (Nk eq_refl)|discriminate].
  - destruct (proper_word w t P) as (Nw & Hw & St & _). rewrite spelling_cons in E. cbn in E.
    destruct (word_unique w k _ u Hw Wk St S E) as (-> & <-). exists t. split; reflexivity.
  - destruct (proper_sign c t P) as (Hc & _). rewrite spelling_cons in E. cbn in E.
    destruct k as [|x k']; [destruct (Nk eq_refl)|]. injection E as -> _. inversion Wk; subst. congruence.
Qed.

Lemma replace_group : forall e, (e = [] \/ exists c, e = [c] /\ is_word c = false) -> replace k v (k ++ e) 0 = v ++ e.
Proof.
  intros e H. rewrite replace_same by exact Nk. destruct H as [->|(c & -> & Hc)]; [reflexivity|].
  rewrite replace_sign by (try exact Nk; try exact Wk; exact Hc). reflexivity.
Qed.

Lemma resub_skip : forall p g s, resub p k v false (g ++ s) (length g) = resub p k v false s 0.
Proof. intros p. induction g as [|x g IH]; intros s; [reflexivity|]. exact (IH s). Qed.

Lemma resub_start : forall r s n, resub (LMath, r) k v true s n = resub (LMath, r) k v false s n.
Proof. intros r [|x s] [|n]; reflexivity. Qed.
Lemma research_start : forall r s, research (LMath, r) k true s = research (LMath, r) k false s.
Proof. intros r [|x s]; reflexivity. Qed.

Lemma match_nomath : forall r c s, is_math c = false -> match_at (LMath, r) k false (c :: s) = None.
Proof. intros r c s H. unfold match_at. cbn [fst]. rewrite H. reflexivity. Qed.

Lemma resub_word : forall r w s, all_word w -> resub (LMath, r) k v false (w ++ s) 0 = w ++ resub (LMath, r) k v false s 0.
Proof.
  intros r. induction w as [|x w IH]; intros s H; [reflexivity|]. inversion H; subst. cbn [app resub].
  rewrite match_nomath by (apply word_not_math; assumption). rewrite IH by assumption. reflexivity.
Qed.
Lemma research_word : forall r w s, all_word w -> research (LMath, r) k false (w ++ s) = research (LMath, r) k false s.
Proof.
  intros r. induction w as [|x w IH]; intros s H; [reflexivity|]. inversion H; subst. cbn [app research].
  rewrite match_nomath by (apply word_not_math; assumption). apply IH. assumption.
Qed.

Lemma count_replaced : forall a b, Forall2 Rel a b -> (count (Word v :: b) < count (Word k :: a))%nat.
Proof. intros a b F. unfold count in *. cbn [filter]. rewrite is_k_k, is_k_v. cbn [length]. assert (H := rel_count a b F). unfold count in H. lia. Qed.

Lemma count_cons : forall it a b, (count b < count a)%nat -> (count (it :: b) < count (it :: a))%nat.
Proof. intros it a b H. unfold count in *. cbn [filter]. destruct (is_k it); cbn [length]; lia. Qed.
Lemma count_cons_le : forall it a, (count a <= count (it :: a))%nat.
Proof. intros it a. unfold count. cbn [filter]. destruct (is_k it); cbn [length]; lia. Qed.

Definition Pass (p : lctx * rctx) (b : bool) (items : list item) : Prop :=
  exists items', resub p k v b (spelling items) 0 = spelling items' /\ Forall2 Rel items items' /\
    (research p k b (spelling items) = true -> (count items' < count items)%nat).

Lemma pass_math : forall r n items, (length items <= n)%nat -> Proper items -> Pass (LMath, r) false items.
Proof.
  intros r. induction n as [|n IH]; intros items L P.
  - destruct items; [|cbn in L; lia]. exists []. split; [reflexivity|]. split; [constructor|discriminate].
  - destruct items as [|[w|c] t].
    + exists []. split; [reflexivity|]. split; [constructor|discriminate].
    + destruct (proper_word w t P) as (_ & Hw & _ & Pt). destruct (IH t ltac:(cbn in L; lia) Pt) as (t' & E & F & C).
      exists (Word w :: t'). rewrite !spelling_cons. cbn [spell]. rewrite resub_word, research_word by exact Hw. rewrite E.
      split; [reflexivity|]. split; [constructor; [left; reflexivity|exact F]|]. intros H. apply count_cons, C, H.
    + destruct (proper_sign c t P) as (Hc & Pt). unfold Pass; rewrite spelling_cons. cbn [spell app].
      destruct (match_at (LMath, r) k false (c :: spelling t)) as [g|] eqn:M.
      * unfold match_at in M. cbn [fst snd] in M. destruct (is_math c) eqn:Mc; [|discriminate].
        destruct (strip k (spelling t)) as [u|] eqn:S; [|discriminate]. destruct (EvalModel.right r u) as [e|] eqn:Re; [|discriminate].
        injection M as <-. destruct (right_stop r u e Re) as (Su & He).
        destruct (strip_items t u Pt Su S) as (t1 & -> & ->).
        assert (P1 := proper_cons _ _ Pt). destruct (right_items r t1 e P1 Re) as (s & t2 & -> & Es & Hs).
        assert (P2 := proper_app_r _ _ P1).
        destruct (IH t2) as (t2' & E & F & C); [cbn in L; rewrite app_length in L; lia|exact P2|].
        exists (Sign c :: Word v :: s ++ t2').
        assert (Eg : replace k v (c :: k ++ e) 0 = c :: v ++ e).
        { rewrite replace_sign by (try exact Nk; try exact Wk; exact Hc). f_equal. apply replace_group.
          destruct He as [->|(c' & -> & Hc' & _)]; [left; reflexivity|right; exists c'; split; [reflexivity|exact Hc']]. }
        split; [|split].
        -- cbn [resub]. unfold match_at. cbn [fst snd]. rewrite Mc, S, Re. rewrite Eg. cbn [length pred].
           rewrite !spelling_cons. cbn [spell]. rewrite !spelling_app, Es. rewrite app_assoc, resub_skip, E. cbn [app]. rewrite <- !app_assoc. reflexivity.
        -- constructor; [left; reflexivity|]. constructor; [right; split; reflexivity|]. apply Forall2_app; [apply rel_refl|exact F].
        -- intros _. apply count_cons, count_replaced. apply Forall2_app; [apply rel_refl|exact F].
      * destruct (IH t ltac:(cbn in L; lia) Pt) as (t' & E & F & C). exists (Sign c :: t').
        cbn [resub research]. rewrite M, E. split; [reflexivity|]. split; [constructor; [left; reflexivity|exact F]|]. intros H. apply count_cons, C, H.
Qed.

Lemma resub_not_start : forall r s, resub (LStart, r) k v false s 0 = s.
Proof. intros r. induction s as [|x s IH]; [reflexivity|]. cbn [resub match_at fst]. rewrite IH. reflexivity. Qed.
Lemma research_not_start : forall r s, research (LStart, r) k false s = false.
Proof. intros r. induction s as [|x s IH]; [reflexivity|]. cbn [research match_at fst]. exact IH. Qed.

Lemma pass_start : forall r items, Proper items -> Pass (LStart, r) true items.
Proof.
  intros r items P. unfold Pass. destruct (match_at (LStart, r) k true (spelling items)) as [g|] eqn:M.
  - assert (M' := M). unfold match_at in M. cbn [fst snd] in M. destruct (strip k (spelling items)) as [u|] eqn:S; [|discriminate].
    destruct (EvalModel.right r u) as [e|] eqn:Re; [|discriminate]. injection M as <-.
    destruct (right_stop r u e Re) as (Su & He). destruct (strip_items items u P Su S) as (t1 & -> & ->).
    assert (P1 := proper_cons _ _ P). destruct (right_items r t1 e P1 Re) as (s & t2 & -> & Es & Hs).
    exists (Word v :: s ++ t2). split; [|split].
    + rewrite !spelling_cons in *. cbn [spell] in *. rewrite !spelling_app in *. rewrite Es in *.
      assert (Eg : replace k v (k ++ e) 0 = v ++ e).
      { apply replace_group. destruct He as [->|(c' & -> & Hc' & _)]; [left; reflexivity|right; exists c'; split; [reflexivity|exact Hc']]. }
      destruct k as [|x k'] eqn:Ek; [destruct (Nk eq_refl)|]. rewrite <- Ek in *.
      assert (Ex : k ++ e ++ spelling t2 = x :: k' ++ e ++ spelling t2) by (rewrite Ek; reflexivity).
      rewrite Ex at 1. cbn [resub]. rewrite <- Ex, M', Eg.
      assert (Lg : pred (length (k ++ e)) = length (k' ++ e)) by (rewrite Ek; reflexivity).
      rewrite Lg, app_assoc, (resub_skip (LStart, r) (k' ++ e)), resub_not_start. rewrite <- app_assoc. reflexivity.
    + constructor; [right; split; reflexivity|apply rel_refl].
    + intros _. apply count_replaced, rel_refl.
  - exists items. split; [|split; [apply rel_refl|]].
    + destruct (spelling items) as [|x s]; [reflexivity|]. cbn [resub]. rewrite M, resub_not_start. reflexivity.
    + intros H. destruct (spelling items) as [|x s]; cbn [research] in H; rewrite M in H; [discriminate|]. rewrite research_not_start in H. discriminate.
Qed.

Lemma pass_any : forall p items, Proper items -> Pass p true items.
Proof.
  intros ([|], r) items P; [|apply pass_start; exact P].
  destruct (pass_math r (length items) items (le_n _) P) as (items' & E & F & C). exists items'.
  rewrite resub_start, research_start. split; [exact E|]. split; [exact F|exact C].
Qed.

Lemma loop_any : forall fuel p items, Proper items -> (count items < fuel)%nat ->
  exists items', sub_loop fuel p k v (spelling items) = spelling items' /\ Forall2 Rel items items' /\ research p k true (spelling items') = false.
Proof.
  induction fuel as [|n IH]; intros p items P L; [lia|].
  destruct (pass_any p items P) as (items' & E & F & C). cbn [sub_loop]. rewrite E.
  destruct (research p k true (spelling items')) eqn:R.
  - assert (P' := rel_proper _ _ F P). destruct (pass_any p items' P') as (i2 & _ & F2 & C2). specialize (C2 R).
    assert (H : (count items' < n)%nat).
    { destruct (research p k true (spelling items)) eqn:R0; [specialize (C eq_refl); lia|].
      exfalso. assert (N : forall s, research p k true s = false -> resub p k v true s 0 = s).
      { clear. intros s. destruct p as (q, r). generalize true. induction s as [|x s IHs]; intros b H; [reflexivity|].
        cbn [research resub] in *. destruct (match_at (q, r) k b (x :: s)); [discriminate|]. rewrite (IHs false H). reflexivity. }
      rewrite (N _ R0) in E. rewrite <- E in R. congruence. }
    destruct (IH p items' P' H) as (i3 & E3 & F3 & R3). exists i3. split; [exact E3|]. split; [exact (rel_trans _ _ _ F F3)|exact R3].
  - exists items'. split; [reflexivity|]. split; [exact F|exact R].
Qed.

Lemma loop_patterns : forall fuel ps items, Proper items -> (count items < fuel)%nat ->
  exists items', fold_left (fun e p => sub_loop fuel p k v e) ps (spelling items) = spelling items' /\ Forall2 Rel items items' /\
    forall p, In p ps -> exists mid, Forall2 Rel items mid /\ Forall2 Rel mid items' /\ research p k true (spelling mid) = false.
Proof.
  intros fuel. induction ps as [|p ps IH]; intros items P L.
  - exists items. split; [reflexivity|]. split; [apply rel_refl|]. intros p [].
  - destruct (loop_any fuel p items P L) as (mid & E & F & R). cbn [fold_left]. rewrite E.
    destruct (IH mid (rel_proper _ _ F P)) as (items' & E' & F' & H); [assert (C := rel_count _ _ F); lia|].
    exists items'. split; [exact E'|]. split; [exact (rel_trans _ _ _ F F')|]. intros q [<-|I].
    + exists mid. split; [exact F|]. split; [exact F'|exact R].
    + destruct (H q I) as (m & F1 & F2 & R'). exists m. split; [exact (rel_trans _ _ _ F F1)|]. split; [exact F2|exact R'].
Qed.

Lemma research_app : forall p s a b, research p k false s = true -> (a = [] -> b = false) -> research p k b (a ++ s) = true.
Proof.
  intros p s. induction a as [|x a IH]; intros b H Hb; [rewrite (Hb eq_refl); exact H|].
  cbn [app research]. destruct (match_at p k b (x :: a ++ s)); [reflexivity|]. apply IH; [exact H|reflexivity].
Qed.

Lemma found_math : forall r b c a, is_math c = true -> EvalModel.right r (spelling a) <> None ->
  research (LMath, r) k true (spelling (b ++ Sign c :: Word k :: a)) = true.
Proof.
  intros r b c a Hc Hr. rewrite research_start, spelling_app. apply research_app; [|reflexivity].
  rewrite !spelling_cons. cbn [spell app research]. unfold match_at. cbn [fst snd]. rewrite Hc, strip_app.
  destruct (EvalModel.right r (spelling a)); [reflexivity|destruct (Hr eq_refl)].
Qed.

Lemma found_start : forall r a, EvalModel.right r (spelling a) <> None -> research (LStart, r) k true (spelling (Word k :: a)) = true.
Proof.
  intros r a Hr. rewrite spelling_cons. cbn [spell].
  assert (M : exists g, match_at (LStart, r) k true (k ++ spelling a) = Some g).
  { unfold match_at. cbn [fst snd]. rewrite strip_app. destruct (EvalModel.right r (spelling a)); [eexists; reflexivity|destruct (Hr eq_refl)]. }
  destruct M as (g & M). destruct (k ++ spelling a); cbn [research]; rewrite M; reflexivity.
Qed.

Lemma stands_found : forall before after, Stands before after -> exists p, In p patterns /\
  forall b a, Forall2 Rel before b -> Forall2 Rel after a -> research p k true (spelling (b ++ Word k :: a)) = true.
Proof.
  intros before after H.
  assert (Ra : forall c a' a, MathChar c -> Forall2 Rel (Sign c :: a') a -> EvalModel.right RMath (spelling a) <> None).
  { intros c a' a M F. destruct (rel_sign_head c a' a F) as (a'' & -> & _). rewrite spelling_cons. cbn [spell app EvalModel.right]. apply is_math_iff in M. rewrite M. discriminate. }
  assert (Rc : forall a' a, Forall2 Rel (Sign "," :: a') a -> EvalModel.right RComma (spelling a) <> None).
  { intros a' a F. destruct (rel_sign_head "," a' a F) as (a'' & -> & _). discriminate. }
  assert (Le : forall r b0 c b a, MathChar c -> Forall2 Rel (b0 ++ [Sign c]) b -> EvalModel.right r (spelling a) <> None ->
    research (LMath, r) k true (spelling (b ++ Word k :: a)) = true).
  { intros r b0 c b a M F R. destruct (rel_sign_last c b0 b F) as (b' & -> & _). rewrite <- app_assoc. cbn [app]. apply found_math; [apply is_math_iff; exact M|exact R]. }
  destruct H as [([->|(b0 & c & -> & M)] & [->|(c' & a0 & -> & M')])|((b0 & c & -> & M) & (a0 & ->))].
  - exists (LStart, REnd). split; [cbn; tauto|]. intros b a Fb Fa. inversion Fb; inversion Fa; subst. apply found_start. discriminate.
  - exists (LStart, RMath). split; [cbn; tauto|]. intros b a Fb Fa. inversion Fb; subst. apply found_start. exact (Ra c' a0 a M' Fa).
  - exists (LMath, REnd). split; [cbn; tauto|]. intros b a Fb Fa. inversion Fa; subst. apply (Le REnd b0 c b []); [exact M|exact Fb|discriminate].
  - exists (LMath, RMath). split; [cbn; tauto|]. intros b a Fb Fa. apply (Le RMath b0 c b a); [exact M|exact Fb|exact (Ra c' a0 a M' Fa)].
  - exists (LMath, RComma). split; [cbn; tauto|]. intros b a Fb Fa. apply (Le RComma b0 c b a); [exact M|exact Fb|exact (Rc a0 a Fa)].
Qed.

Definition subst1 (it : item) : item := if is_k it then Word v else it.

Lemma one_name : forall fuel items, Proper items -> (count items < fuel)%nat ->
  (forall b a, items = b ++ Word k :: a -> Stands b a) ->
  fold_left (fun e p => sub_loop fuel p k v e) patterns (spelling items) = spelling (map subst1 items).
Proof.
  intros fuel items P L H. destruct (loop_patterns fuel patterns items P L) as (items' & E & F & D). rewrite E. f_equal.
  assert (N : ~ In (Word k) items').
  { intros I. apply in_split in I. destruct I as (b' & a' & Ei).
    destruct (rel_split items items' F b' a' Ei) as (b & a & E0 & Fb & Fa).
    destruct (stands_found b a (H b a E0)) as (p & Ip & R). destruct (D p Ip) as (mid & F1 & F2 & R').
    destruct (rel_split mid items' F2 b' a' Ei) as (bm & am & Em & Fbm & Fam). subst mid items.
    assert (Forall2 Rel b bm /\ Forall2 Rel a am) as (G1 & G2).
    { assert (Lb : length b = length bm).
      { assert (X := forall2_length _ _ _ Fb). assert (Y := forall2_length _ _ _ Fbm). lia. }
      clear - F1 Lb. revert bm Lb F1. induction b as [|x b IHb]; intros [|y bm] Lb F1; try discriminate.
      - cbn in F1. inversion F1; subst. split; [constructor|assumption].
      - cbn in F1. inversion F1; subst. destruct (IHb bm) as (A & B); [cbn in Lb; lia|assumption|]. split; [constructor; assumption|exact B]. }
    rewrite (R bm am G1 G2) in R'. discriminate. }
  clear - F N Dv. induction F as [|x y a b H F IH]; [reflexivity|]. cbn [map]. rewrite <- IH by (intros I; apply N; right; exact I). f_equal.
  unfold subst1. destruct H as [->|(-> & ->)].
  - destruct y as [w|c]; cbn; [|reflexivity]. destruct (text_eqb_spec w k) as [->|]; [exfalso; apply N; left; reflexivity|reflexivity].
  - rewrite is_k_k. reflexivity.
Qed.

Lemma count_length : forall items, (count items <= length items)%nat.
Proof. intros items. unfold count. induction items as [|x t IH]; [reflexivity|]. cbn [filter]. destruct (is_k x); cbn [length]; lia. Qed.

End OneName.

(** ** All names *)

Definition exec (w : text) : text := chars "_exec_" ++ w.
Definition sub_vars (vs : list text) (it : item) : item :=
  match it with Word w => if tmem w vs then Word (exec w) else it | Sign _ => it end.

Lemma exec_word : forall w, all_word w -> all_word (exec w) /\ exec w <> [].
Proof. intros w H. split; [|discriminate]. unfold exec. apply Forall_app. split; [repeat constructor|exact H]. Qed.

Lemma exec_longer : forall w, exec w <> w.
Proof. intros w E. assert (length (exec w) = length w) by (rewrite E; reflexivity). unfold exec in H. rewrite app_length in H. cbn in H. lia. Qed.

Lemma stands_map : forall (g : item -> item) b a, (forall c, g (Sign c) = Sign c) -> Stands b a -> Stands (map g b) (map g a).
Proof.
  intros g b a G H.
  assert (Hb : forall b, (exists b0 c, b = b0 ++ [Sign c] /\ MathChar c) -> exists b0 c, map g b = b0 ++ [Sign c] /\ MathChar c).
  { intros b1 (b0 & c & -> & M). exists (map g b0), c. rewrite map_app. cbn. rewrite G. split; [reflexivity|exact M]. }
  destruct H as [([->|H1] & [->|(c & a0 & -> & M)])|(H1 & (a0 & ->))].
  - left. split; left; reflexivity.
  - left. split; [left; reflexivity|]. right. exists c, (map g a0). cbn. rewrite G. split; [reflexivity|exact M].
  - left. split; [right; exact (Hb b H1)|left; reflexivity].
  - left. split; [right; exact (Hb b H1)|]. right. exists c, (map g a0). cbn. rewrite G. split; [reflexivity|exact M].
  - right. split; [exact (Hb b H1)|]. exists (map g a0). cbn. rewrite G. reflexivity.
Qed.

Lemma map_split : forall {A B} (g : A -> B) l b y a, map g l = b ++ y :: a -> exists b0 x a0, l = b0 ++ x :: a0 /\ map g b0 = b /\ g x = y /\ map g a0 = a.
Proof.
  intros A B g l. induction l as [|x l IH]; intros b y a E; [destruct b; discriminate|].
  destruct b as [|z b]; cbn in E.
  - injection E as <- <-. exists [], x, l. split; [reflexivity|]. split; [reflexivity|]. split; reflexivity.
  - injection E as <- E. destruct (IH b y a E) as (b0 & x' & a0 & -> & <- & <- & <-). exists (x :: b0), x', a0. split; [reflexivity|]. split; [reflexivity|]. split; reflexivity.
Qed.

Lemma proper_subst : forall k v items, v <> [] -> all_word v -> Proper items -> Proper (map (subst1 k v) items).
Proof.
  intros k v items Nv Wv. induction items as [|[w|c] t IH]; intros P; [exact I| |].
  - destruct P as (P1 & P2 & P3 & P4). cbn [map].
    assert (Hd : match map (subst1 k v) t with Word _ :: _ => False | _ => True end) by (destruct t as [|[w'|c'] t']; [exact I|destruct P3|exact I]).
    unfold subst1 at 1. cbn [is_k]. destruct (text_eqb w k).
    + split; [exact Nv|]. split; [apply all_word_iff; exact Wv|]. split; [exact Hd|exact (IH P4)].
    + split; [exact P1|]. split; [exact P2|]. split; [exact Hd|exact (IH P4)].
  - cbn in P. cbn [map subst1 is_k Proper]. split; [apply P|apply IH, P].
Qed.

Lemma all_names : forall vs items turns, Proper items -> (length items < turns)%nat -> NoDup vs ->
  (forall k, In k vs -> k <> [] /\ all_word k) -> (forall k u, In k vs -> In u vs -> k <> exec u) ->
  (forall k b a, In k vs -> items = b ++ Word k :: a -> Stands b a) ->
  fold_left (fun e kv => fold_left (fun e p => sub_loop turns p (fst kv) (snd kv) e) patterns e) (exec_names vs) (spelling items) =
  spelling (map (sub_vars vs) items).
Proof.
  induction vs as [|k vs IH]; intros items turns P L N W X H.
  - cbn [exec_names map fold_left]. f_equal. induction items as [|[w|c] t IHt]; [reflexivity| |]; cbn [map sub_vars tmem existsb]; f_equal; apply IHt;
      try (exact (proper_cons _ _ P)); try (cbn in L; lia); intros ? ? ? [].
  - cbn [exec_names map fold_left fst snd]. fold (exec_names vs). fold (exec k).
    destruct (W k (or_introl eq_refl)) as (Nk & Wk). destruct (exec_word k Wk) as (Wv & Nv).
    rewrite (one_name k (exec k) Nk Wk Nv Wv (exec_longer k)).
    + rewrite IH.
      * f_equal. rewrite map_map. apply map_ext_in. intros [w|c] I; [|reflexivity].
        unfold subst1. cbn [is_k sub_vars tmem existsb]. fold (tmem w vs).
        destruct (text_eqb_spec w k) as [->|D]; [|reflexivity]. cbn [sub_vars orb].
        destruct (tmem (exec k) vs) eqn:T; [|reflexivity]. apply tmem_in in T.
        exfalso. exact (X (exec k) k (or_intror T) (or_introl eq_refl) eq_refl).
      * apply proper_subst; assumption.
      * rewrite map_length. exact L.
      * inversion N; assumption.
      * intros j I. apply W. right. exact I.
      * intros j u I J. apply X; right; assumption.
      * intros j b a I E. apply map_split in E. destruct E as (b0 & x & a0 & -> & <- & E & <-).
        assert (x = Word j).
        { unfold subst1 in E. destruct (is_k k x); [|exact E]. exfalso. injection E as E.
          exact (X j k (or_intror I) (or_introl eq_refl) (eq_sym E)). }
        subst x. apply stands_map; [reflexivity|]. apply (H j); [right; exact I|reflexivity].
    + exact P.
    + assert (C := count_length k items). lia.
    + intros b a E. apply (H k); [left; reflexivity|exact E].
Qed.

(** ** The whole function *)

Lemma split_absent : forall c a, ~ In c a -> split_at c a = [a].
Proof.
  induction a as [|x a IH]; intros N; [reflexivity|]. cbn [split_at]. destruct (Ascii.eqb_spec x c) as [->|D]; [exfalso; apply N; left; reflexivity|].
  rewrite IH by (intros I; apply N; right; exact I). reflexivity.
Qed.

Lemma split_two : forall c a b, ~ In c a -> ~ In c b -> split_at c (a ++ c :: b) = [a; b].
Proof.
  induction a as [|x a IH]; intros b Na Nb.
  - cbn [app split_at]. rewrite Ascii.eqb_refl, split_absent by exact Nb. reflexivity.
  - cbn [app split_at]. destruct (Ascii.eqb_spec x c) as [->|D]; [exfalso; apply Na; left; reflexivity|].
    rewrite IH; [reflexivity| |exact Nb]. intros I; apply Na; right; exact I.
Qed.

Lemma split_length : forall c s, length (split_at c s) = S (count_occ ascii_dec s c).
Proof.
  intros c. induction s as [|x s IH]; [reflexivity|]. cbn [split_at count_occ].
  destruct (Ascii.eqb_spec x c) as [->|D]; destruct (ascii_dec _ _) as [E|E]; try congruence.
  - cbn [length]. rewrite IH. reflexivity.
  - destruct (split_at c s) as [|h r]; cbn [length] in *; congruence.
Qed.

Definition words_of (items : list item) : list text := flat_map (fun it => match it with Word w => [w] | Sign _ => [] end) items.

Lemma words_run : forall w rest cur, all_word w -> words (w ++ rest) cur = words rest (cur ++ w).
Proof.
  induction w as [|x w IH]; intros rest cur H; [rewrite app_nil_r; reflexivity|]. inversion H; subst. cbn [app words].
  rewrite H2, IH by assumption. rewrite <- app_assoc. reflexivity.
Qed.

Lemma words_items : forall items, Proper items -> words (spelling items) [] = words_of items.
Proof.
  induction items as [|[w|c] t IH]; intros P; [reflexivity| |].
  - destruct (proper_word w t P) as (Nw & Hw & St & Pt). rewrite spelling_cons. cbn [spell words_of flat_map app]. rewrite words_run by exact Hw. cbn [app].
    specialize (IH Pt). fold (words_of t). rewrite <- IH. destruct w as [|x w]; [destruct (Nw eq_refl)|].
    destruct (spelling t) as [|y s]; [reflexivity|]. cbn [words]. cbn in St. rewrite St. reflexivity.
  - destruct (proper_sign c t P) as (Hc & Pt). rewrite spelling_cons. cbn [spell app words]. rewrite Hc. exact (IH Pt).
Qed.

Lemma in_words : forall w items, In w (words_of items) <-> In (Word w) items.
Proof.
  intros w items. unfold words_of. rewrite in_flat_map. split.
  - intros ([w'|c] & I & J); [destruct J as [->|[]]; exact I|destruct J].
  - intros I. exists (Word w). split; [exact I|left; reflexivity].
Qed.

Lemma has_letter_iff : forall w, has_letter w = true <-> Name w.
Proof.
  intros w. unfold has_letter, Name. rewrite existsb_exists. split; intros (c & I & H); exists c; (split; [exact I|]); apply is_letter_iff; exact H.
Qed.

Lemma function_iff : forall w, Function w <-> In w functions.
Proof. intros w. reflexivity. Qed.

Lemma sign_in_spelling : forall c items, ~ WordChar c -> Proper items -> In c (spelling items) -> In (Sign c) items.
Proof.
  intros c items N. induction items as [|[w|d] t IH]; intros P I; [destruct I| |].
  - rewrite spelling_cons in I. cbn [spell] in I. apply in_app_or in I. destruct I as [I|I]; [|right; exact (IH (proper_cons _ _ P) I)].
    destruct P as (_ & P2 & _). rewrite Forall_forall in P2. destruct (N (P2 c I)).
  - rewrite spelling_cons in I. cbn [spell app] in I. destruct I as [->|I]; [left; reflexivity|right; exact (IH (proper_cons _ _ P) I)].
Qed.

Lemma equals_not_word : ~ WordChar "=".
Proof. apply not_word. reflexivity. Qed.

Lemma stands_expands : forall fs b a, Stands b a -> Stands (flat_map (expands fs) b) (flat_map (expands fs) a).
Proof.
  intros fs b a H.
  assert (Hb : forall b, (exists b0 c, b = b0 ++ [Sign c] /\ MathChar c) -> exists b0 c, flat_map (expands fs) b = b0 ++ [Sign c] /\ MathChar c).
  { intros b1 (b0 & c & -> & M). exists (flat_map (expands fs) b0), c. rewrite flat_map_app. split; [reflexivity|exact M]. }
  destruct H as [([->|H1] & [->|(c & a0 & -> & M)])|(H1 & (a0 & ->))].
  - left. split; left; reflexivity.
  - left. split; [left; reflexivity|]. right. exists c, (flat_map (expands fs) a0). split; [reflexivity|exact M].
  - left. split; [right; exact (Hb b H1)|left; reflexivity].
  - left. split; [right; exact (Hb b H1)|]. right. exists c, (flat_map (expands fs) a0). split; [reflexivity|exact M].
  - right. split; [exact (Hb b H1)|]. exists (flat_map (expands fs) a0). reflexivity.
Qed.

Lemma expands_split : forall fs items b k a, k <> np -> ~ In k fs -> flat_map (expands fs) items = b ++ Word k :: a ->
  exists b0 a0, items = b0 ++ Word k :: a0 /\ flat_map (expands fs) b0 = b /\ flat_map (expands fs) a0 = a.
Proof.
  intros fs items b k a Nn Nf. revert b. induction items as [|[w|c] t IH]; intros b E; [destruct b; discriminate| |].
  - cbn [flat_map expands] in E. destruct (tmem w fs) eqn:T.
    + cbn [app] in E. assert (w <> k) by (intros ->; apply tmem_in in T; contradiction).
      destruct b as [|x1 [|x2 [|x3 b]]]; cbn [app] in E; try (injection E; intros; congruence).
      injection E as <- <- <- E. destruct (IH b E) as (b0 & a0 & -> & <- & <-). exists (Word w :: b0), a0.
      split; [reflexivity|]. split; [cbn [flat_map expands]; rewrite T; reflexivity|reflexivity].
    + cbn [app] in E. destruct b as [|x b]; cbn [app] in E.
      * injection E as -> <-. exists [], t. split; [reflexivity|]. split; reflexivity.
      * injection E as <- E. destruct (IH b E) as (b0 & a0 & -> & <- & <-). exists (Word w :: b0), a0.
        split; [reflexivity|]. split; [cbn [flat_map expands]; rewrite T; reflexivity|reflexivity].
  - cbn [flat_map expands app] in E. destruct b as [|x b]; cbn [app] in E; [discriminate|].
    injection E as <- E. destruct (IH b E) as (b0 & a0 & -> & <- & <-). exists (Sign c :: b0), a0. split; [reflexivity|]. split; reflexivity.
Qed.

Lemma proper_size : forall items, Proper items -> (length items <= length (spelling items))%nat.
Proof.
  induction items as [|[w|c] t IH]; intros P; [reflexivity| |]; rewrite spelling_cons, app_length; cbn [spell length].
  - assert (H := IH (proper_cons _ _ P)). destruct P as (Nw & _). destruct w; [destruct (Nw eq_refl)|]. cbn [length]. lia.
  - assert (H := IH (proper_cons _ _ P)). lia.
Qed.

Lemma number_free : forall w f, ~ Name w -> In f functions -> ~ Inside f w.
Proof.
  intros w f N Hf (a & b & ->). apply N. cbn in Hf.
  assert (exists c, In c f /\ is_letter c = true) as (c & I & L) by (destruct Hf as [<-|[<-|[<-|[<-|[]]]]]; eexists; (split; [left; reflexivity|reflexivity])).
  exists c. split; [|apply is_letter_iff; exact L]. apply in_or_app. right. apply in_or_app. left. exact I.
Qed.

Definition meaning (vars : list text) (it : item) : text :=
  spelling (map (sub_vars vars) (expands functions it)).

Lemma spelling_flat_map : forall (g : item -> list item) (h : item -> item) items,
  spelling (map h (flat_map g items)) = concat (map (fun it => spelling (map h (g it))) items).
Proof.
  intros g h. induction items as [|it t IH]; [reflexivity|]. cbn [flat_map map concat]. rewrite map_app, spelling_app, IH. reflexivity.
Qed.

Lemma translate : forall out vars items, Proper items -> ~ In "=" out -> ~ In (Sign "=") items ->
  NoDup vars -> (forall k, In k vars -> Plain vars k) ->
  (forall w, In (Word w) items -> Function w \/ In w vars \/ ~ Name w) ->
  (forall b w a, items = b ++ Word w :: a -> In w vars -> Stands b a) ->
  exists parts, Forall2 (Becomes vars) items parts /\
    get_eval_string (out ++ "=" :: spelling items) (exec_names vars) = Ok (concat parts, out).
Proof.
  intros out vars items P No Ni N Pl K S. exists (map (meaning vars) items). split.
  - clear - K Pl. induction items as [|it t IH]; [constructor|]. cbn [map]. constructor; [|apply IH; intros w I; apply K; right; exact I].
    destruct it as [w|c]; [|exact (BeSign vars c)].
    unfold meaning. cbn [expands]. destruct (tmem w functions) eqn:T.
    + apply tmem_in in T.
      assert (Nn : tmem np vars = false).
      { destruct (tmem np vars) eqn:E; [|reflexivity]. apply tmem_in in E. destruct (Pl np E) as (_ & _ & _ & H & _). destruct (H eq_refl). }
      assert (Nw : tmem w vars = false).
      { destruct (tmem w vars) eqn:E; [|reflexivity]. apply tmem_in in E. destruct (Pl w E) as (_ & _ & H & _). exfalso. apply (H w T). exists [], []. rewrite app_nil_r. reflexivity. }
      cbn [map sub_vars]. rewrite Nn, Nw. cbn [spelling map spell concat]. unfold spelling. cbn [map spell concat]. rewrite app_nil_r. exact (BeFunction vars w T).
    + cbn [map sub_vars]. destruct (tmem w vars) eqn:E.
      * apply tmem_in in E. unfold spelling. cbn [map spell concat]. rewrite app_nil_r. exact (BeVariable vars w E).
      * unfold spelling. cbn [map spell concat]. rewrite app_nil_r.
        assert (NT : ~ In w functions) by (intros I; apply tmem_in in I; congruence).
        assert (NE : ~ In w vars) by (intros I; apply tmem_in in I; congruence).
        destruct (K w (or_introl eq_refl)) as [F|[I|H]]; [contradiction|contradiction|]. exact (BeNumber vars w H NE).
  - unfold get_eval_string. rewrite split_two; [|exact No|].
    2: { intros I. apply Ni. exact (sign_in_spelling "=" items equals_not_word P I). }
    assert (F : forallb (fun s => tmem s functions || tmem s (map fst (exec_names vars))) (filter has_letter (words (spelling items) [])) = true).
    { apply forallb_forall. intros w I. apply filter_In in I. destruct I as (I & L). rewrite words_items in I by exact P. apply in_words in I.
      apply has_letter_iff in L. apply orb_true_iff. destruct (K w I) as [F|[J|H]]; [left; apply tmem_in; exact F| |contradiction].
      right. apply tmem_in. unfold exec_names. rewrite map_map. cbn [fst]. rewrite map_id. exact J. }
    rewrite F. f_equal. f_equal.
    assert (Free : forall w, In (Word w) items -> In w functions \/ forall f, In f functions -> ~ Inside f w).
    { intros w I. destruct (K w I) as [G|[J|H]]; [left; exact G| |].
      - right. intros f Hf. destruct (Pl w J) as (_ & _ & H & _). exact (H f Hf).
      - right. intros f Hf. exact (number_free w f H Hf). }
    assert (E := stage_functions functions [] items P).
    rewrite expands_nil in E. cbn [app] in E. rewrite E; [|repeat constructor; cbn; intuition discriminate|intros f I; exact I|exact Free].
    set (items1 := flat_map (expands functions) items).
    assert (P1 : Proper items1) by (apply proper_expands; exact P).
    rewrite all_names.
    + unfold items1. rewrite spelling_flat_map. reflexivity.
    + exact P1.
    + assert (H := proper_size items1 P1). lia.
    + exact N.
    + intros k I. destruct (Pl k I) as (H1 & H2 & _). split; [exact H1|apply all_word_iff; exact H2].
    + intros k u I J. destruct (Pl k I) as (_ & _ & _ & _ & H). exact (H u J).
    + intros k b a I Eq. destruct (Pl k I) as (_ & _ & Hf & Hn & _).
      assert (NF : ~ In k functions) by (intros J; apply (Hf k J); exists [], []; rewrite app_nil_r; reflexivity).
      destruct (expands_split functions items b k a Hn NF Eq) as (b0 & a0 & -> & <- & <-).
      apply stands_expands. exact (S b0 k a0 eq_refl I).
Qed.

Lemma refused : forall out vars items w, Proper items -> ~ In "=" out -> ~ In (Sign "=") items ->
  In (Word w) items -> Name w -> ~ Function w -> ~ In w vars ->
  get_eval_string (out ++ "=" :: spelling items) (exec_names vars) = Err ValueError.
Proof.
  intros out vars items w P No Ni I N NF NV. unfold get_eval_string. rewrite split_two; [|exact No|].
  2: { intros J. apply Ni. exact (sign_in_spelling "=" items equals_not_word P J). }
  destruct (forallb _ _) eqn:F; [|reflexivity]. rewrite forallb_forall in F.
  assert (J : In w (filter has_letter (words (spelling items) []))).
  { apply filter_In. split; [rewrite words_items by exact P; apply in_words; exact I|apply has_letter_iff; exact N]. }
  specialize (F w J). apply orb_true_iff in F. destruct F as [F|F]; apply tmem_in in F; [contradiction|].
  unfold exec_names in F. rewrite map_map in F. cbn [fst] in F. rewrite map_id in F. contradiction.
Qed.

Lemma one_equals : forall expr map_vars, count_occ ascii_dec expr "=" <> 1%nat -> get_eval_string expr map_vars = Err ValueError.
Proof.
  intros expr map_vars H. unfold get_eval_string. assert (L := split_length "=" expr).
  destruct (split_at "=" expr) as [|a [|b [|c r]]]; try reflexivity. cbn [length] in L. congruence.
Qed.

(** Every text is the spelling of words and signs. *)
Lemma tokens : forall s : text, exists items, Proper items /\ spelling items = s.
Proof.
  induction s as [|c s (items & P & E)]; [exists []; split; [exact I|reflexivity]|].
  destruct (is_word c) eqn:W.
  - destruct items as [|[w|d] t].
    + exists [Word [c]]. split; [|cbn; rewrite <- E; reflexivity]. cbn. repeat split; [discriminate|]. constructor; [apply is_word_iff; exact W|constructor].
    + exists (Word (c :: w) :: t). destruct P as (P1 & P2 & P3 & P4). split; [|rewrite <- E; reflexivity].
      split; [discriminate|]. split; [constructor; [apply is_word_iff; exact W|exact P2]|]. split; [exact P3|exact P4].
    + exists (Word [c] :: Sign d :: t). split; [|rewrite <- E; reflexivity]. split; [discriminate|]. split; [constructor; [apply is_word_iff; exact W|constructor]|]. split; [exact I|exact P].
  - exists (Sign c :: items). split; [split; [apply not_word; exact W|exact P]|]. rewrite <- E. reflexivity.
Qed.

(** ** Several variables *)

Lemma distinct_in : forall ws w, In w (distinct ws) <-> In w ws.
Proof.
  induction ws as [|x ws IH]; intros w; [reflexivity|]. cbn [distinct]. destruct (tmem x ws) eqn:T.
  - rewrite IH. split; [intros I; right; exact I|]. intros [<-|I]; [apply tmem_in; exact T|exact I].
  - cbn [In]. rewrite IH. reflexivity.
Qed.

Lemma distinct_nodup : forall ws, NoDup (distinct ws).
Proof.
  induction ws as [|x ws IH]; [constructor|]. cbn [distinct]. destruct (tmem x ws) eqn:T; [exact IH|].
  constructor; [|exact IH]. rewrite distinct_in. intros I. apply tmem_in in I. congruence.
Qed.

Lemma multivariate : forall out items, Proper items -> ~ In "=" out -> ~ In (Sign "=") items ->
  exists b, is_multivariate (out ++ "=" :: spelling items) = Ok b /\
    (b = true <-> exists w1 w2, w1 <> w2 /\ (In (Word w1) items /\ Name w1 /\ ~ Function w1) /\ (In (Word w2) items /\ Name w2 /\ ~ Function w2)).
Proof.
  intros out items P No Ni. unfold is_multivariate. rewrite split_two; [|exact No|].
  2: { intros J. apply Ni. exact (sign_in_spelling "=" items equals_not_word P J). }
  set (ws := filter (fun s => negb (tmem s functions)) (distinct (filter has_letter (words (spelling items) [])))).
  assert (In_ws : forall w, In w ws <-> In (Word w) items /\ Name w /\ ~ Function w).
  { intros w. unfold ws. rewrite filter_In, distinct_in, filter_In, words_items by exact P. rewrite in_words, has_letter_iff, negb_true_iff.
    assert (tmem w functions = false <-> ~ Function w); [|tauto].
    rewrite function_iff, <- tmem_in. destruct (tmem w functions); split; congruence. }
  assert (Nd : NoDup ws) by (apply NoDup_filter, distinct_nodup).
  eexists. split; [reflexivity|]. rewrite Nat.ltb_lt. split.
  - intros L. destruct ws as [|w1 [|w2 r]] eqn:E; try (cbn in L; lia). exists w1, w2. split; [|split].
    + inversion Nd as [|? ? N1 _]; subst. intros ->. apply N1. left. reflexivity.
    + apply In_ws. left. reflexivity.
    + apply In_ws. right. left. reflexivity.
  - intros (w1 & w2 & D & I1 & I2). apply In_ws in I1. apply In_ws in I2. destruct ws as [|a [|b r]]; [destruct I1| |cbn; lia].
    destruct I1 as [<-|[]]. destruct I2 as [<-|[]]. destruct (D eq_refl).
Qed.
