(** Deciding the hypotheses of C72 for a given expression. *)
From Verif Require Import Py EvalModel EvalSpec EvalProofs.
Local Open Scope char_scope.
Local Open Scope list_scope.

Definition math_last (b : list item) : bool := match rev b with Sign c :: _ => is_math c | _ => false end.
Definition standsb (b a : list item) : bool :=
  ((match b with [] => true | _ => math_last b end) && (match a with [] => true | Sign c :: _ => is_math c | _ => false end)) ||
  (math_last b && match a with Sign c :: _ => Ascii.eqb c "," | _ => false end).
Fixpoint all_stand (vars : list text) (b items : list item) : bool :=
  match items with
  | [] => true
  | it :: t => (match it with Word w => negb (tmem w vars) || standsb b t | Sign _ => true end) && all_stand vars (b ++ [it]) t
  end.

Lemma math_last_spec : forall b, math_last b = true -> exists b0 c, b = b0 ++ [Sign c] /\ MathChar c.
Proof.
  intros b H. unfold math_last in H. destruct (rev b) as [|[w|c] r] eqn:E; try discriminate. exists (rev r), c.
  split; [|apply is_math_iff; exact H]. rewrite <- (rev_involutive b), E. reflexivity.
Qed.

Lemma standsb_spec : forall b a, standsb b a = true -> Stands b a.
Proof.
  intros b a H. unfold standsb in H. apply orb_true_iff in H. destruct H as [H|H]; apply andb_true_iff in H; destruct H as (H1 & H2).
  - left. split.
    + destruct b as [|x b]; [left; reflexivity|right; exact (math_last_spec _ H1)].
    + destruct a as [|[w|c] a]; [left; reflexivity|discriminate|]. right. exists c, a. split; [reflexivity|apply is_math_iff; exact H2].
  - right. split; [exact (math_last_spec _ H1)|]. destruct a as [|[w|c] a]; try discriminate. exists a. apply Ascii.eqb_eq in H2. subst c. reflexivity.
Qed.

Lemma all_stand_spec : forall vars items b0 b w a, all_stand vars b0 items = true -> items = b ++ Word w :: a -> In w vars -> Stands (b0 ++ b) a.
Proof.
  intros vars. induction items as [|it t IH]; intros b0 b w a H E I; [destruct b; discriminate|].
  cbn [all_stand] in H. apply andb_true_iff in H. destruct H as (H1 & H2). destruct b as [|x b]; cbn [app] in E.
  - injection E as -> ->. apply orb_true_iff in H1. destruct H1 as [H1|H1].
    + apply negb_true_iff in H1. apply tmem_in in I. congruence.
    + rewrite app_nil_r. apply standsb_spec. exact H1.
  - injection E as -> E. specialize (IH (b0 ++ [x]) b w a H2 E I). rewrite <- app_assoc in IH. exact IH.
Qed.

Definition insideb (f w : text) : bool := existsb (fun n => match strip f (skipn n w) with Some _ => true | None => false end) (seq 0 (S (length w))).
Lemma insideb_spec : forall f w, Inside f w -> insideb f w = true.
Proof.
  intros f w (a & b & ->). unfold insideb. apply existsb_exists. exists (length a). split.
  - apply in_seq. rewrite !app_length. lia.
  - rewrite skipn_app, skipn_all, Nat.sub_diag. cbn [skipn app]. rewrite strip_app. reflexivity.
Qed.

Definition plainb (vars : list text) (w : text) : bool :=
  negb (text_eqb w []) && forallb is_word w && forallb (fun f => negb (insideb f w)) functions && negb (text_eqb w np) &&
  forallb (fun u => negb (text_eqb w (exec u))) vars.

Lemma plainb_spec : forall vars w, plainb vars w = true -> Plain vars w.
Proof.
  intros vars w H. unfold plainb in H. repeat (apply andb_true_iff in H; destruct H as (H & ?)).
  split; [intros ->; discriminate|]. split; [apply all_word_iff; unfold all_word; rewrite Forall_forall; intros c I; rewrite forallb_forall in H3; exact (H3 c I)|].
  split; [|split].
  - intros f F J. rewrite forallb_forall in H2. specialize (H2 f F). rewrite insideb_spec in H2 by exact J. discriminate.
  - intros E. destruct (text_eqb_spec w np) as [D|D]; [discriminate|exact (D E)].
  - intros u I E. rewrite forallb_forall in H0. specialize (H0 u I). destruct (text_eqb_spec w (exec u)) as [D|D]; [discriminate|exact (D E)].
Qed.

Fixpoint properb (items : list item) : bool :=
  match items with
  | [] => true
  | Word w :: t => negb (text_eqb w []) && forallb is_word w && match t with Word _ :: _ => false | _ => true end && properb t
  | Sign c :: t => negb (is_word c) && properb t
  end.
Lemma properb_spec : forall items, properb items = true -> Proper items.
Proof.
  induction items as [|[w|c] t IH]; intros H; [exact I| |]; cbn [properb] in H; repeat (apply andb_true_iff in H; destruct H as (H & ?)).
  - split; [intros ->; discriminate|]. split; [apply all_word_iff; unfold all_word; rewrite Forall_forall; rewrite forallb_forall in H2; exact H2|].
    split; [destruct t as [|[]]; [exact I|discriminate|exact I]|exact (IH H0)].
  - split; [apply not_word; destruct (is_word c); [discriminate|reflexivity]|exact (IH H0)].
Qed.

Definition knownb (vars : list text) (items : list item) : bool :=
  forallb (fun it => match it with Word w => tmem w functions || tmem w vars || negb (has_letter w) | Sign _ => true end) items.
Lemma knownb_spec : forall vars items, knownb vars items = true -> forall w, In (Word w) items -> Function w \/ In w vars \/ ~ Name w.
Proof.
  intros vars items H w I. unfold knownb in H. rewrite forallb_forall in H. specialize (H _ I). cbn beta iota in H.
  apply orb_true_iff in H. destruct H as [H|H]; [apply orb_true_iff in H; destruct H as [H|H]; apply tmem_in in H; [left; exact H|right; left; exact H]|].
  right. right. intros N. apply has_letter_iff in N. rewrite N in H. discriminate.
Qed.
