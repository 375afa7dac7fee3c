(** Vocabulary of C72: string expressions as sequences of words and signs. *)
From Verif Require Import Py EvalModel.
Local Open Scope char_scope.

Definition WordChar (c : ascii) : Prop :=
  In c (list_ascii_of_string "ABCDEFGHIJKLMNOPQRSTUVWXYZabcdefghijklmnopqrstuvwxyz0123456789_").
Definition Letter (c : ascii) : Prop :=
  In c (list_ascii_of_string "ABCDEFGHIJKLMNOPQRSTUVWXYZabcdefghijklmnopqrstuvwxyz").
(** Parentheses and the signs of arithmetic. *)
Definition MathChar (c : ascii) : Prop := In c ["("; ")"; "+"; "-"; "*"; "/"].

Inductive item := Word (w : text) | Sign (c : ascii).

Definition spell (it : item) : text := match it with Word w => w | Sign c => [c] end.
Definition spelling (items : list item) : text := concat (map spell items).

(** Words are as long as they can be. *)
Fixpoint Proper (items : list item) : Prop :=
  match items with
  | [] => True
  | Word w :: t => w <> [] /\ Forall WordChar w /\ match t with Word _ :: _ => False | _ => True end /\ Proper t
  | Sign c :: t => ~ WordChar c /\ Proper t
  end.

Definition Function (w : text) : Prop := In w (map list_ascii_of_string ["exp"; "log"; "abs"; "power"]%string).
(** A word with a letter in it is a name. *)
Definition Name (w : text) : Prop := exists c, In c w /\ Letter c.

(** [f] occurs in [w]. *)
Definition Inside (f w : text) : Prop := exists a b, w = (a ++ f ++ b)%list.

(** A name that the substitutions leave alone until it is its turn. *)
Definition Plain (vars : list text) (w : text) : Prop :=
  w <> [] /\ Forall WordChar w /\ (forall f, Function f -> ~ Inside f w) /\ w <> list_ascii_of_string "np" /\
  forall u, In u vars -> w <> (list_ascii_of_string "_exec_" ++ u)%list.

(** Where a name is recognized: between arithmetic signs or ends of the
    expression, or between a sign and a comma. *)
Definition Stands (before after : list item) : Prop :=
  ((before = [] \/ exists b c, before = (b ++ [Sign c])%list /\ MathChar c) /\
   (after = [] \/ exists c a, after = Sign c :: a /\ MathChar c)) \/
  ((exists b c, before = (b ++ [Sign c])%list /\ MathChar c) /\ exists a, after = Sign "," :: a).

(** What a part of the expression becomes: the array of a variable, the function
    of NumPy, or itself. *)
Inductive Becomes (vars : list text) : item -> text -> Prop :=
| BeVariable w : In w vars -> Becomes vars (Word w) (list_ascii_of_string "_exec_" ++ w)
| BeFunction w : Function w -> Becomes vars (Word w) (list_ascii_of_string "np." ++ w)
| BeNumber w : ~ Name w -> ~ In w vars -> Becomes vars (Word w) w
| BeSign c : Becomes vars (Sign c) [c].
