(** C72: string expressions as calculations. *)
From Verif Require Import Py EvalModel EvalSpec EvalProofs EvalWitness.
Local Open Scope char_scope.
Local Open Scope list_scope.

(** Every text is a sequence of words and signs, so that the theorems below are
    about every expression. *)
Theorem C72_tokens : forall s : text, exists items, Proper items /\ spelling items = s.
Proof. exact tokens. Qed.
Print Assumptions C72_tokens.

(** C72: what is evaluated is the expression with every variable replaced by its
    array, every function by that of NumPy, and everything else as it was; the
    result is named by what stands before the equals sign.  Partial: the names of
    the variables are [Plain] and stand where they are recognized. *)
Theorem C72_translate_partial : forall out vars items, Proper items -> ~ In "=" out -> ~ In (Sign "=") items ->
  NoDup vars -> (forall k, In k vars -> Plain vars k) ->
  (forall w, In (Word w) items -> Function w \/ In w vars \/ ~ Name w) ->
  (forall b w a, items = b ++ Word w :: a -> In w vars -> Stands b a) ->
  exists parts, Forall2 (Becomes vars) items parts /\
    get_eval_string (out ++ "=" :: spelling items) (exec_names vars) = Ok (concat parts, out).
Proof. exact translate. Qed.
Print Assumptions C72_translate_partial.

(** C72: a name that is neither a function nor a variable is refused. *)
Theorem C72_unknown : forall out vars items w, Proper items -> ~ In "=" out -> ~ In (Sign "=") items ->
  In (Word w) items -> Name w -> ~ Function w -> ~ In w vars ->
  get_eval_string (out ++ "=" :: spelling items) (exec_names vars) = Err ValueError.
Proof. exact refused. Qed.
Print Assumptions C72_unknown.

(** C72: an expression without exactly one equals sign is refused. *)
Theorem C72_equals : forall expr map_vars, count_occ ascii_dec expr "=" <> 1%nat -> get_eval_string expr map_vars = Err ValueError.
Proof. exact one_equals. Qed.
Print Assumptions C72_equals.

(** C72: an expression is multivariate if it uses at least two variables. *)
Theorem C72_multivariate : forall out items, Proper items -> ~ In "=" out -> ~ In (Sign "=") items ->
  exists b, is_multivariate (out ++ "=" :: spelling items) = Ok b /\
    (b = true <-> exists w1 w2, w1 <> w2 /\ (In (Word w1) items /\ Name w1 /\ ~ Function w1) /\ (In (Word w2) items /\ Name w2 /\ ~ Function w2)).
Proof. exact multivariate. Qed.
Print Assumptions C72_multivariate.

(** The expression (tas+tasmax*tas)/exp(2). *)
Definition case_vars : list text := [chars "tas"; chars "tasmax"].
Definition case_items : list item :=
  [Sign "("; Word (chars "tas"); Sign "+"; Word (chars "tasmax"); Sign "*"; Word (chars "tas"); Sign ")"; Sign "/";
   Word (chars "exp"); Sign "("; Word (chars "2"); Sign ")"].

Example C72_case :
  Proper case_items /\ spelling case_items = chars "(tas+tasmax*tas)/exp(2)" /\ ~ In (Sign "=") case_items /\
  NoDup case_vars /\ (forall k, In k case_vars -> Plain case_vars k) /\
  (forall w, In (Word w) case_items -> Function w \/ In w case_vars \/ ~ Name w) /\
  (forall b w a, case_items = b ++ Word w :: a -> In w case_vars -> Stands b a) /\
  get_eval_string (chars "x=(tas+tasmax*tas)/exp(2)") (exec_names case_vars) =
    Ok (chars "(_exec_tas+_exec_tasmax*_exec_tas)/np.exp(2)", chars "x").
Proof.
  split; [apply properb_spec; vm_compute; reflexivity|]. split; [reflexivity|]. split; [cbn; intuition discriminate|].
  split; [repeat constructor; cbn; intuition discriminate|]. split; [|split; [|split; [|vm_compute; reflexivity]]].
  - intros k I. apply plainb_spec. destruct I as [<-|[<-|[]]]; vm_compute; reflexivity.
  - apply knownb_spec. vm_compute. reflexivity.
  - intros b w a E I. refine (all_stand_spec case_vars case_items [] b w a _ E I). vm_compute. reflexivity.
Qed.

(** An expression of the documentation. *)
Example C72_documented :
  get_eval_string (chars "es=6.1078*exp(17.08085*(tas-273.16)/(234.175+(tas-273.16)))") (exec_names [chars "tas"]) =
    Ok (chars "6.1078*np.exp(17.08085*(_exec_tas-273.16)/(234.175+(_exec_tas-273.16)))", chars "es") /\
  is_multivariate (chars "es=6.1078*exp(17.08085*(tas-273.16)/(234.175+(tas-273.16)))") = Ok false /\
  is_multivariate (chars "diff=tasmax-tasmin") = Ok true.
Proof. vm_compute. repeat split. Qed.

(** C72 refuted: a variable next to a blank, or after a comma, is not replaced,
    and cannot be evaluated; a blank before the equals sign becomes part of the
    name of the result. *)
Theorem C72_blank_refuted :
  get_eval_string (chars "es=tas + 4") (exec_names case_vars) = Ok (chars "tas + 4", chars "es") /\
  get_eval_string (chars "es = tas+4") (exec_names case_vars) = Ok (chars " tas+4", chars "es ") /\
  get_eval_string (chars "es=power(2,tas)") (exec_names case_vars) = Ok (chars "np.power(2,tas)", chars "es").
Proof. vm_compute. repeat split. Qed.
Print Assumptions C72_blank_refuted.

(** C72 refuted: a variable with the name of a function in its own. *)
Theorem C72_inside_refuted :
  get_eval_string (chars "es=catalog*2") (exec_names [chars "catalog"]) = Ok (chars "catanp.log*2", chars "es").
Proof. vm_compute. reflexivity. Qed.
Print Assumptions C72_inside_refuted.

(** C72 refuted: a number with an exponent is taken for a name. *)
Theorem C72_number_refuted : get_eval_string (chars "es=tas*1e3") (exec_names case_vars) = Err ValueError.
Proof. vm_compute. reflexivity. Qed.
Print Assumptions C72_number_refuted.

(** C72 refuted: a variable can be taken for another: both names are replaced by
    the array of the second. *)
Theorem C72_twice_refuted :
  get_eval_string (chars "es=tas+_exec_tas") (exec_names [chars "tas"; chars "_exec_tas"]) =
    Ok (chars "_exec__exec_tas+_exec__exec_tas", chars "es").
Proof. vm_compute. reflexivity. Qed.
Print Assumptions C72_twice_refuted.
