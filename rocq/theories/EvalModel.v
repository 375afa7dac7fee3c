(** Model of string expressions as calculations: calc/eval_function.py
    EvalFunction._get_eval_string_ (lines 110-162) and is_multivariate (79-107).

    Texts are lists of characters.  Simplifications: the names of variables are
    made of the characters [A-Za-z0-9_], so that a name stands for itself in a
    regular expression (the code does not escape it); sets are lists and checked
    in order, which decides which unknown name an error reports, not whether one
    is raised.  The evaluation of the result by Python is not modelled. *)
From Verif Require Import Py.
From Coq Require Export Ascii.
Local Open Scope char_scope.

Definition text := list ascii.
Definition chars (s : string) : text := list_ascii_of_string s.

Definition between (a b c : ascii) : bool :=
  (nat_of_ascii a <=? nat_of_ascii c)%nat && (nat_of_ascii c <=? nat_of_ascii b)%nat.
(** [A-Za-z] *)
Definition is_letter (c : ascii) : bool := between "A" "Z" c || between "a" "z" c.
(** [A-Za-z0-9_] *)
Definition is_word (c : ascii) : bool := is_letter c || between "0" "9" c || Ascii.eqb c "_".
(** eval_function.py:124 [math_set]. *)
Definition is_math (c : ascii) : bool := existsb (Ascii.eqb c) (chars "(-+*/)").

Fixpoint text_eqb (a b : text) : bool :=
  match a, b with
  | [], [] => true
  | x :: a', y :: b' => Ascii.eqb x y && text_eqb a' b'
  | _, _ => false
  end.
Definition tmem (w : text) (ws : list text) : bool := existsb (text_eqb w) ws.

(** [s.split(c)]. *)
Fixpoint split_at (c : ascii) (s : text) : list text :=
  match s with
  | [] => [[]]
  | x :: t =>
      if Ascii.eqb x c then [] :: split_at c t
      else match split_at c t with
           | h :: r => (x :: h) :: r
           | [] => [[x]]
           end
  end.

(** [re.findall("[A-Za-z0-9_]+", s)]; [cur] is the match that has begun. *)
Fixpoint words (s cur : text) : list text :=
  match s with
  | [] => match cur with [] => [] | _ => [cur] end
  | x :: t =>
      if is_word x then words t (cur ++ [x])
      else match cur with [] => words t [] | _ => cur :: words t [] end
  end.

(** [re.search("[A-Za-z]", s) is not None]. *)
Definition has_letter (w : text) : bool := existsb is_letter w.

(** [s] without the prefix [k]. *)
Fixpoint strip (k s : text) : option text :=
  match k, s with
  | [], _ => Some s
  | x :: k', y :: s' => if Ascii.eqb x y then strip k' s' else None
  | _ :: _, [] => None
  end.

(** [s.replace(k, v)]: occurrences from left to right; [skip] characters belong
    to the last one. *)
Fixpoint replace (k v s : text) (skip : nat) : text :=
  match s with
  | [] => []
  | x :: t =>
      match skip with
      | S n => replace k v t n
      | O => match strip k s with
             | Some _ => v ++ replace k v t (pred (length k))
             | None => x :: replace k v t 0
             end
      end
  end.

(** eval_function.py:126 the regular expressions: what stands before and after
    the name.  [$] also matches before a final newline. *)
Inductive lctx := LMath | LStart.
Inductive rctx := RMath | REnd | RComma.
Definition patterns : list (lctx * rctx) :=
  [(LMath, RMath); (LStart, RMath); (LMath, REnd); (LStart, REnd); (LMath, RComma)].

(** What the end of the expression matches at the beginning of [s]. *)
Definition right (r : rctx) (s : text) : option text :=
  match r, s with
  | RMath, c :: _ => if is_math c then Some [c] else None
  | RComma, c :: _ => if Ascii.eqb c "," then Some [c] else None
  | REnd, [] => Some []
  | REnd, [c] => if Ascii.eqb c "010" then Some [] else None
  | _, _ => None
  end.

(** The match at the beginning of [s], which is the beginning of the text if
    [start]. *)
Definition match_at (p : lctx * rctx) (k : text) (start : bool) (s : text) : option text :=
  match fst p with
  | LMath =>
      match s with
      | c :: t =>
          if is_math c then
            match strip k t with
            | Some u => match right (snd p) u with Some e => Some (c :: k ++ e)%list | None => None end
            | None => None
            end
          else None
      | [] => None
      end
  | LStart =>
      if start then
        match strip k s with
        | Some u => match right (snd p) u with Some e => Some (k ++ e)%list | None => None end
        | None => None
        end
      else None
  end.

(** [re.sub(re_expr, repl, expr)] with [repl] of lines 153-154. *)
Fixpoint resub (p : lctx * rctx) (k v : text) (start : bool) (s : text) (skip : nat) : text :=
  match s with
  | [] => []
  | x :: t =>
      match skip with
      | S n => resub p k v false t n
      | O => match match_at p k start s with
             | Some g => (replace k v g 0 ++ resub p k v false t (pred (length g)))%list
             | None => x :: resub p k v false t 0
             end
      end
  end.

(** [re.search(re_expr, expr) is not None]. *)
Fixpoint research (p : lctx * rctx) (k : text) (start : bool) (s : text) : bool :=
  match match_at p k start s with
  | Some _ => true
  | None => match s with [] => false | _ :: t => research p k false t end
  end.

(** eval_function.py:151-161 the loop, which is left after [fuel] turns. *)
Fixpoint sub_loop (fuel : nat) (p : lctx * rctx) (k v s : text) : text :=
  match fuel with
  | O => s
  | S n => let s' := resub p k v true s 0 in
           if research p k true s' then sub_loop n p k v s' else s'
  end.

(** constants.py:132 [ENABLED_NUMPY_UFUNCS]. *)
Definition functions : list text := [chars "exp"; chars "log"; chars "abs"; chars "power"].

(** eval_function.py:110-162 [_get_eval_string_]: the expression to evaluate and
    the name of the result. *)
Definition get_eval_string (expr : text) (map_vars : list (text * text)) : res (text * text) :=
  match split_at "=" expr with
  | [out; rhs] =>
      if forallb (fun s => tmem s functions || tmem s (map fst map_vars)) (filter has_letter (words rhs [])) then
        let e := fold_left (fun e f => replace f (chars "np." ++ f) e 0) functions rhs in          (* 144-145 *)
        let turns := S (length e) in                                                           (* 147 *)
        Ok (fold_left (fun e kv => fold_left (fun e p => sub_loop turns p (fst kv) (snd kv) e) patterns e) map_vars e, out)
      else Err ValueError                                                                      (* 138-142 *)
  | _ => Err ValueError                                                                        (* 128-132 *)
  end.

(** eval_function.py:41-44 the names the expression is evaluated with. *)
Definition exec_names (vars : list text) : list (text * text) := map (fun k => (k, chars "_exec_" ++ k)%list) vars.

(** eval_function.py:79-107 [is_multivariate]. *)
Fixpoint distinct (ws : list text) : list text :=
  match ws with [] => [] | w :: t => if tmem w t then distinct t else w :: distinct t end.
Definition is_multivariate (expr : text) : res bool :=
  match split_at "=" expr with
  | _ :: rhs :: _ =>
      Ok (1 <? length (filter (fun s => negb (tmem s functions)) (distinct (filter has_letter (words rhs [])))))%nat
  | _ => Err IndexError
  end.
