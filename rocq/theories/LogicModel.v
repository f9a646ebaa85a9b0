(** * Model of sam_learning/core/propositional_operations/logical_expression_operations.py

    Literals are strings in the code.  Every function below is polymorphic in the type of literals,
    with the three text operations the code uses packed in the class [Lits]; the instance [string_lits]
    is the code's.  The instance over literal records used by the conditional learner is in CondModel. *)
From Coq Require Import Ascii.
From Verif Require Export Prelude.
Open Scope string_scope.
Open Scope list_scope.
Open Scope nat_scope.

Class Lits (A : Type) `{EqDec A} :=
  { (** [literal.startswith("(not")] *)
    starts_not : A -> bool;
    (** logical_expression_operations.py:63-72 [_flip_single_predicate] *)
    flip : A -> A;
    (** [regex.search(literal)], the matched text *)
    literal_search : A -> option A }.

(** ** Text operations *)

(** [\w] on ASCII. *)
Definition is_word (c : ascii) : bool :=
  let n := nat_of_ascii c in
  (48 <=? n) && (n <=? 57) || (65 <=? n) && (n <=? 90) || (n =? 95) || (97 <=? n) && (n <=? 122).
(** [\s] on ASCII. *)
Definition is_space (c : ascii) : bool :=
  let n := nat_of_ascii c in
  (9 <=? n) && (n <=? 13) || (28 <=? n) && (n <=? 32).
Definition is_char (d c : ascii) : bool := if ascii_dec d c then true else false.

(** logical_expression_operations.py:12: the two character classes of LITERAL_REGEX,
    [[\?w+[\-?_?\w]] and [[?\w+\s?]]. *)
Definition class1 (c : ascii) : bool :=
  is_word c || is_char "?" c || is_char "+" c || is_char "[" c || is_char "-" c.
Definition class2 (c : ascii) : bool :=
  is_word c || is_space c || is_char "?" c || is_char "+" c.

Fixpoint all_chars (p : ascii -> bool) (s : string) : bool :=
  match s with "" => true | String c s' => p c && all_chars p s' end.
Fixpoint drop_while (p : ascii -> bool) (s : string) : string :=
  match s with "" => "" | String c s' => if p c then drop_while p s' else s end.
(** Text before the first closing bracket. *)
Fixpoint upto_close (s : string) : option string :=
  match s with
  | "" => None
  | String c s' => if is_char ")" c then Some "" else option_map (String c) (upto_close s')
  end.

(** logical_expression_operations.py:12, 133: LITERAL_REGEX matched right after an opening bracket.
    No class contains a closing bracket, so a match ends at the first one; the text in between has the
    form class1* \s? class2*, that is, class1* class2*. *)
Definition match_at (s : string) : option string :=
  match upto_close s with
  | Some m => if all_chars class2 (drop_while class1 m) then Some ("(" ++ m ++ ")")%string else None
  | None => None
  end.
(** [re.compile(LITERAL_REGEX).search(s)]: the leftmost match. *)
Fixpoint text_search (s : string) : option string :=
  match s with
  | "" => None
  | String c s' => if is_char "(" c
                   then match match_at s' with Some r => Some r | None => text_search s' end
                   else text_search s'
  end.

(** logical_expression_operations.py:69 [predicate.startswith("(not")]. *)
Definition text_starts_not (s : string) : bool := String.prefix "(not" s.
(** logical_expression_operations.py:63-72 [_flip_single_predicate]; the same expression is inlined at
    170-171 and in dependency_set.py:326.  [s[5:-1]] drops five characters and the last one. *)
Definition text_flip (s : string) : string :=
  if text_starts_not s then String.substring 5 (String.length s - 6) s
  else ("(not " ++ s ++ ")")%string.

#[export] Instance string_lits : Lits string :=
  { starts_not := text_starts_not; flip := text_flip; literal_search := text_search }.

(** ** Functions on sets of literals *)
Section Logic.
Context {A : Type} `{LA : Lits A}.

(** logical_expression_operations.py:75-92 [create_cnf_combination]. *)
Definition create_cnf_combination (input_literals : list A) (max_size : nat) (exclude : option (list A))
  : list (list A) :=
  let antecedents_to_use := match exclude with Some e => set_diff input_literals e | None => input_literals end in
  flat_map (fun subset_size => map (fun combination => to_set combination) (combs subset_size antecedents_to_use))
           (seq 1 max_size).

(** [regex.search(literal).group()]: AttributeError on no match. *)
Definition extracted_literal (x : A) : res A :=
  match literal_search x with Some y => Ok y | None => Err AttributeError end.

(** logical_expression_operations.py:135-138: the test on one pair. *)
Definition complementary_pair (p : A * A) : res bool :=
  let* first := extracted_literal (fst p) in
  let* second := extracted_literal (snd p) in
  Ok (eqb first second && (length (filter starts_not [fst p; snd p]) =? 1)).

(** logical_expression_operations.py:127-142 [check_complementary_literals]. *)
Fixpoint any_complementary (ps : list (A * A)) : res bool :=
  match ps with
  | [] => Ok false
  | p :: ps' => let* b := complementary_pair p in if (b : bool) then Ok true else any_complementary ps'
  end.
Definition check_complementary_literals (clause : list A) : res bool := any_complementary (pairs2 clause).

(** [clause.remove(x)] on a set. *)
Definition set_remove (x : A) (s : list A) : res (list A) :=
  if memb x s then Ok (set_discard x s) else Err KeyError.

(** logical_expression_operations.py:169-173: the loop over the assumptions for one clause. *)
Definition strip_assumptions (used : list A) (clause : list A) : res (list A) :=
  fold_res (fun clause assumption =>
              let* c := check_complementary_literals (set_add assumption clause) in
              if (c : bool) then set_remove (flip assumption) clause else Ok clause)
           used clause.

(** logical_expression_operations.py:164-181: the loop over the non-unit clauses. *)
Definition minimize_clause (used : list A) (minimized : list (list A)) (clause : list A) : res (list (list A)) :=
  let* c := check_complementary_literals clause in
  if (c : bool) || existsb (fun a => memb a clause) used then Ok minimized
  else
    let* clause' := strip_assumptions used clause in
    match clause' with
    | [] => Err ValueError
    | _ => Ok (minimized ++ [clause'])
    end.

(** logical_expression_operations.py:145-183 [minimize_cnf_clauses].  The second component is the
    content of the caller's (non-empty) assumption set afterwards. *)
Definition minimize_cnf_clauses (clauses : list (list A)) (assumptions : list A)
  : res (list (list A) * list A) :=
  let units := filter (fun c => (length c =? 1) && match set_inter c assumptions with [] => true | _ => false end) clauses in
  let unit_clauses := to_set (concat units) in
  let* c := check_complementary_literals unit_clauses in
  if (c : bool) then Err ValueError
  else
    let used := set_union assumptions unit_clauses in
    let* out := fold_res (minimize_clause used) (filter (fun c => 1 <? length c) clauses) units in
    Ok (out, used).

(** logical_expression_operations.py:186-196 [negate_and_convert_to_cnf]. *)
Definition negate_and_convert_to_cnf (clauses : list (list (list A))) : list (list A) :=
  concat (map (fun clause => map (fun conjunction => to_set (map flip conjunction)) clause) clauses).

End Logic.
