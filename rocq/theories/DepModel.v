(** * Model of sam_learning/core/propositional_operations/dependency_set.py *)
From Verif Require Export LogicModel.

(** Conditions built by the library: literals and n-ary conjunctions / disjunctions
    (pddl_plus_parser [Precondition] with its operands). *)
Inductive form (A : Type) : Type :=
| f_lit (l : A)
| f_and (fs : list (form A))
| f_or (fs : list (form A)).
Arguments f_lit {A} l.
Arguments f_and {A} fs.
Arguments f_or {A} fs.

Inductive binop : Set := op_and | op_or.
Definition mk_form {A} (o : binop) (fs : list (form A)) : form A :=
  match o with op_and => f_and fs | op_or => f_or fs end.

(** [Precondition.add_condition] of pddl_plus_parser on the operands of a condition with operator [o].
    [flatten] says whether a nested condition with the same operator is dissolved into its parent; the
    results below hold for both behaviours. *)
Definition add_condition {A} (flatten : bool) (o : binop) (operands : list (form A)) (f : form A) : list (form A) :=
  match o, f with
  | op_and, f_and fs => if flatten then operands ++ fs else operands ++ [f]
  | op_or, f_or fs => if flatten then operands ++ fs else operands ++ [f]
  | _, _ => operands ++ [f]
  end.

(** The operands that are literals (dependency_set.py:90). *)
Fixpoint same_level {A} (operands : list (form A)) : list A :=
  match operands with
  | [] => []
  | f_lit l :: fs => l :: same_level fs
  | _ :: fs => same_level fs
  end.

(** Outcome of [_extract_negated_minimized_antecedents]: a boolean or clauses. *)
Inductive negated (A : Type) : Type := n_true | n_false | n_clauses (cs : list (list A)).
Arguments n_true {A}.
Arguments n_false {A}.
Arguments n_clauses {A} cs.

Section Dep.
Context {A : Type} `{LA : Lits A}.

(** dependency_set.py:21-35: [possible_antecedents] and [max_antecedents].  The signature and constants
    only serve [extract_predicate_data], which turns a text back into the same literal. *)
Record depset := mkDep { possible : list (A * list (list A)); max_antecedents : nat }.

Definition with_possible (D : depset) (p : list (A * list (list A))) : depset := mkDep p (max_antecedents D).

(** dependency_set.py:207-218 [initialize_dependencies]. *)
Definition initialize_dependencies (D : depset) (literals : list A) (antecedents : option (list A)) : depset :=
  let literals_str := to_set literals in
  let antecedents_literals := match antecedents with Some a => to_set a | None => literals_str end in
  with_possible D (fold_left (fun p l => dict_set p l (create_cnf_combination antecedents_literals (max_antecedents D) None))
                             literals_str (possible D)).

(** [l.remove(x)] on a list of sets: the first equal element. *)
Fixpoint remove_set (x : list A) (l : list (list A)) : list (list A) :=
  match l with
  | [] => []
  | y :: ys => if set_eqb x y then ys else y :: remove_set x ys
  end.

(** dependency_set.py:37-51 [_extract_superset_dependencies] on the antecedents of the literal. *)
Definition superset_dependencies (cands : list (list A)) (to_remove : list A) : list (list A) :=
  flat_map (fun conj => flat_map (fun d => if memb d conj then [conj] else []) to_remove) cands.

(** dependency_set.py:232-238 on the antecedents of the literal. *)
Definition remove_from (max_size : nat) (cands : list (list A)) (to_remove : list A) (include_supersets : bool)
  : list (list A) :=
  let conjunctions := if include_supersets then superset_dependencies cands to_remove
                      else create_cnf_combination to_remove max_size None in
  fold_left (fun cands d => if existsb (set_eqb d) cands then remove_set d cands else cands) conjunctions cands.

(** dependency_set.py:220-238 [remove_dependencies]. *)
Definition remove_dependencies (D : depset) (literal : A) (to_remove : list A) (include_supersets : bool) : depset :=
  match dict_get (possible D) literal with
  | None => D
  | Some cands => with_possible D (dict_set (possible D) literal
                                     (remove_from (max_antecedents D) cands to_remove include_supersets))
  end.

(** dependency_set.py:240-249 [remove_preconditions_literals]. *)
Definition remove_preconditions_literals (D : depset) (pre : list A) : depset :=
  let D1 := with_possible D (fold_left (fun p l => dict_pop p l) pre (possible D)) in
  fold_left (fun D l => remove_dependencies D l pre true) (dict_keys (possible D1)) D1.

(** dependency_set.py:251-261 [is_safe_literal] without preconditions. *)
Definition is_safe_literal (D : depset) (literal : A) : res bool :=
  let* cands := dict_lookup (possible D) literal in
  Ok (length cands <=? 1).
(** dependency_set.py:263-270 [is_safe_conditional_effect]. *)
Definition is_safe_conditional_effect (D : depset) (literal : A) : res bool :=
  let* cands := dict_lookup (possible D) literal in
  Ok (length cands =? 1).
(** dependency_set.py:272-278 [is_possible_result]. *)
Definition is_possible_result (D : depset) (literal : A) : bool := dict_mem literal (possible D).
(** dependency_set.py:280-294 [extract_safe_antecedents]. *)
Definition extract_safe_antecedents (D : depset) (literal : A) : res (list A) :=
  let* cands := dict_lookup (possible D) literal in
  match cands with
  | [] => Ok []
  | [c] => Ok c
  | _ => Err ValueError
  end.

(** dependency_set.py:64-80: the minimisation loop.  The code loops while the total size shrinks; [fuel]
    bounds the number of rounds (the size is a natural number, see [extract_negated]). *)
Definition total_size (cs : list (list A)) : nat := list_sum (map (@length A) cs).
Fixpoint minimize_loop (fuel : nat) (cs : list (list A)) (pre : list A) : res (negated A) :=
  match fuel with
  | 0 => Err RuntimeError
  | S fuel' =>
      match minimize_cnf_clauses cs pre with
      | Err ValueError => Ok n_false
      | Err e => Err e
      | Ok ([], _) => Ok n_true
      | Ok (cs', _) => if total_size cs' <? total_size cs then minimize_loop fuel' cs' pre else Ok (n_clauses cs')
      end
  end.
(** dependency_set.py:53-80 [_extract_negated_minimized_antecedents]. *)
Definition extract_negated (unsafe : list (list A)) (pre : list A) : res (negated A) :=
  let statement := map (fun conjunction => to_set (map flip conjunction)) unsafe in
  minimize_loop (S (total_size statement)) statement pre.

(** dependency_set.py:82-94 [_post_process_preconditions]: [true] when the condition can be dropped. *)
Definition post_process (f : form A) : res bool :=
  match f with
  | f_or operands => check_complementary_literals (to_set (same_level operands))
  | _ => Ok false
  end.

(** dependency_set.py:121-134: one disjunction. *)
Definition disjunction_form (flatten : bool) (d : list A) : form A :=
  f_or (fold_left (fun ops l => add_condition flatten op_or ops (f_lit l)) d []).
(** dependency_set.py:96-138 [_create_negated_antecedent_preconditions]. *)
Definition negated_form (flatten : bool) (cs : list (list A)) : form A :=
  match cs with
  | [[x]] => f_lit x
  | [d] => disjunction_form flatten d
  | _ => f_and (fold_left (fun ops d =>
                  add_condition flatten op_and ops
                    (match d with [x] => f_lit x | _ => disjunction_form flatten d end)) cs [])
  end.

Definition conjunction_form (flatten : bool) (c : list A) : form A :=
  f_and (fold_left (fun ops l => add_condition flatten op_and ops (f_lit l)) c []).

(** dependency_set.py:140-169 [_handle_contradicting_antecedents]. *)
Definition handle_contradicting (flatten is_effect : bool) (literal : A) (positive : list A) : res (form A) :=
  if is_effect then
    let* c := check_complementary_literals positive in
    if (c : bool) then Ok (f_lit literal)
    else Ok (f_or (add_condition flatten op_or (add_condition flatten op_or [] (f_lit literal))
                     (conjunction_form flatten positive)))
  else Ok (f_lit literal).

(** dependency_set.py:171-205 [_handle_effect_literal]. *)
Definition handle_effect_literal (flatten : bool) (literal : A) (neg : form A) (negated_result : A)
  (positive pre : list A) : res (option (form A)) :=
  let ops1 := add_condition flatten op_or [] (conjunction_form flatten positive) in
  let ops2 := add_condition flatten op_or ops1 neg in
  let ops3 := if memb negated_result pre then ops2 else add_condition flatten op_or ops2 (f_lit literal) in
  let* dropped := post_process (f_or ops3) in
  if (dropped : bool) then Ok None else Ok (Some (f_or ops3)).

(** dependency_set.py:296-346 [construct_restrictive_preconditions]. *)
Definition construct_restrictive_preconditions (flatten : bool) (D : depset) (pre : list A) (literal : A)
  (is_effect : bool) : res (option (form A)) :=
  if memb literal pre then Ok None
  else
    let* unsafe := dict_lookup (possible D) literal in
    let* neg := extract_negated unsafe pre in
    let positive := fold_left (fun p d => set_union p d) unsafe [] in
    match neg with
    | n_true => Ok None
    | n_false => let* f := handle_contradicting flatten is_effect literal positive in Ok (Some f)
    | n_clauses cs =>
        let nf := negated_form flatten cs in
        let negated_result := flip literal in
        if is_effect then handle_effect_literal flatten literal nf negated_result positive pre
        else if memb negated_result pre then Ok (Some nf)
        else
          let f := f_or (add_condition flatten op_or (add_condition flatten op_or [] (f_lit literal)) nf) in
          let* dropped := post_process f in
          if (dropped : bool) then Ok None else Ok (Some f)
    end.

End Dep.
Arguments depset A : clear implicits.
