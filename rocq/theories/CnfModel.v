(** * Model of sam_learning/core/propositional_operations/literals_cnf.py *)
From Verif Require Export Pddl.

(** A pair (action name, untyped representation of a lifted literal).  The representation of a lifted
    literal is a string that determines name, arguments and polarity; the model uses the literal itself. *)
Definition cpair := (string * literal)%type.

(** literals_cnf.py:65-74 [LiteralCNF]: [possible_lifted_effects] and [not_effects]. *)
Record cnf := mkCnf
  { n_clauses : list (list cpair);
    n_not : list (string * list literal) }.

(** literals_cnf.py:71-74 [__init__]. *)
Definition init_cnf (action_names : list string) : cnf :=
  mkCnf [] (dict_of (map (fun n => (n, [])) action_names)).

(** literals_cnf.py:84-92: what [add_not_effect] makes of one clause.  A clause that the removal empties is dropped. *)
Definition strike (p : cpair) (clause : list cpair) : list (list cpair) :=
  if memb p clause
  then match list_remove p clause with [] => [] | clause' => [clause'] end
  else [clause].

(** literals_cnf.py:76-92 [add_not_effect]. *)
Definition add_not_effect (k : cnf) (action_name : string) (predicate : literal) : res cnf :=
  let* s := dict_lookup (n_not k) action_name in
  Ok (mkCnf (flat_map (strike (action_name, predicate)) (n_clauses k))
            (dict_set (n_not k) action_name (set_add predicate s))).

(** literals_cnf.py:99-104: drop the pairs already known not to be effects. *)
Definition filter_not_effects (k : cnf) (clause : list cpair) : res (list cpair) :=
  fold_res (fun acc (al : cpair) =>
              let* s := dict_lookup (n_not k) (fst al) in
              Ok (if memb (snd al) s then acc else acc ++ [al])) clause [].

(** literals_cnf.py:94-109 [add_possible_effect]. *)
Definition add_possible_effect (k : cnf) (possible_joint_effect : list cpair) : res cnf :=
  let* filtered := filter_not_effects k possible_joint_effect in
  if memb filtered (n_clauses k) then Ok k
  else Ok (mkCnf (n_clauses k ++ [filtered]) (n_not k)).

Definition mentions (action_name : string) (clause : list cpair) : bool := memb action_name (map fst clause).

(** literals_cnf.py:111-138 [is_action_safe]. *)
Definition is_action_safe (k : cnf) (action_name : string) (action_preconditions : list literal) : bool :=
  let mine := filter (mentions action_name) (n_clauses k) in
  let unit_clauses := flat_map (fun cl => match cl with [p] => [p] | _ => [] end) mine in
  let non_unit_clauses := filter (fun cl => negb (Nat.eqb (length cl) 1)) mine in
  forallb (fun nunc =>
             existsb (fun uc => memb uc nunc) unit_clauses
             || forallb (fun al : cpair => negb (eqb (fst al) action_name && negb (memb (snd al) action_preconditions))) nunc)
          non_unit_clauses.

(** literals_cnf.py:140-153 [is_action_acting_in_cnf]. *)
Definition is_action_acting (k : cnf) (action_name : string) : res bool :=
  if existsb (mentions action_name) (n_clauses k) then Ok true
  else let* s := dict_lookup (n_not k) action_name in
       Ok (negb (Nat.eqb (length s) 0)).

(** literals_cnf.py:155-169 [extract_action_effects]. *)
Definition extract_action_effects (k : cnf) (action_name : string) (action_preconditions : list literal) : list literal :=
  flat_map (fun cl => match cl with
                      | [(a, e)] => if eqb a action_name && negb (memb e action_preconditions) then [e] else []
                      | _ => []
                      end) (n_clauses k).

(** ** Histories of one CNF: any interleaving of the two mutators. *)
Inductive cnf_op : Type :=
| op_not_effect (action_name : string) (predicate : literal)
| op_possible_effect (clause : list cpair).
Definition cnf_step (k : cnf) (o : cnf_op) : res cnf :=
  match o with
  | op_not_effect a l => add_not_effect k a l
  | op_possible_effect cl => add_possible_effect k cl
  end.
Definition cnf_run (action_names : list string) (ops : list cnf_op) : res cnf :=
  fold_res cnf_step ops (init_cnf action_names).
