(** * sam_learning/core/online_learning/online_discrete_models_learner.py, and the use made of it by
      informative_states_learner.py and learners/semi_online_learning_algorithm.py

    Sets of predicates are duplicate-free lists; [Precondition.add_condition] is that of DepModel. *)
From Verif Require Export Pddl DepModel.

Record odl := mkOdl
  { o_super : list literal;            (* predicates_superset *)
    o_nopre : list literal;            (* cannot_be_preconditions *)
    o_must : list (list literal);      (* must_be_preconditions *)
    o_noeff : list literal;            (* cannot_be_effects *)
    o_eff : list literal }.            (* must_be_effects *)

(** online_discrete_models_learner.py:26-33 *)
Definition odl_init (pb : list literal) : odl := mkOdl (to_set pb) [] [] [] [].

(** online_discrete_models_learner.py:35-49 *)
Definition add_positive_pre (st : odl) (pre : list literal) : odl :=
  let not_pre := set_diff (o_super st) pre in
  let nopre := match o_nopre st with [] => not_pre | _ => set_union (o_nopre st) not_pre end in
  mkOdl (o_super st) nopre (map (fun c => set_diff c nopre) (o_must st)) (o_noeff st) (o_eff st).

(** online_discrete_models_learner.py:51-61 *)
Definition add_positive_post (st : odl) (pre post : list literal) : odl :=
  let noeff := set_union (o_noeff st) (map (copy_lit true) post) in
  let eff := set_union (o_eff st) (map (copy_lit false) (set_diff post pre)) in
  mkOdl (o_super st) (o_nopre st) (o_must st) noeff (set_diff eff noeff).

Definition is_unit {A} (c : list A) : bool := length c =? 1.
(** online_discrete_models_learner.py:63-80 *)
Definition unit_propagation (clauses : list (list literal)) : list (list literal) :=
  let units := filter is_unit clauses in
  let elements := concat units in
  units ++ filter (fun c => negb (is_unit c) && (length (set_inter c elements) =? 0)) clauses.

(** online_discrete_models_learner.py:82-91 *)
Definition add_negative_pre (st : odl) (pre : list literal) : odl :=
  let missing := set_diff (o_super st) pre in
  if existsb (set_eqb missing) (o_must st) then st
  else mkOdl (o_super st) (o_nopre st)
             (unit_propagation (o_must st ++ [set_diff missing (o_nopre st)])) (o_noeff st) (o_eff st).

(** online_discrete_models_learner.py:93-112 *)
Definition add_transition_data (st : odl) (pre post : list literal) (ok : bool) : odl :=
  if ok then add_positive_post (add_positive_pre st pre) pre post else add_negative_pre st pre.

(** online_discrete_models_learner.py:114-124; [flatten] as in DepModel. *)
Definition get_safe_model (flatten : bool) (st : odl) : form literal * list literal :=
  (conjunction_form flatten (set_diff (o_super st) (o_nopre st)), o_eff st).

(** online_discrete_models_learner.py:126-155 *)
Definition optimistic_operands (flatten : bool) (clauses : list (list literal)) : list (form literal) :=
  fold_left (fun ops c =>
      match c with
      | [] => ops
      | [x] => add_condition flatten op_and ops (f_lit x)
      | _ => add_condition flatten op_and ops (disjunction_form flatten c)
      end) clauses [].
Definition get_optimistic_model (flatten : bool) (st : odl) : form literal * list literal :=
  (f_and (optimistic_operands flatten (o_must st)),
   match o_noeff st with
   | [] => filter l_pos (o_super st)
   | _ => set_diff (o_super st) (o_noeff st)
   end).

(** online_discrete_models_learner.py:157-164 *)
Definition is_state_in_safe_model (st : odl) (state : list literal) : bool :=
  subsetb (set_diff (o_super st) (o_nopre st)) state.

(** online_discrete_models_learner.py:166-179 *)
Definition is_state_not_applicable (st : odl) (state : list literal) : bool :=
  negb (length (o_must st) =? 0) && existsb (fun c => length (set_inter state c) =? 0) (o_must st).

(** ** Combination with a numeric learner

    Any numeric learner (OnumModel.v has the one of the code): [n_safe] stands for
    [OnlineNumericModelLearner.is_state_in_safe_model], [n_bad] for
    [InformativeStatesLearner._is_state_not_applicable_in_safe_numeric_model] and [n_add] for
    [OnlineNumericModelLearner.add_transition_data] (no post-state on a failure). *)
Section Numeric.
Context {N F : Type}.
Variables (n_safe : N -> F -> bool) (n_bad : N -> F -> bool) (n_add : N -> F -> option F -> N).

(** informative_states_learner.py, end of file: [is_applicable] *)
Definition is_applicable (st : odl) (n : N) (s : list literal) (x : F) : bool :=
  is_state_in_safe_model st s && n_safe n x.
(** informative_states_learner.py, end of file: [is_sample_informative] *)
Definition is_sample_informative (st : odl) (n : N) (s : list literal) (x : F) : bool :=
  if is_state_in_safe_model st s && n_safe n x then false
  else negb (is_state_not_applicable st s || n_bad n x).

Inductive reason := r_discrete | r_numeric | r_unknown.
(** What semi_online_learning_algorithm.py keeps for one action: the two learners, the undecided failures and the
    reasons recorded so far. *)
Record online := mkOnline
  { on_disc : odl; on_num : N; on_undecided : list (list literal * F); on_reasons : list reason }.

(** semi_online_learning_algorithm.py:111-149 [_handle_execution_failure] *)
Definition handle_failure (st : online) (s : list literal) (x : F) : online :=
  if is_state_in_safe_model (on_disc st) s then
    mkOnline (on_disc st) (n_add (on_num st) x None) (on_undecided st) (on_reasons st ++ [r_numeric])
  else if n_safe (on_num st) x then
    mkOnline (add_transition_data (on_disc st) s [] false) (on_num st) (on_undecided st) (on_reasons st ++ [r_discrete])
  else
    mkOnline (on_disc st) (on_num st) (on_undecided st ++ [(s, x)]) (on_reasons st ++ [r_unknown]).

(** semi_online_learning_algorithm.py:151-170 [_eliminate_undecided_observations]: the list is emptied and its
    elements are handled again, last first. *)
Definition eliminate_undecided (st : online) : online :=
  fold_left (fun st sx => handle_failure st (fst sx) (snd sx)) (rev (on_undecided st))
            (mkOnline (on_disc st) (on_num st) [] (on_reasons st)).

(** semi_online_learning_algorithm.py:208-252 [_add_transition_data], after matching the states. *)
Definition online_add (st : online) (s : list literal) (x : F) (s' : list literal) (x' : F) (ok : bool) : online :=
  if ok then mkOnline (add_transition_data (on_disc st) s s' true) (n_add (on_num st) x (Some x'))
                      (on_undecided st) (on_reasons st)
  else handle_failure st s x.
End Numeric.
Arguments online N F : clear implicits.
