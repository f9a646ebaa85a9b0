(** * Training the per-action online learners from traces
      (learners/semi_online_learning_algorithm.py)

    Values of numeric functions are opaque and already bound to the parameters ([NumericFunctionMatcher] is not modelled);
    the numeric learner is the one of OnlineModel. *)
From Verif Require Export MatcherModel OnlineModel.

Section Train.
Context {N F : Type}.
Variables (n_safe : N -> F -> bool) (n_add : N -> F -> option F -> N) (n_init : string -> N).

(** An observed component with the parameter-bound function values before and after. *)
Record tcomp := mkT { t_cp : component; t_before : F; t_after : F }.

Definition learners := list (string * online N F).

(** semi_online_learning_algorithm.py:318-335 [initialize_learning_algorithms] *)
Definition initialize_learners (dom : domain) : learners :=
  dict_of (map (fun na => (fst na, mkOnline (odl_init (lifted_vocabulary dom (a_sig (snd na)) None)) (n_init (fst na)) [] []))
               (d_actions dom)).

(** semi_online_learning_algorithm.py:172-184 [_extract_parameter_bound_state_data] (predicates) *)
Definition bound_predicates (dom : domain) (c : call) (lits : list literal) : res (list literal) :=
  let* ms := possible_literal_matches dom c lits None in Ok (to_set ms).

(** semi_online_learning_algorithm.py:208-252 [_add_transition_data] *)
Definition train_transition (dom : domain) (L : learners) (t : tcomp) : res learners :=
  let c := cp_call (t_cp t) in
  let* snap := triplet_snapshot dom (cp_prev (t_cp t)) (cp_next (t_cp t)) c in
  let* prev := bound_predicates dom c (fst snap) in
  let* next := bound_predicates dom c (snd snap) in
  let* st := dict_lookup L (c_name c) in
  Ok (dict_set L (c_name c) (online_add n_safe n_add st prev (t_before t) next (t_after t) (cp_ok (t_cp t)))).

(** semi_online_learning_algorithm.py:427-456 [train_models_using_trace] *)
Definition train_component (dom : domain) (L : learners) (t : tcomp) : res learners :=
  if contains_duplicates (c_params (cp_call (t_cp t))) then Ok L else train_transition dom L t.
Definition review_action (L : learners) (n : string) : res learners :=
  let* st := dict_lookup L n in Ok (dict_set L n (eliminate_undecided n_safe n_add st)).
Definition train_trace (dom : domain) (L : learners) (trace : list tcomp) : res learners :=
  let* L1 := fold_res (train_component dom) trace L in
  fold_res review_action (dict_keys (d_actions dom)) L1.
Definition train (dom : domain) (traces : list (list tcomp)) : res learners :=
  fold_res (train_trace dom) traces (initialize_learners dom).
End Train.
Arguments tcomp F : clear implicits.
Arguments learners N F : clear implicits.
