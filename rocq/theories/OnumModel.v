(** * Semi-online learning of numeric actions

    Model of sam_learning/core/online_learning/online_numeric_models_learner.py, of online_utilities.py 13-65, of the numeric part of
    informative_states_learner.py and of learners/semi_online_learning_algorithm.py 110-181, 204-246, 312-331, 420-449 with the numeric learner
    of the code (TrainModel.v has the same loop with any numeric learner).  Numeric libraries are parameters; logging and the episode recorder's
    files are left out.  A learner after an exception is not modelled. *)
From Verif Require Export NsamModel SvmModel IncModel TrainModel.
Open Scope string_scope. Open Scope list_scope. Open Scope nat_scope.

(** ** online_numeric_models_learner.py *)
Record onum := mk_onum
  { om_monomials : list (list text);          (* _monomials *)
    om_hull : inc;                            (* _convex_hull_learner *)
    om_svm : svm_data;                        (* _svm_learner *)
    om_reg : RegModel.learner }.              (* _linear_regression_learner *)

Section Online.
(** The order of strings; ten to the power of the digits; the numeric libraries (IncModel.v, RegModel.v, SvmModel.v). *)
Variable le : text -> text -> bool.
Variables unit fine : positive.
Variable fit : list (list Q) -> list Q -> list Q * Q * bool.
Variable hull : list (list Q) -> option (list (list Q) * list Q).
Variable schmidt : list (list Q) -> list (list Q) -> list (list Q).
Variable rank : list (list Q) -> nat.
Variable svm : list (list Q * bool) -> list Q * Q.
Variable limit : nat.

(** 37-66 *)
Definition init_onum (functions : list term) (degree : nat) : onum :=
  let names := map term_text functions in
  let monomials := create_monomials le names degree in
  let cols := map create_polynomial_string monomials in
  mk_onum monomials (new_learner cols None) (svm_init monomials) (mk_learner names (mk_frame cols []) (mk_frame names [])).
(** 84-98 *)
Definition add_positive_pre_state (o : onum) (state_fluents : fluents) : res onum :=
  let sample := create_grounded_monomials (om_monomials o) (by_text state_fluents) in
  let* h := IncModel.add_new_point unit fit hull schmidt (om_hull o) sample in
  Ok (mk_onum (om_monomials o) h (svm_add_point (om_monomials o) (om_svm o) (by_text state_fluents) true) (add_new_observation (om_reg o) sample true)).
(** 100-109 *)
Definition add_positive_post_state (o : onum) (state_fluents : fluents) : onum :=
  mk_onum (om_monomials o) (om_hull o) (om_svm o) (add_new_observation (om_reg o) (by_text state_fluents) false).
(** 111-121 *)
Definition add_negative_pre_state (o : onum) (state_fluents : fluents) : onum :=
  mk_onum (om_monomials o) (om_hull o) (svm_add_point (om_monomials o) (om_svm o) (by_text state_fluents) false) (om_reg o).
(** 123-147; no state after a failure *)
Definition numeric_transition (o : onum) (pre : fluents) (post : option fluents) : res onum :=
  match post with
  | Some post => let* o' := add_positive_pre_state o pre in Ok (add_positive_post_state o' post)
  | None => Ok (add_negative_pre_state o pre)
  end.
(** 149-158.  Without a list of relevant fluents the regression learner keeps its tables. *)
Definition numeric_safe_model (o : onum) : res (option (list text) * list text) :=
  let* conditions := construct_safe unit (om_hull o) in
  let* (_, effects, _, _) := construct_assignment_equations unit fine fit rank (om_reg o) false None in
  Ok (conditions, effects).
(** 160-169 *)
Definition numeric_optimistic_model (o : onum) : res (list text * list text) :=
  let* conditions := construct_linear_inequalities unit svm limit (om_svm o) in
  let* (_, effects, _, _) := construct_assignment_equations unit fine fit rank (om_reg o) true None in
  Ok (conditions, effects).
(** 171-178 *)
Definition numeric_in_safe_model (o : onum) (state : fluents) : res bool :=
  is_point_in_convex_hull unit schmidt (om_hull o) (create_grounded_monomials (om_monomials o) (by_text state)).
(** 180-185 *)
Definition copy_convex_hull_learner (o : onum) : res inc :=
  copy hull (map create_polynomial_string (om_monomials o)) (om_hull o).
(** Operations of a user of one learner. *)
Definition onum_run (functions : list term) (degree : nat) (transitions : list (fluents * option fluents)) : res onum :=
  fold_res (fun o t => numeric_transition o (fst t) (snd t)) transitions (init_onum functions degree).

(** ** informative_states_learner.py, numeric part *)
(** 136-153 [add_new_numeric_failure]; the table starts with the columns of the monomials and no row *)
Definition add_numeric_failure (o : onum) (failures : frame) (state : fluents) : frame :=
  let sample := create_grounded_monomials (om_monomials o) (by_text state) in
  let row := match sample with [] => mk_frame [] [] | _ => mk_frame (dict_keys sample) [dict_vals sample] end in
  if RegModel.is_empty failures then row
  else let d := concat_sample failures row in mk_frame (f_cols d) (dedup (f_rows d)).
Fixpoint any_res {A} (f : A -> res bool) (l : list A) : res bool :=
  match l with [] => Ok false | x :: l => let* b := f x in if (b : bool) then Ok true else any_res f l end.
(** 103-134 [_is_state_not_applicable_in_safe_numeric_model] *)
Definition numeric_not_applicable (o : onum) (failures : frame) (state : fluents) : res bool :=
  let* h := copy_convex_hull_learner o in
  if length (f_rows (i_data h)) <=? 1 then Ok false
  else
    let* h' := IncModel.add_new_point unit fit hull schmidt h (create_grounded_monomials (om_monomials o) (by_text state)) in
    any_res (fun row => is_point_in_convex_hull unit schmidt h' (combine (f_cols failures) row)) (f_rows failures).
(** 183-192 [is_applicable], 194-216 [is_sample_informative] *)
Definition sample_applicable (d : odl) (o : onum) (s : list literal) (x : fluents) : res bool :=
  if is_state_in_safe_model d s then numeric_in_safe_model o x else Ok false.
Definition sample_informative (d : odl) (o : onum) (failures : frame) (s : list literal) (x : fluents) : res bool :=
  let* applicable := sample_applicable d o s x in
  if (applicable : bool) then Ok false
  else if is_state_not_applicable d s then Ok false
  else let* bad := numeric_not_applicable o failures x in Ok (negb bad).

(** ** semi_online_learning_algorithm.py *)
Definition numeric_learners := list (string * online onum fluents).
(** 110-147 [_handle_execution_failure] *)
Definition handle_numeric_failure (st : online onum fluents) (s : list literal) (x : fluents) : res (online onum fluents) :=
  if is_state_in_safe_model (on_disc st) s then
    let* o := numeric_transition (on_num st) x None in
    Ok (mkOnline (on_disc st) o (on_undecided st) (on_reasons st ++ [r_numeric]))
  else
    let* inside := numeric_in_safe_model (on_num st) x in
    if (inside : bool) then
      Ok (mkOnline (OnlineModel.add_transition_data (on_disc st) s [] false) (on_num st) (on_undecided st) (on_reasons st ++ [r_discrete]))
    else Ok (mkOnline (on_disc st) (on_num st) (on_undecided st ++ [(s, x)]) (on_reasons st ++ [r_unknown])).
(** 149-167 [_eliminate_undecided_observations] *)
Definition eliminate_numeric_undecided (st : online onum fluents) : res (online onum fluents) :=
  fold_res (fun st sx => handle_numeric_failure st (fst sx) (snd sx)) (rev (on_undecided st))
           (mkOnline (on_disc st) (on_num st) [] (on_reasons st)).
(** 231-246, after the states are matched *)
Definition add_numeric_execution (st : online onum fluents) (s : list literal) (x : fluents) (s' : list literal) (x' : fluents) (ok : bool)
  : res (online onum fluents) :=
  if ok then
    let* o := numeric_transition (on_num st) x (Some x') in
    Ok (mkOnline (OnlineModel.add_transition_data (on_disc st) s s' true) o (on_undecided st) (on_reasons st))
  else handle_numeric_failure st s x.
(** 312-331 [initialize_learning_algorithms] *)
Definition initialize_numeric (dom : domain) (degree : nat) : numeric_learners :=
  dict_of (map (fun na => (fst na, mkOnline (odl_init (lifted_vocabulary dom (a_sig (snd na)) None))
                                            (init_onum (lifted_functions_vocabulary dom (a_sig (snd na)) None) degree) [] []))
               (d_actions dom)).
(** 204-230 [_add_transition_data] *)
Definition numeric_train_transition (dom : domain) (L : numeric_learners) (cp : ncomponent) : res numeric_learners :=
  let c := cp_call (nc_comp cp) in
  let* a := dict_lookup (d_actions dom) (c_name c) in
  let* (prev, next) := triplet_snapshot dom (cp_prev (nc_comp cp)) (cp_next (nc_comp cp)) c in
  let objs := parameterized_objects dom a c in
  let* s := bound_predicates dom c prev in
  let* x := match_state_functions dom c (numeric_state_snapshot (nc_prev cp) objs) in
  let* s' := bound_predicates dom c next in
  let* x' := match_state_functions dom c (numeric_state_snapshot (nc_next cp) objs) in
  let* st := dict_lookup L (c_name c) in
  let* st' := add_numeric_execution st s x s' x' (cp_ok (nc_comp cp)) in
  Ok (dict_set L (c_name c) st').
(** 420-449 [train_models_using_trace] *)
Definition numeric_train_component (dom : domain) (L : numeric_learners) (cp : ncomponent) : res numeric_learners :=
  if contains_duplicates (c_params (cp_call (nc_comp cp))) then Ok L else numeric_train_transition dom L cp.
Definition numeric_review (L : numeric_learners) (n : string) : res numeric_learners :=
  let* st := dict_lookup L n in let* st' := eliminate_numeric_undecided st in Ok (dict_set L n st').
Definition numeric_train_trace (dom : domain) (L : numeric_learners) (trace : list ncomponent) : res numeric_learners :=
  let* L1 := fold_res (numeric_train_component dom) trace L in
  fold_res numeric_review (dict_keys (d_actions dom)) L1.
Definition numeric_train (dom : domain) (degree : nat) (traces : list (list ncomponent)) : res numeric_learners :=
  fold_res (numeric_train_trace dom) traces (initialize_numeric dom degree).

(** ** online_utilities.py *)
(** The precondition (discrete and numeric operands of the conjunction) and the effects of an exported action. *)
Record exported := mk_exported
  { ex_pre : list (form literal); ex_conditions : list text; ex_eff : list literal; ex_effects : list text }.
Definition operands {A} (f : form A) : list (form A) := match f with f_lit _ => [] | f_and fs | f_or fs => fs end.
Definition copy_operands {A} (flatten : bool) (f : form A) : list (form A) :=
  fold_left (add_condition flatten op_and) (operands f) [].
(** 13-37; the operands of a missing numeric condition raise AttributeError *)
Definition export_safe (flatten : bool) (st : online onum fluents) : res exported :=
  let (pre, eff) := OnlineModel.get_safe_model flatten (on_disc st) in
  let* (conditions, effects) := numeric_safe_model (on_num st) in
  match conditions with
  | None => Err AttributeError
  | Some conditions => Ok (mk_exported (copy_operands flatten pre) conditions eff effects)
  end.
(** 40-65 *)
Definition export_optimistic (flatten : bool) (st : online onum fluents) : res exported :=
  let (pre, eff) := OnlineModel.get_optimistic_model flatten (on_disc st) in
  let* (conditions, effects) := numeric_optimistic_model (on_num st) in
  Ok (mk_exported (copy_operands flatten pre) conditions eff effects).
(** One action after the other; an exception stops the whole construction. *)
Definition construct_action_model (export : online onum fluents -> res exported) (dom : domain) (L : numeric_learners)
  : res (list (string * exported)) :=
  map_res (fun n => let* st := dict_lookup L n in let* e := export st in Ok (n, e)) (dict_keys (d_actions dom)).
Definition construct_safe_action_model (flatten : bool) := construct_action_model (export_safe flatten).
Definition construct_optimistic_action_model (flatten : bool) := construct_action_model (export_optimistic flatten).
End Online.
