(** * Finding and repairing the faulty action of a domain

    Model of fault_detection/fault_repair.py.  Action definitions and the effect of applying them are those of
    pddl_plus_parser and are variables here ([Operator(action, domain, objects).apply(state)] raises ValueError or another
    exception through [res]); so is the text that the external plan validator writes for a plan.  The parsed problem of a plan
    is its initial state, the parsed plan a list of calls.  Logging is left out. *)
From Coq Require Import Ascii Qabs.
From Verif Require Export AgentModel Pddl ValidateModel.
Open Scope string_scope. Open Scope list_scope. Open Scope nat_scope.

(** 51-64: the predicates of the valid state, in the order of the dictionary *)
Fixpoint compare_predicates (valid faulty : list (string * list string)) : bool :=
  match valid with
  | [] => true
  | (predicate_name, grounded_predicates) :: valid =>
      match dict_get faulty predicate_name with
      | None => false
      | Some others => if negb (set_eqb (to_set grounded_predicates) (to_set others)) then false else compare_predicates valid faulty
      end
  end.
(** 66-74: the fluents of the valid state *)
Fixpoint compare_fluents (valid faulty : list (string * Q)) : res bool :=
  match valid with
  | [] => Ok true
  | (fluent_name, value) :: valid =>
      let* other := dict_lookup faulty fluent_name in
      if Qle_bool 1 (Qabs (value - other)) then Ok false else compare_fluents valid faulty
  end.
(** 43-76 [_validate_applied_action] *)
Definition validate_applied_action (valid_next_state faulty_next_state : wstate) : res bool :=
  if negb (compare_predicates (ws_predicates valid_next_state) (ws_predicates faulty_next_state)) then Ok false
  else compare_fluents (ws_fluents valid_next_state) (ws_fluents faulty_next_state).

(** ** The action that the validator complains about: 18
    [Plan failed because of unsatisfied precondition in:\n\((\w+) [\w+ ]*\)].  Simplification: [\w] is the ASCII part. *)
Definition LOCATOR : string := ("Plan failed because of unsatisfied precondition in:" ++ String (ascii_of_nat 10) "(")%string.
Definition in_range (low high : nat) (c : ascii) : bool := (low <=? nat_of_ascii c) && (nat_of_ascii c <=? high).
Definition word_char (c : ascii) : bool := in_range 48 57 c || in_range 65 90 c || in_range 97 122 c || Ascii.eqb c "_".
Definition argument_char (c : ascii) : bool := word_char c || Ascii.eqb c "+" || Ascii.eqb c " ".
(** The longest start of the text made of such characters, and the rest. *)
Fixpoint span (p : ascii -> bool) (s : string) : string * string :=
  match s with
  | EmptyString => (EmptyString, EmptyString)
  | String c s' => if p c then let '(x, y) := span p s' in (String c x, y) else (EmptyString, s)
  end.
(** The text after the locator: the word, a space, the arguments, a closing bracket. *)
Definition match_call (s : string) : option string :=
  match span word_char s with
  | (EmptyString, _) => None
  | (name, String c rest) =>
      if Ascii.eqb c " " then
        match span argument_char rest with
        | (_, String c' _) => if Ascii.eqb c' ")" then Some name else None
        | _ => None
        end
      else None
  | _ => None
  end.
(** [search]: the first position at which the expression matches *)
Fixpoint locate (s : string) : option string :=
  let here := if String.prefix LOCATOR s then match_call (substring (String.length LOCATOR) (String.length s - String.length LOCATOR) s) else None in
  match here with
  | Some name => Some name
  | None => match s with EmptyString => None | String _ s' => locate s' end
  end.

(** 92-112 [_is_plan_applicable] on what the validator wrote.  [match.group] of no match raises AttributeError; when no marker
    is in the text the function returns None, which the caller cannot unpack. *)
Definition is_plan_applicable (validation_file_content : string) : res (bool * option string) :=
  if in_text VALID_PLAN validation_file_content || in_text GOAL_NOT_REACHED validation_file_content then Ok (true, None)
  else if in_text INAPPLICABLE_PLAN validation_file_content then
         match locate validation_file_content with
         | Some faulty_action_name => Ok (false, Some faulty_action_name)
         | None => Err AttributeError
         end
       else Err TypeError.

Section Fault.
Variables (act : Type) (apply : act -> list string -> wstate -> res wstate).
Definition actions := list (string * act).
(** [ObservedComponent] *)
Definition observed := (wstate * call * wstate)%type.

(** 78-90 [_generate_grounded_operators] *)
Definition generate_grounded_operators (model faulty : actions) (action_name : string) : res (act * act) :=
  let* valid_operator := dict_lookup model action_name in
  let* possibly_faulty_operator := dict_lookup faulty action_name in
  Ok (possibly_faulty_operator, valid_operator).

(** 137-153: the loop over the plan *)
Fixpoint observe_steps (model faulty : actions) (plan : list call) (valid_observation faulty_observation : list observed)
    (faulty_action_name : option string) (valid_previous_state faulty_previous_state : wstate)
    : res (list observed * list observed * option string) :=
  match plan with
  | [] => Ok (valid_observation, faulty_observation, faulty_action_name)
  | c :: plan =>
      let* (faulty_operator, valid_operator) := generate_grounded_operators model faulty (c_name c) in
      let* valid_next_state := apply valid_operator (c_params c) valid_previous_state in
      let* faulty_next_state := apply faulty_operator (c_params c) faulty_previous_state in
      let valid_observation := valid_observation ++ [(valid_previous_state, c, valid_next_state)] in
      let* is_state_identical := validate_applied_action valid_next_state faulty_next_state in
      if is_state_identical
      then observe_steps model faulty plan valid_observation faulty_observation faulty_action_name valid_next_state faulty_next_state
      else observe_steps model faulty plan valid_observation (faulty_observation ++ [(faulty_previous_state, c, faulty_next_state)])
             (match faulty_action_name with Some n => Some n | None => Some (c_name c) end) valid_next_state faulty_next_state
  end.

(** A directory of plans: the solution files in the order of [glob], the problem files, and what the validator writes about
    the plan of the problem. *)
Record plans_dir := mk_plans { pd_solutions : list (string * list call); pd_problems : list (string * wstate); pd_validation : string -> string }.

(** What is known about a plan: the two observations, if the model domain can execute it, and the name of a faulty action. *)
Definition observation := (option (list observed * list observed) * option string)%type.

(** 114-155 [_observe_single_plan] *)
Definition observe_single_plan (model faulty : actions) (d : plans_dir) (stem : string) (plan : list call) : res observation :=
  let* (plan_applicable, inapplicable_action) := is_plan_applicable (pd_validation d stem) in
  if negb (plan_applicable : bool) then Ok (None, inapplicable_action)
  else
    let* init := dict_lookup (pd_problems d) stem in
    let* (valid_observation, faulty_observation, faulty_action_name) := observe_steps model faulty plan [] [] None init init in
    Ok (Some (valid_observation, faulty_observation), faulty_action_name).

(** 157-175 [_filter_redundant_observations]; [None] equals no name *)
Definition relevant (faulty_action_name : option string) (o : list observed) : list observed :=
  filter (fun comp => match faulty_action_name with Some n => Prelude.eqb (c_name (snd (fst comp))) n | None => false end) o.

(** 195-218: one solution file *)
Record execution := mk_exec { x_valid : list (list observed); x_faulty : list (list observed); x_plans : list (string * string); x_name : option string }.
Definition execute_one (model faulty : actions) (d : plans_dir) (solving_report : list string) (x : execution) (sol : string * list call) : res execution :=
  let '(stem, plan) := sol in
  if negb (memb stem solving_report) then Ok x
  else
    let* (obs, faulty_action) := observe_single_plan model faulty d stem plan in
    let plans := match faulty_action with None => dict_set (x_plans x) stem "ok" | Some _ => x_plans x end in
    let '(plans, name) := match obs with None => (dict_set plans stem "not_applicable", faulty_action) | Some _ => (plans, x_name x) end in
    let '(plans, name) := match faulty_action with Some n => (dict_set plans stem "state_difference", Some n) | None => (plans, name) end in
    Ok (match obs with
        | Some (v, f) => mk_exec (x_valid x ++ [v]) (x_faulty x ++ [f]) plans name
        | None => mk_exec (x_valid x) (x_faulty x) plans name
        end).

(** 177-226 [execute_plans_on_agent] *)
Definition execute_plans_on_agent (model faulty : actions) (d : plans_dir) (solving_report : list string) (is_repaired_model : bool)
    : res (list (list observed) * list (list observed) * list (string * string)) :=
  let* x := fold_res (execute_one model faulty d solving_report) (pd_solutions d) (mk_exec [] [] [] None) in
  if match x_name x with None => true | Some _ => false end && negb is_repaired_model then Err ValueError
  else Ok (map (relevant (x_name x)) (x_valid x), map (relevant (x_name x)) (x_faulty x), x_plans x).

(** 228-245 [repair_model]; [learn] is Numeric SAM started with the model domain and the relevant fluents: the learned actions
    and the report *)
Variables (report : Type) (learn : actions -> list (list observed) -> res (actions * report)).
Definition repair_model (model faulty_domain : actions) (valid_observations : list (list observed)) (faulty_action_name : string) : res (actions * report) :=
  let* (learned_model, rep) := learn model valid_observations in
  let* learned := dict_lookup learned_model faulty_action_name in
  Ok (dict_set faulty_domain faulty_action_name learned, rep).
End Fault.
