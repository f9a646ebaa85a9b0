(** * Online exploration and solving

    Model of sam_learning/learners/noam_algorithm.py and of the methods it inherits from
    learners/semi_online_learning_algorithm.py (the learners themselves: OnumModel.v; the recorder: EpisodeModel.v).
    Left out: logging, times, the table of combined samples (noam_algorithm.py:164-168; it is never read), and the counters of
    failure reasons of the recorder (each learner keeps its own list).  Random numbers, solvers and the environment are
    parameters; a random source is asked with the number of the question.  A learner after an exception is not modelled. *)
From Verif Require Export OnumModel EpisodeModel.
Open Scope string_scope. Open Scope list_scope. Open Scope nat_scope.

(** A state of the environment: the facts and the values of the functions. *)
Definition world := (Pddl.state * fluents)%type.
Definition transition (w : world) (c : call) (w' : world) (ok : bool) : ncomponent :=
  mk_ncomponent (mkComp (fst w) c (fst w') ok) (snd w) (snd w').

(** The agent of one problem: names of the actions, applying a ground action, ground actions (ipc_agent.py:49-67) and the
    test of the goal (103-124; AgentModel.v). *)
Record environment := mk_env
  { en_names : list string; en_apply : call -> world -> res world; en_actions : list call; en_goal : world -> res bool }.
(** ipc_agent.py:69-93 *)
Definition observe (E : environment) (w : world) (c : call) : res (world * bool) :=
  if negb (memb (c_name c) (en_names E)) then Err KeyError
  else match en_apply E c w with
       | Ok w' => Ok (w', true)
       | Err ValueError => Ok (w, false)
       | Err e => Err e
       end.
(** ipc_agent.py:126-150 *)
Fixpoint execute_plan (E : environment) (w : world) (plan : list call) : res (list ncomponent * world * bool) :=
  match plan with
  | [] => Ok ([], w, true)
  | c :: plan =>
      let* (w', ok) := observe E w c in
      if (ok : bool) then let* (trace, last, applicable) := execute_plan E w' plan in Ok (transition w c w' ok :: trace, last, applicable)
      else Ok ([transition w c w' ok], w', false)
  end.

(** solvers/abstract_solver.py:9-16 *)
Inductive status := st_ok | st_no_solution | st_timeout | st_not_applicable | st_goal_not_achieved | st_solver_error | st_irrelevant.
Definition status_name (s : status) : string :=
  match s with
  | st_ok => "ok" | st_no_solution => "no_solution" | st_timeout => "timeout" | st_not_applicable => "not_applicable"
  | st_goal_not_achieved => "goal_not_achieved" | st_solver_error => "solver_error" | st_irrelevant => "irrelevant"
  end.

(** The classes of noam_algorithm.py. *)
Inductive explorer := noam_learner | goal_oriented | informative_explorer | optimistic_explorer | informative_svm.
(** numpy's choice without replacement with probabilities, [random.shuffle], and the index drawn by [random.choice]. *)
Record random := mk_random
  { rd_choice : nat -> list call -> list Q -> nat -> res (list call); rd_shuffle : nat -> list call -> list call; rd_pick : nat -> nat -> nat }.
(** A problem: its name, its initial state and its agent. *)
Record problem := mk_problem { pr_name : string; pr_init : world; pr_env : environment }.

(** noam_algorithm.py:62-69 *)
Record noam := mk_noam
  { nm_learners : numeric_learners;                       (* _discrete_models_learners, _numeric_models_learners, undecided_failure_observations *)
    nm_failures : list (string * frame);                  (* _informative_states_learner: numeric_failure_data *)
    nm_rec : recorder world call;                         (* episode_recorder *)
    nm_fails : nat;                                       (* episode_step_failure_counter *)
    nm_last : list (string * nat);                        (* _action_last_executed_step *)
    nm_global : nat;                                      (* _global_step_counter *)
    nm_draws : nat }.
Definition with_learners (M : noam) L F := mk_noam L F (nm_rec M) (nm_fails M) (nm_last M) (nm_global M) (nm_draws M).
Definition with_rec (M : noam) r := mk_noam (nm_learners M) (nm_failures M) r (nm_fails M) (nm_last M) (nm_global M) (nm_draws M).
Definition with_fails (M : noam) k := mk_noam (nm_learners M) (nm_failures M) (nm_rec M) k (nm_last M) (nm_global M) (nm_draws M).
Definition drawn (M : noam) := mk_noam (nm_learners M) (nm_failures M) (nm_rec M) (nm_fails M) (nm_last M) (nm_global M) (nm_draws M + 1).
(** noam_algorithm.py:272-273, 277-278, 284-285 *)
Definition mark (M : noam) (c : call) (step : nat) :=
  mk_noam (nm_learners M) (nm_failures M) (nm_rec M) (nm_fails M) (dict_set (nm_last M) (c_name c) step) (nm_global M + 1) (nm_draws M).

Section Noam.
Variable le : text -> text -> bool.
Variables unit fine : positive.
Variable fit : list (list Q) -> list Q -> list Q * Q * bool.
Variable hull : list (list Q) -> option (list (list Q) * list Q).
Variable schmidt : list (list Q) -> list (list Q) -> list (list Q).
Variable rank : list (list Q) -> nat.
Variable svm : list (list Q * bool) -> list Q * Q.
Variable limit : nat.
Variable flatten : bool.
Variable dom : domain.
Variable rd : random.
(** NUM_STEPS_FOR_STARVATION (1000) and MAX_FAILED_STEPS_PER_EPISODE (50000), and the number of steps in a file of the recorder. *)
Variables starvation max_failed max_file : nat.

(** ** Learning *)
(** noam_algorithm.py:51-69, 219-235 *)
Definition init_noam (degree : nat) : noam :=
  let L := initialize_numeric le dom degree in
  mk_noam L (map (fun nl => (fst nl, mk_frame (map create_polynomial_string (om_monomials (on_num (snd nl)))) [])) L)
          (new_recorder world call (dict_keys (d_actions dom))) 0 [] 0 0.
(** noam_algorithm.py:120-142 [_handle_execution_failure]: the discrete learner is asked after the inherited method ran. *)
Definition noam_failure (L : numeric_learners) (F : list (string * frame)) (n : string) (s : list literal) (x : fluents)
  : res (numeric_learners * list (string * frame)) :=
  let* st := dict_lookup L n in
  let* st' := handle_numeric_failure unit fit hull schmidt st s x in
  let L' := dict_set L n st' in
  if is_state_in_safe_model (on_disc st') s then
    let* f := dict_lookup F n in Ok (L', dict_set F n (add_numeric_failure (on_num st') f x))
  else Ok (L', F).
(** semi_online_learning_algorithm.py:204-246 and noam_algorithm.py:144-173 [_add_transition_data] *)
Definition noam_transition (L : numeric_learners) (F : list (string * frame)) (cp : ncomponent)
  : res (numeric_learners * list (string * frame)) :=
  let c := cp_call (nc_comp cp) in
  let* a := dict_lookup (d_actions dom) (c_name c) in
  let* (prev, next) := triplet_snapshot dom (cp_prev (nc_comp cp)) (cp_next (nc_comp cp)) c in
  let objs := parameterized_objects dom a c in
  let* s := bound_predicates dom c prev in
  let* x := match_state_functions dom c (numeric_state_snapshot (nc_prev cp) objs) in
  let* s' := bound_predicates dom c next in
  let* x' := match_state_functions dom c (numeric_state_snapshot (nc_next cp) objs) in
  if cp_ok (nc_comp cp) then
    let* st := dict_lookup L (c_name c) in
    let* o := numeric_transition unit fit hull schmidt (on_num st) x (Some x') in
    Ok (dict_set L (c_name c) (mkOnline (OnlineModel.add_transition_data (on_disc st) s s' true) o (on_undecided st) (on_reasons st)), F)
  else noam_failure L F (c_name c) s x.
(** semi_online_learning_algorithm.py:149-167 [_eliminate_undecided_observations] *)
Definition noam_review (LF : numeric_learners * list (string * frame)) (n : string) : res (numeric_learners * list (string * frame)) :=
  let (L, F) := LF in
  let* st := dict_lookup L n in
  fold_res (fun LF sx => noam_failure (fst LF) (snd LF) n (fst sx) (snd sx)) (rev (on_undecided st))
           (dict_set L n (mkOnline (on_disc st) (on_num st) [] (on_reasons st)), F).
Definition noam_reviews (M : noam) : res noam :=
  let* (L, F) := fold_res noam_review (dict_keys (d_actions dom)) (nm_learners M, nm_failures M) in Ok (with_learners M L F).
(** semi_online_learning_algorithm.py:420-449 [train_models_using_trace] *)
Definition noam_component (LF : numeric_learners * list (string * frame)) (cp : ncomponent) : res (numeric_learners * list (string * frame)) :=
  if contains_duplicates (c_params (cp_call (nc_comp cp))) then Ok LF else noam_transition (fst LF) (snd LF) cp.
Definition noam_train_trace (M : noam) (trace : list ncomponent) : res noam :=
  let* (L, F) := fold_res noam_component trace (nm_learners M, nm_failures M) in noam_reviews (with_learners M L F).

(** ** Executing one action *)
(** semi_online_learning_algorithm.py:248-283 [_execute_selected_action] *)
Definition execute_selected (E : environment) (M : noam) (c : call) (w : world) (integrate : bool) : res (noam * (world * bool)) :=
  let* (w', ok) := observe E w c in
  let* _ := triplet_snapshot dom (fst w) (fst w') c in
  let* r := record_single_step world call c_name (nm_rec M) c ok w w' in
  let M1 := with_rec M r in
  let* M2 := if integrate then let* (L, F) := noam_transition (nm_learners M1) (nm_failures M1) (transition w c w' ok) in Ok (with_learners M1 L F)
             else Ok M1 in
  Ok (if (ok : bool) then M2 else with_fails M2 (nm_fails M2 + 1), (w', ok)).

(** ** The frontier *)
Definition injective_actions (E : environment) : list call := filter (fun c => negb (contains_duplicates (c_params c))) (en_actions E).
(** semi_online_learning_algorithm.py:183-202 [sort_ground_actions_based_on_success_rate]; a dict keeps one entry per call *)
Definition sort_by_success (E : environment) (M : noam) : res (noam * list call) :=
  let* rates := map_res (fun n => let* k := get_number_successful_action_executions world call (nm_rec M) n in Ok (n, (1 / (inject_Z (Z.of_nat k) + 1))%Q))
                        (dict_keys (d_actions dom)) in
  let weighted := flat_map (fun c => match dict_get rates (c_name c) with Some q => [(c, q)] | None => [] end) (to_set (injective_actions E)) in
  let total := fold_left Qplus (map snd weighted) 0%Q in
  let* l := rd_choice rd (nm_draws M) (map fst weighted) (map (fun cq => (snd cq / total)%Q) weighted) (length (injective_actions E)) in
  Ok (drawn M, l).
(** noam_algorithm.py:71-81, 237-243, 446-452 [_create_frontier] *)
Definition create_frontier (k : explorer) (E : environment) (M : noam) : res (noam * list call) :=
  match k with
  | noam_learner | informative_svm => sort_by_success E M
  | goal_oriented | informative_explorer | optimistic_explorer => Ok (drawn M, rd_shuffle rd (nm_draws M) (injective_actions E))
  end.

(** ** Selecting an action *)
(** noam_algorithm.py:83-118 [_calculate_state_action_informative]; the applicability is computed but not used *)
Definition is_informative (M : noam) (w : world) (c : call) : res bool :=
  let* a := dict_lookup (d_actions dom) (c_name c) in
  let objs := combine (c_params c) (map snd (a_sig a)) in
  let* s := bound_predicates dom c (discrete_state_snapshot dom (fst w) (objs ++ d_consts dom)) in
  let* x := match_state_functions dom c (numeric_state_snapshot (snd w) (objs ++ d_consts dom)) in
  let* st := dict_lookup (nm_learners M) (c_name c) in
  let* f := dict_lookup (nm_failures M) (c_name c) in
  sample_informative unit fit hull schmidt (on_disc st) (on_num st) f s x.
(** noam_algorithm.py:186-196 *)
Definition is_starved (M : noam) (n : string) : bool :=
  match dict_get (nm_last M) n with None => true | Some k => k + starvation <=? nm_global M end.
Definition starved_names (M : noam) (frontier : list call) : list string := filter (is_starved M) (to_set (map c_name frontier)).
Fixpoint remove_first (c : call) (l : list call) : list call :=
  match l with [] => [] | x :: l => if eq_dec x c then l else x :: remove_first c l end.
(** noam_algorithm.py:205-213 *)
Fixpoint pop_informative (M : noam) (w : world) (c : call) (rest : list call) : res (call * list call) :=
  let* i := is_informative M w c in
  match rest with
  | [] => Ok (c, [])
  | c' :: rest' => if (i : bool) then Ok (c, rest) else pop_informative M w c' rest'
  end.
(** noam_algorithm.py:175-217: which action is taken from the frontier *)
Definition choose (M : noam) (w : world) (frontier : list call) : res (noam * call * list call) :=
  match starved_names M frontier with
  | n :: _ =>
      let named := filter (fun c => String.eqb (c_name c) n) frontier in
      match nth_error named (rd_pick rd (nm_draws M) (length named) mod length named) with
      | Some c => Ok (drawn M, c, remove_first c frontier)
      | None => Err IndexError
      end
  | [] => match frontier with
          | [] => Err IndexError
          | c :: rest => let* (c', rest') := pop_informative M w c rest in Ok (M, c', rest')
          end
  end.
(** 175-217 and 454-459 [_select_action_and_execute]: the call, the outcome, the new state and what is left of the frontier *)
Definition select (k : explorer) (E : environment) (M : noam) (w : world) (frontier : list call)
  : res (noam * (call * bool * world) * list call) :=
  let* (M1, c, rest) :=
    match k with
    | noam_learner | informative_svm => choose M w frontier
    | _ => match frontier with [] => Err IndexError | c :: rest => Ok (M, c, rest) end
    end in
  let* (M2, (w', ok)) := execute_selected E M1 c w true in
  Ok (M2, (c, ok, w'), rest).
(** semi_online_learning_algorithm.py:285-310 [_select_action_and_execute]: nothing is learned from these executions *)
Fixpoint base_select (E : environment) (M : noam) (w : world) (frontier : list call) : res (noam * (call * bool * world)) :=
  match frontier with
  | [] => Err IndexError
  | c :: rest =>
      let* (M1, (w', ok)) := execute_selected E M c w false in
      match ok, rest with
      | true, _ | _, [] => Ok (M1, (c, ok, w'))
      | false, _ :: _ => base_select E M1 w rest
      end
  end.

(** ** Exploring *)
(** noam_algorithm.py:274-278: try again while the action fails and the frontier is not empty; [fuel] bounds the attempts *)
Fixpoint retry (fuel : nat) (k : explorer) (E : environment) (step : nat) (M : noam) (w : world) (r : call * bool * world) (frontier : list call)
  : res (noam * (call * bool * world)) :=
  let '(c, ok, w') := r in
  match ok, frontier with
  | true, _ | _, [] => Ok (M, r)
  | false, _ :: _ =>
      match fuel with
      | 0 => Err RuntimeError
      | S fuel => let* (M1, r1, rest) := select k E M w frontier in retry fuel k E step (mark M1 (fst (fst r1)) step) w r1 rest
      end
  end.
(** noam_algorithm.py:266-292: one step, [None] for a dead end *)
Definition explore_step (k : explorer) (E : environment) (step : nat) (M : noam) (w : world) (frontier : list call) : res (noam * option world) :=
  let* (M1, r1, rest) := select k E M w frontier in
  let* (M2, (_, ok2, w2)) := retry (length frontier) k E step (mark M1 (fst (fst r1)) step) w r1 rest in
  if (ok2 : bool) then Ok (M2, Some w2)
  else
    let* (M3, frontier') := create_frontier k E M2 in
    let* (M4, (c4, ok4, w4)) := base_select E M3 w frontier' in
    let M5 := mark M4 c4 step in
    if (ok4 : bool) then Ok (M5, Some w4) else Ok (M5, None).
(** noam_algorithm.py:261-303: [todo] steps are left of the episode's [total] *)
Fixpoint explore_loop (todo : nat) (k : explorer) (E : environment) (total step : nat) (M : noam) (w : world) (frontier : list call)
  : res (noam * (bool * nat)) :=
  match todo, frontier with
  | 0, _ | _, [] => Ok (M, (false, total))
  | S todo, _ :: _ =>
      if negb (nm_fails M <? max_failed) then Ok (M, (false, total))
      else
        let* (M1, next) := explore_step k E step M w frontier in
        match next with
        | None => Ok (M1, (false, total))
        | Some w' =>
            let* (M2, frontier') := create_frontier k E M1 in
            let* reached := en_goal E w' in
            if (reached : bool) then Ok (M2, (true, step + 1)) else explore_loop todo k E total (step + 1) M2 w' frontier'
        end
  end.
(** noam_algorithm.py:245-303 [explore_to_refine_models] *)
Definition explore (k : explorer) (E : environment) (M : noam) (w : world) (total : nat) : res (noam * (bool * nat)) :=
  let* (M1, frontier) := create_frontier k E M in
  explore_loop total k E total 0 (with_fails M1 0) w frontier.

(** ** Solving *)
(** semi_online_learning_algorithm.py:333-368 [_use_solvers_to_solve_problem].  A solver gets the exported domain and the
    problem and gives a status and, if that is ok, a plan. *)
Definition solver := list (string * exported) -> problem -> status * list call.
Definition is_ok (s : status) : bool := match s with st_ok => true | _ => false end.
Fixpoint use_solvers (solvers : list solver) (last : status) (model : list (string * exported)) (P : problem) (M : noam)
  : res (noam * (status * nat * option world)) :=
  match solvers with
  | [] => Ok (M, (last, 0, Some (pr_init P)))
  | sv :: solvers =>
      let (st, plan) := sv model P in
      if is_ok st then
        let* (trace, final, applicable) := execute_plan (pr_env P) (pr_init P) plan in
        let* reached := en_goal (pr_env P) final in
        let* M1 := noam_train_trace M trace in
        if (reached : bool) then Ok (M1, (st_ok, length trace, None))
        else match rev trace with
             | [] => Err IndexError
             | cp :: _ => Ok (M1, (if (applicable : bool) then st_goal_not_achieved else st_not_applicable, length trace,
                                   Some (cp_next (nc_comp cp), nc_next cp)))
             end
      else use_solvers solvers st model P M
  end.
(** semi_online_learning_algorithm.py:451-482 [_construct_model_and_solve_problem] *)
Definition solve_with (safe : bool) (solvers : list solver) (P : problem) (M : noam) : res (noam * (status * nat * option world)) :=
  let* model := if safe then construct_safe_action_model unit fine fit rank flatten dom (nm_learners M)
                else construct_optimistic_action_model unit fine fit rank svm limit flatten dom (nm_learners M) in
  use_solvers solvers st_no_solution model P M.
Definition finish (M : noam) (P : problem) (goal solved : bool) (safe optimistic : string) : res noam :=
  let* r := end_episode world call max_file (nm_rec M) (mk_end (pr_name P) goal solved safe optimistic 0%Q false) in Ok (with_rec M r).
(** noam_algorithm.py:305-339 [_explore_and_terminate_episode]; without a state (after a solved problem) [w] is not used *)
Definition explore_and_finish (k : explorer) (P : problem) (M : noam) (w : world) (total : nat) (safe optimistic : string)
  : res (noam * (bool * nat)) :=
  let* (M1, (goal, steps)) := explore k (pr_env P) M w total in
  let* M2 := noam_reviews M1 in
  let* M3 := finish M2 P goal false safe optimistic in
  Ok (M3, (goal, steps)).
(** noam_algorithm.py:341-382, 496-516 [apply_exploration_policy] *)
Definition exploration_policy (k : explorer) (solvers : list solver) (P : problem) (M : noam) (total : nat) (safe : status)
  : res (noam * (bool * nat)) :=
  match k with
  | informative_explorer => explore_and_finish k P M (pr_init P) total (status_name safe) (status_name st_irrelevant)
  | _ =>
      let* (M1, (st, len, last)) := solve_with false solvers P M in
      if is_ok st then let* M2 := finish M1 P true true (status_name safe) (status_name st) in Ok (M2, (true, len))
      else match last with
           | Some w => explore_and_finish k P M1 w total (status_name safe) (status_name st)
           | None => Err AttributeError
           end
  end.
(** noam_algorithm.py:384-418, 549-588, 609-644 [try_to_solve_problem]; [None]: no solvers were given *)
Definition try_to_solve (k : explorer) (solvers : option (list solver)) (P : problem) (M : noam) (total : nat) : res (noam * (bool * nat)) :=
  match solvers with
  | None => Err ValueError
  | Some solvers =>
      match k with
      | noam_learner | goal_oriented | informative_explorer =>
          let* (M1, (st, len, _)) := solve_with true solvers P M in
          match st with
          | st_ok => let* M2 := finish M1 P true true (status_name st) (status_name st_irrelevant) in Ok (M2, (true, len))
          | st_not_applicable => Err ValueError
          | _ => exploration_policy k solvers P M1 total st
          end
      | optimistic_explorer | informative_svm =>
          let* (M1, (st, len, _)) := solve_with false solvers P M in
          if is_ok st then let* M2 := finish M1 P true true (status_name st_irrelevant) (status_name st) in Ok (M2, (true, len))
          else explore_and_finish k P M1 (pr_init P) total (status_name st_no_solution) (status_name st)
      end
  end.
(** The calls of a user: training from a trace (semi_online_learning_algorithm.py:420-449) and trying to solve a problem, one after the
    other; the results of the attempts in order. *)
Inductive noam_op := op_train (trace : list ncomponent) | op_solve (P : problem) (total : nat).
Definition noam_do (k : explorer) (solvers : option (list solver)) (Mr : noam * list (bool * nat)) (o : noam_op) : res (noam * list (bool * nat)) :=
  match o with
  | op_train trace => let* M1 := noam_train_trace (fst Mr) trace in Ok (M1, snd Mr)
  | op_solve P total => let* (M1, r) := try_to_solve k solvers P (fst Mr) total in Ok (M1, snd Mr ++ [r])
  end.
Definition noam_run (k : explorer) (solvers : option (list solver)) (degree : nat) (ops : list noam_op) : res (noam * list (bool * nat)) :=
  fold_res (noam_do k solvers) ops (init_noam degree, []).
End Noam.
