(** * Semi-online learning

    Model of the class SemiOnlineNumericAMLearner of sam_learning/learners/semi_online_learning_algorithm.py as far as it is not
    in OnumModel.v (the learners and the training) or NoamModel.v (the inherited execution of actions).  Left out: logging, times, and the
    counters of failure reasons of the recorder (each learner keeps its own list).  A trajectory file is read back as the states, calls and
    statuses that were written (the text format belongs to pddl_plus_parser).  Random numbers, solvers and the environment are
    parameters.  A learner after an exception is not modelled. *)
From Verif Require Export NoamModel.
Open Scope string_scope. Open Scope list_scope. Open Scope nat_scope.

(** 86-107, 312-331 *)
Record semi := mk_semi
  { se_learners : numeric_learners;                       (* _discrete_models_learners, _numeric_models_learners, undecided_failure_observations *)
    se_rec : recorder world call;                         (* episode_recorder; its [r_files] are the trajectory files on the disk *)
    se_fails : nat;                                       (* episode_step_failure_counter *)
    se_queue : list string;                               (* _preprocessed_traces_paths *)
    se_draws : nat }.
Definition se_with_learners (M : semi) L := mk_semi L (se_rec M) (se_fails M) (se_queue M) (se_draws M).
Definition se_with_rec (M : semi) r := mk_semi (se_learners M) r (se_fails M) (se_queue M) (se_draws M).
Definition se_with_queue (M : semi) q := mk_semi (se_learners M) (se_rec M) (se_fails M) q (se_draws M).
(** The attributes used by the inherited methods of NoamModel.v, and their new values. *)
Definition as_noam (M : semi) : noam := mk_noam (se_learners M) [] (se_rec M) (se_fails M) [] 0 (se_draws M).
Definition of_noam (q : list string) (N : noam) : semi := mk_semi (nm_learners N) (nm_rec N) (nm_fails N) q (nm_draws N).

(** ** The name of a problem in the name of a file *)
(** [\w] *)
Definition stem_char (c : Ascii.ascii) : bool :=
  let n := Ascii.nat_of_ascii c in ((48 <=? n) && (n <=? 57)) || ((65 <=? n) && (n <=? 90)) || ((97 <=? n) && (n <=? 122)) || (n =? 95).
Fixpoint word_run (s : string) : string :=
  match s with "" => "" | String c s => if stem_char c then String c (word_run s) else "" end.
(** The longest non-empty start of [s] that is followed by "_episode". *)
Fixpoint before_episode (s : string) : option string :=
  match s with
  | "" => None
  | String c s => match before_episode s with
                  | Some g => Some (String c g)
                  | None => if String.prefix "_episode" s then Some (String c "") else None
                  end
  end.
Fixpoint drop_chars (n : nat) (s : string) : string :=
  match n, s with 0, _ => s | _, "" => "" | S n, String _ s => drop_chars n s end.
(** 55: [re.search(r"trajectory_(\w+)_episode", text)], group 1; the first place where it matches *)
Fixpoint search_name (s : string) : option string :=
  match (if String.prefix "trajectory_" s then before_episode (word_run (drop_chars 11 s)) else None) with
  | Some g => Some g
  | None => match s with "" => None | String _ s => search_name s end
  end.
(** The stem of a name ending in ".trajectory". *)
Definition trajectory_stem (name : string) : string := String.substring 0 (String.length name - 11) name.

Section Semi.
Variable le : text -> text -> bool.
Variables unit fine : positive.
Variable fit : list (list Q) -> list Q -> list Q * Q * bool.
Variable hull : list (list Q) -> option (list (list Q) * list Q).
Variable schmidt : list (list Q) -> list (list Q) -> list (list Q).
Variable rank : list (list Q) -> nat.
Variable svm : list (list Q * bool) -> list Q * Q.
Variable limit : nat.
Variable flatten : bool.
Variable dom : domain.
Variable rd : random.
(** MIN_EPISODES_TO_PLAN (50), MIN_EXECUTIONS_PER_ACTION (10), MAX_SUCCESSFUL_STEPS_PER_EPISODE (100), MAX_FAILED_STEPS_PER_EPISODE
    (50000), and the number of steps in a file of the recorder (5000). *)
Variables min_episodes min_executions max_steps max_failed max_file : nat.
(** The problem files of the working directory, by stem. *)
Variable problem_files : list string.

(** 79-107, 312-331 *)
Definition init_semi (degree : nat) : semi :=
  mk_semi (initialize_numeric le dom degree) (new_recorder world call (dict_keys (d_actions dom))) 0 [] 0.
(** 183-202 *)
Definition semi_sort (E : environment) (M : semi) : res (semi * list call) :=
  let* (N, l) := sort_by_success dom rd E (as_noam M) in Ok (of_noam (se_queue M) N, l).
(** 285-310 *)
Definition semi_select (E : environment) (M : semi) (w : world) (frontier : list call) : res (semi * (call * bool * world)) :=
  let* (N, r) := base_select unit fit hull schmidt dom E (as_noam M) w frontier in Ok (of_noam (se_queue M) N, r).
(** 370-377 *)
Definition executed_enough (M : semi) : res bool :=
  let* ks := map_res (get_number_successful_action_executions world call (se_rec M)) (dict_keys (d_actions dom)) in
  Ok (forallb (fun k => min_executions <=? k) ks).
(** 413-416, 445-447 *)
Definition semi_reviews (M : semi) : res semi :=
  let* L := fold_res (numeric_review unit fit hull schmidt) (dict_keys (d_actions dom)) (se_learners M) in Ok (se_with_learners M L).
(** 397-418: [todo] steps are left of the episode's [max_steps] *)
Fixpoint semi_loop (todo : nat) (E : environment) (step : nat) (M : semi) (w : world) (frontier : list call) : res (semi * (bool * nat)) :=
  let stop := let* M1 := semi_reviews M in Ok (M1, (false, max_steps)) in
  match todo, frontier with
  | 0, _ | _, [] => stop
  | S todo, _ :: _ =>
      if negb (se_fails M <? max_failed) then stop
      else
        let* (M1, (_, _, w')) := semi_select E M w frontier in
        let* (M2, frontier') := semi_sort E M1 in
        let* reached := en_goal E w' in
        if (reached : bool) then Ok (M2, (true, step + 1)) else semi_loop todo E (step + 1) M2 w' frontier'
  end.
(** 379-418 [explore_to_refine_models] *)
Definition semi_explore (E : environment) (M : semi) (w : world) : res (semi * (bool * nat)) :=
  let* (M1, frontier) := semi_sort E M in semi_loop max_steps E 0 M1 w frontier.
(** 420-449 [train_models_using_trace] *)
Definition semi_train (M : semi) (trace : list ncomponent) : res semi :=
  let* L := numeric_train_trace unit fit hull schmidt dom (se_learners M) trace in Ok (se_with_learners M L).

(** ** Trajectory files *)
Fixpoint follow (w : world) (body : list (call * bool * world)) : list ncomponent :=
  match body with [] => [] | (c, ok, w') :: body => transition w c w' ok :: follow w' body end.
Definition trace_of (f : file world call) : list ncomponent := follow (f_first world call f) (f_body world call f).
Definition find_file (fs : list (file world call)) (name : string) : option (file world call) := find (fun f => String.eqb (f_name world call f) name) fs.
Definition unlink (r : recorder world call) (name : string) : recorder world call :=
  mk_rec world call (r_episode _ _ r) (r_info _ _ r) (r_rows _ _ r) (r_traj _ _ r) (r_history _ _ r) (r_paths _ _ r)
    (filter (fun f => negb (String.eqb (f_name world call f) name)) (r_files _ _ r)) (r_load _ _ r).
(** 484-495 [_read_trajectories_and_train_models] *)
Fixpoint read_trajectories (queue : list string) (M : semi) : res semi :=
  match queue with
  | [] => Ok (se_with_queue M [])
  | path :: queue =>
      match search_name (trajectory_stem path) with
      | None => Err AttributeError
      | Some problem_name =>
          if negb (memb problem_name problem_files) then Err KeyError
          else match find_file (r_files world call (se_rec M)) path with
               | None => Err KeyError
               | Some f => let* M1 := semi_train M (trace_of f) in read_trajectories queue (se_with_rec M1 (unlink (se_rec M1) path))
               end
      end
  end.

(** ** Solving *)
(** 333-368 [_use_solvers_to_solve_problem] *)
Fixpoint semi_solvers (solvers : list solver) (last : status) (model : list (string * exported)) (P : problem) (M : semi)
  : res (semi * (status * option world)) :=
  match solvers with
  | [] => Ok (M, (last, Some (pr_init P)))
  | sv :: solvers =>
      let (st, plan) := sv model P in
      if is_ok st then
        let* (trace, final, applicable) := execute_plan (pr_env P) (pr_init P) plan in
        let* reached := en_goal (pr_env P) final in
        let* M1 := semi_train M trace in
        if (reached : bool) then Ok (M1, (st_ok, None))
        else match rev trace with
             | [] => Err IndexError
             | cp :: _ => Ok (M1, (if (applicable : bool) then st_goal_not_achieved else st_not_applicable, Some (cp_next (nc_comp cp), nc_next cp)))
             end
      else semi_solvers solvers st model P M
  end.
(** 451-482 [_construct_model_and_solve_problem] *)
Definition semi_solve (safe : bool) (solvers : list solver) (P : problem) (M : semi) : res (semi * (status * option world)) :=
  let* model := if safe then construct_safe_action_model unit fine fit rank flatten dom (se_learners M)
                else construct_optimistic_action_model unit fine fit rank svm limit flatten dom (se_learners M) in
  semi_solvers solvers st_no_solution model P M.
(** 527-533, 540-547, 558-565 *)
Definition semi_finish (M : semi) (P : problem) (goal solved : bool) (safe optimistic : status) : res semi :=
  let* r := end_episode world call max_file (se_rec M) (mk_end (pr_name P) goal solved (status_name safe) (status_name optimistic) 0%Q true) in
  Ok (se_with_rec M r).
(** 550-567 *)
Definition explore_episode (P : problem) (M : semi) (w : world) (safe optimistic : status) : res semi :=
  let* (M1, (goal, _)) := semi_explore (pr_env P) M w in
  let* M2 := semi_finish M1 P goal false safe optimistic in
  let M3 := se_with_queue M2 (se_queue M2 ++ r_paths world call (se_rec M2)) in
  Ok (se_with_rec M3 (clear_paths world call (se_rec M3))).
(** 509-568: one problem *)
Definition semi_episode (solvers : list solver) (index : nat) (P : problem) (M : semi) : res semi :=
  let M0 := se_with_rec M (add_num_grounded_actions world call (clear_trajectory world call (se_rec M)) (length (en_actions (pr_env P)))) in
  let* planned := if min_episodes <=? index then Ok true else executed_enough M0 in
  if (planned : bool) then
    let* M1 := read_trajectories (se_queue M0) M0 in
    let* (M2, (safe, _)) := semi_solve true solvers P M1 in
    if is_ok safe then semi_finish M2 P true true safe st_irrelevant
    else
      let* (M3, (optimistic, last)) := semi_solve false solvers P M2 in
      if is_ok optimistic then semi_finish M3 P true true safe optimistic
      else match last with Some w => explore_episode P M3 w safe optimistic | None => Err AttributeError end
  else explore_episode P M0 (pr_init P) st_no_solution st_no_solution.
(** 497-568 [try_to_solve_problems]; [None]: no solvers were given *)
Fixpoint semi_problems (solvers : list solver) (index : nat) (problems : list problem) (M : semi) : res semi :=
  match problems with
  | [] => Ok M
  | P :: problems => let* M1 := semi_episode solvers index P M in semi_problems solvers (index + 1) problems M1
  end.
Definition try_to_solve_problems (solvers : option (list solver)) (problems : list problem) (M : semi) : res semi :=
  match solvers with None => Err ValueError | Some solvers => semi_problems solvers 0 problems M end.
Definition semi_run (solvers : option (list solver)) (degree : nat) (problems : list problem) : res semi :=
  try_to_solve_problems solvers problems (init_semi degree).
End Semi.
