(** * One fold of online learning

    Model of the class PIL of experiments/concurrent_execution/planning_with_online_learning.py and of its script: reading the problems, the
    loop over them, the statistics files and the domains that are evaluated.  The learners are those of NoamModel.v and SemiModel.v.  The evaluation
    itself (117-180) is in OevModel.v, for the two domains that are given here. *)
From Verif Require Export SemiModel OcolModel.
Open Scope string_scope. Open Scope list_scope. Open Scope nat_scope.

(** 31-38; utilities/util_types.py 12-18 *)
Inductive online_algorithm := semi_online | exploring (k : explorer).
Definition algorithm_name (a : online_algorithm) : string :=
  match a with
  | semi_online => "semi_online"
  | exploring noam_learner => "noam_learning"
  | exploring goal_oriented => "goal_oriented_explorer"
  | exploring informative_explorer => "informative_explorer"
  | exploring optimistic_explorer => "optimistic_explorer"
  | exploring informative_svm => "informative_svm"
  end.
(** 306: the algorithms whose domains are evaluated *)
Definition is_evaluated (a : online_algorithm) : bool := match a with exploring noam_learner | exploring goal_oriented => true | _ => false end.

(** [Path.stem] of the names with the suffix .pddl *)
Definition pddl_stem (name : string) : option string :=
  let n := String.length name - 5 in
  if String.eqb (String.substring n 5 name) ".pddl" then Some (String.substring 0 n name) else None.
(** The files of a train directory whose name ends with .pddl: the initial state and the agent of a problem, or the exception of reading it. *)
Definition problem_dir := list (string * res (world * environment)).
Definition read_problem (d : problem_dir) (name : string) : res problem :=
  match dict_get d name, pddl_stem name with
  | Some (Ok (init, E)), Some stem => Ok (mk_problem stem init E)
  | Some (Err e), _ => Err e
  | _, _ => Err KeyError
  end.
(** 211, 216: [sorted(glob)] *)
Definition problem_names (d : problem_dir) (prefix : string) : list string := sorted_names (filter (glob_match [prefix; ".pddl"]) (dict_keys d)).

Section Pil.
Variable le : text -> text -> bool.
Variables unit fine : positive.
Variable fit : list (list Q) -> list Q -> list Q * Q * bool.
Variable hull : list (list Q) -> option (list (list Q) * list Q).
Variable schmidt : list (list Q) -> list (list Q) -> list (list Q).
Variable rank : list (list Q) -> nat.
Variable svm : list (list Q * bool) -> list Q * Q.
Variable limit : nat.
Variable flatten : bool.
Variable dom : domain.
Variable rd : random.
(** NUM_STEPS_FOR_STARVATION, MIN_EPISODES_TO_PLAN, MIN_EXECUTIONS_PER_ACTION, MAX_SUCCESSFUL_STEPS_PER_EPISODE, MAX_FAILED_STEPS_PER_EPISODE, and
    the number of steps in a file of the recorder. *)
Variables starvation min_episodes min_executions max_steps max_failed max_file : nat.
(** 203: the solvers *)
Variable solvers : list solver.

(** 218-224: one problem *)
Definition pil_episode (k : explorer) (P : problem) (M : noam) : res (noam * bool) :=
  let M0 := with_rec M (add_num_grounded_actions world call (nm_rec M) (length (en_actions (pr_env P)))) in
  let* (M1, (goal, _)) := try_to_solve unit fine fit hull schmidt rank svm limit flatten dom rd starvation max_failed max_file k (Some solvers) P M0 max_steps in
  Ok (with_rec M1 (clear_trajectory world call (nm_rec M1)), goal).
(** 215-231; with the number of goals that were achieved and the statistics file of the train directory, which is written again after every problem *)
Fixpoint pil_loop (alg : string) (fold : nat) (k : explorer) (d : problem_dir) (names : list string) (M : noam) (achieved : nat) (train_statistics : option table)
  : res (noam * nat * option table) :=
  match names with
  | [] => Ok (M, achieved, train_statistics)
  | name :: names =>
      let* P := read_problem d name in
      let* (M1, goal) := pil_episode k P M in
      pil_loop alg fold k d names M1 (achieved + if (goal : bool) then 1 else 0) (Some (summarized alg fold (r_rows world call (nm_rec M1))))
  end.
(** 182-241 [learn_model_online]: the learners, the results and the statistics file of the train directory *)
Definition learn_model_online (a : online_algorithm) (prefix : string) (fold degree : nat) (d : problem_dir) (out : results) : res (numeric_learners * results * option table) :=
  let alg := algorithm_name a in
  match a with
  | semi_online =>
      let* problems := map_res (read_problem d) (problem_names d prefix) in
      let* M := semi_run le unit fine fit hull schmidt rank svm limit flatten dom rd min_episodes min_executions max_steps max_failed max_file (map pr_name problems) (Some solvers) degree problems in
      Ok (se_learners M, export_statistics out alg fold (r_rows world call (se_rec M)), None)
  | exploring k =>
      let* (M, _, t) := pil_loop alg fold k d (problem_names d prefix) (init_noam le dom degree) 0 None in
      Ok (nm_learners M, export_statistics out alg fold (r_rows world call (nm_rec M)), t)
  end.
(** 83-115 [construct_domains_for_evaluation] *)
Definition construct_domains (L : numeric_learners) : res (list (string * exported) * list (string * exported)) :=
  let* safe := construct_safe_action_model unit fine fit rank flatten dom L in
  let* optimistic := construct_optimistic_action_model unit fine fit rank svm limit flatten dom L in
  Ok (safe, optimistic).
(** 293-318 [main]: the results, the statistics file of the train directory, and the domains that are evaluated *)
Definition pil_main (a : online_algorithm) (prefix : string) (fold degree : nat) (d : problem_dir) (out : results)
  : res (results * option table * option (list (string * exported) * list (string * exported))) :=
  let* (L, out, t) := learn_model_online a prefix fold degree d out in
  if is_evaluated a then let* domains := construct_domains L in Ok (out, t, Some domains) else Ok (out, t, None).
End Pil.
