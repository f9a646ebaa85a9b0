(** * What one fold of online learning should say *)
From Verif Require Export SemiSpec OcolSpec PilModel.
Open Scope string_scope. Open Scope list_scope. Open Scope nat_scope.

(** ** The problems *)
Definition is_problem (prefix x : string) : Prop := exists y, x = (prefix ++ y ++ ".pddl")%string.
(** [names] are the problem files of the directory, each once, in the order of their names. *)
Definition problem_files (d : problem_dir) (prefix : string) (names : list string) : Prop :=
  StronglySorted (fun a b => String.ltb a b = true) names /\ forall x, In x names <-> In x (dict_keys d) /\ is_problem prefix x.
Definition file_holds (d : problem_dir) (x : string) (P : problem) : Prop := x = (pr_name P ++ ".pddl")%string /\ dict_get d x = Some (Ok (pr_init P, pr_env P)).
Definition problems_of (d : problem_dir) (prefix : string) (problems : list problem) : Prop :=
  exists names, problem_files d prefix names /\ Forall2 (file_holds d) names problems.
(** The actions of each problem are a set. *)
Definition action_sets_in (d : problem_dir) : Prop := forall x init E, dict_get d x = Some (Ok (init, E)) -> NoDup (en_actions E).
Definition real_dir (dom : domain) (real : string -> option (action * numeric_part)) (d : problem_dir) : Prop :=
  forall x init E, dict_get d x = Some (Ok (init, E)) -> real_environment dom real E.

Definition numbered_file (prefix : string) (i : nat) : string := (prefix ++ decimal i ++ ".pddl")%string.

(** ** One problem *)
(** What happened: the traces of the plans that were executed with the safe and with the optimistic domain, the rounds of exploration and what is
    reported. *)
Record trial := mk_trial
  { tr_safe : option (list ncomponent); tr_optimistic : option (list ncomponent); tr_rounds : list NoamSpec.round;
    tr_goal : bool; tr_solved : bool; tr_safe_status : status; tr_optimistic_status : status }.
Definition tr_steps (t : trial) : list episode_step := all_steps (tr_rounds t).
(** What is learned from: the executed plans, and the exploration unless a plan was a solution; the actions that were tried after all others
    had failed are left out. *)
Definition tr_lesson (t : trial) : list (list ncomponent) :=
  trace_list (tr_safe t) ++ trace_list (tr_optimistic t) ++ if tr_solved t then [] else [map as_component (learned_steps (tr_rounds t))].
Definition as_visit (t : trial) : visit :=
  mk_visit true (tr_safe t) (tr_optimistic t) [tr_steps t] [] (tr_goal t) (tr_solved t) (tr_safe_status t) (tr_optimistic_status t).
Definition tries_safe (k : explorer) : bool := match k with noam_learner | goal_oriented | informative_explorer => true | optimistic_explorer | informative_svm => false end.
Definition tries_optimistic_next (k : explorer) : bool := match k with noam_learner | goal_oriented => true | _ => false end.

Section Spec.
Variables (safe_domain optimistic_domain : list (list ncomponent) -> list (string * exported) -> Prop) (solvers : list solver) (max_steps max_failed : nat).
(** An exploration from [w]: until the goal is reached, nothing can be executed any more, or a budget of this problem is used up. *)
Definition wanders (P : problem) (w : world) (t : trial) : Prop :=
  tr_solved t = false /\ exists rs ws final, tr_rounds t = rs ++ final /\ walk (pr_env P) w rs ws /\ length ws <= max_steps /\
  failures (tr_steps t) <= max_failed + 2 * length (en_actions (pr_env P)) /\
  if tr_goal t then final = [] /\ exists ws' w', ws = ws' ++ [w'] /\ en_goal (pr_env P) w' = Ok true /\ Forall (fun w => en_goal (pr_env P) w = Ok false) ws'
  else Forall (fun w => en_goal (pr_env P) w = Ok false) ws /\
    ((final = [] /\ (length ws = max_steps \/ max_failed <= failures (tr_steps t) \/ forall c, In c (en_actions (pr_env P)) -> ~ NoDup (c_params c))) \/
     exists r, final = [r] /\ dead_end (pr_env P) (last_state w ws) r).
Definition by_plan (t : trial) : Prop := tr_rounds t = [] /\ tr_goal t = true /\ tr_solved t = true.
(** The problem [P] after [learned] was learned from. *)
Definition tried (k : explorer) (learned : list (list ncomponent)) (P : problem) (t : trial) : Prop :=
  if tries_safe k then
    exists model w, safe_domain learned model /\ attempted solvers model P (tr_safe t) (tr_safe_status t) w /\
    ((tr_safe_status t = st_ok /\ tr_optimistic t = None /\ tr_optimistic_status t = st_irrelevant /\ by_plan t) \/
     (tr_safe_status t <> st_ok /\ tr_safe_status t <> st_not_applicable /\
      if tries_optimistic_next k then
        exists model' w', optimistic_domain (learned ++ trace_list (tr_safe t)) model' /\ attempted solvers model' P (tr_optimistic t) (tr_optimistic_status t) w' /\
        ((tr_optimistic_status t = st_ok /\ by_plan t) \/ (tr_optimistic_status t <> st_ok /\ wanders P w' t))
      else tr_optimistic t = None /\ tr_optimistic_status t = st_irrelevant /\ wanders P (pr_init P) t))
  else
    tr_safe t = None /\ exists model w, optimistic_domain learned model /\ attempted solvers model P (tr_optimistic t) (tr_optimistic_status t) w /\
    ((tr_optimistic_status t = st_ok /\ tr_safe_status t = st_irrelevant /\ by_plan t) \/
     (tr_optimistic_status t <> st_ok /\ tr_safe_status t = st_no_solution /\ wanders P (pr_init P) t)).
Fixpoint all_tried (k : explorer) (learned : list (list ncomponent)) (problems : list problem) (ts : list trial) : Prop :=
  match problems, ts with
  | [], [] => True
  | P :: problems, t :: ts => tried k learned P t /\ all_tried k (learned ++ tr_lesson t) problems ts
  | _, _ => False
  end.
End Spec.

(** ** The files *)
(** The table of a fold: one row per problem. *)
Definition fold_table (names : list string) (alg : string) (fold : nat) (pvs : list (problem * visit)) (t : table) : Prop :=
  EpisodeSpec.numbered (fun n Pv r => reported names n Pv r /\ dict_get r "algorithm_type" = Some (CText alg) /\ dict_get r "fold_number" = Some (CNat fold)) 1 pvs t.
(** Only one file of the results changes. *)
Definition only_file (out : results) (x : string) (t : table) (out' : results) : Prop :=
  dict_get out' x = Some t /\ forall y, y <> x -> dict_get out' y = dict_get out y.
