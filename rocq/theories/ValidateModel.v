(** * Solving statistics of a learned domain

    Model of validators/safe_domain_validator.py (and validators/common.py): which counters a problem increases, the
    percentages, and the rows of the report.  The solvers and the plan validator are external: their answers are data. *)
From Verif Require Export StatsModel.
Open Scope string_scope. Open Scope list_scope. Open Scope nat_scope.

(** solvers/abstract_solver.py 9-16 *)
Inductive outcome := ok | no_solution | timeout | not_applicable | goal_not_achieved | solver_error | irrelevant.
Definition outcome_name (o : outcome) : string :=
  match o with
  | ok => "ok" | no_solution => "no_solution" | timeout => "timeout" | not_applicable => "not_applicable"
  | goal_not_achieved => "goal_not_achieved" | solver_error => "solver_error" | irrelevant => "irrelevant"
  end.
Definition SolutionOutputTypes := [ok; no_solution; timeout; not_applicable; goal_not_achieved; solver_error; irrelevant].
Definition is_ok (o : outcome) : bool := match o with ok => true | _ => false end.
Definition is_irrelevant (o : outcome) : bool := match o with irrelevant => true | _ => false end.

(** validators/common.py *)
Definition AGGREGATED_SOLVING_FIELDS :=
  ["ok"; "no_solution"; "timeout"; "solver_error"; "not_applicable"; "goal_not_achieved"].

(** safe_domain_validator.py 24-56 *)
Definition SOLVING_STATISTICS :=
  ["learning_algorithm"; "num_trajectories"; "num_trajectory_triplets"; "policy"; "learning_time"; "solving_time"; "solver";
   "ok"; "no_solution"; "timeout"; "solver_error"; "not_applicable"; "goal_not_achieved";
   "validated_against_expert_plan"; "not_validated_against_expert_plan";
   "problems_ok"; "problems_no_solution"; "problems_timeout"; "problems_solver_error"; "problems_not_applicable";
   "problems_goal_not_achieved"; "problems_validated_against_expert_plan"; "problems_not_validated_against_expert_plan";
   "percent_ok"; "percent_no_solution"; "percent_timeout"; "percent_solver_error"; "percent_not_applicable";
   "percent_goal_not_achieved"; "percent_validated_against_expert_plan"; "percent_not_validated_against_expert_plan"].

(** 58-67 *)
Definition DEBUG_STATISTICS :=
  ["problems_ok"; "problems_no_solution"; "problems_timeout"; "problems_solver_error"; "problems_not_applicable";
   "problems_goal_not_achieved"; "problems_validated_against_expert_plan"; "problems_not_validated_against_expert_plan"].

(** 69-70 *)
Definition VALIDATED_AGAINST_EXPERT_PLAN := "validated_against_expert_plan".
Definition NOT_VALIDATED_AGAINST_EXPERT_PLAN := "not_validated_against_expert_plan".

(** 72-76 *)
Definition NUMERIC_STATISTICS_LABELS :=
  map outcome_name (filter (fun o => negb (is_irrelevant o)) SolutionOutputTypes) ++
  [VALIDATED_AGAINST_EXPERT_PLAN; NOT_VALIDATED_AGAINST_EXPERT_PLAN].

(** validator_script_data.py 9-12 *)
Definition VALID_PLAN := "Plan valid".
Definition INAPPLICABLE_PLAN := "Plan failed to execute".
Definition GOAL_NOT_REACHED := "Goal not satisfied".

(** [needle in text] *)
Definition in_text (needle text : string) : bool := match String.index 0 needle text with Some _ => true | None => false end.

(** The values of the statistics dictionary: counters, lists of problem names, averages, and texts. *)
Inductive value := VInt (n : nat) | VNames (l : list string) | VNum (q : Q) | VText (s : string).
Definition stats := list (string * value).

(** [d[k] += 1] *)
Definition incr (d : stats) (k : string) : res stats :=
  match dict_get d k with
  | Some (VInt n) => Ok (dict_set d k (VInt (n + 1)))
  | Some _ => Err TypeError
  | None => Err KeyError
  end.
(** [d[k].append(name)] *)
Definition append_name (d : stats) (k name : string) : res stats :=
  match dict_get d k with
  | Some (VNames l) => Ok (dict_set d k (VNames (l ++ [name])))
  | Some _ => Err AttributeError
  | None => Err KeyError
  end.
Definition count_problem (d : stats) (k name : string) : res stats :=
  let* d := incr d k in append_name d ("problems_" ++ k)%string name.

(** A test problem: the stem of its file name, what each solver of the portfolio would answer on it, the text of the
    validation of the plan found (against the reference domain), and that of the expert plan (against the tested domain). *)
Record problem := mk_problem { pr_stem : string; pr_outcomes : list outcome; pr_log : string; pr_expert_log : string }.
Definition file_name (p : problem) : string := (pr_stem p ++ ".pddl")%string.

(** 119-150 *)
Definition validate_against_expert_plan (d : stats) (p : problem) : res stats :=
  if in_text VALID_PLAN (pr_expert_log p) then count_problem d VALIDATED_AGAINST_EXPERT_PLAN (file_name p)
  else count_problem d NOT_VALIDATED_AGAINST_EXPERT_PLAN (file_name p).

(** 152-183 *)
Definition validate_solution_content (d : stats) (p : problem) : res stats :=
  if in_text VALID_PLAN (pr_log p) then count_problem d "ok" (file_name p)
  else if in_text INAPPLICABLE_PLAN (pr_log p) then count_problem d "not_applicable" (file_name p)
  else if in_text GOAL_NOT_REACHED (pr_log p) then count_problem d "goal_not_achieved" (file_name p)
  else Ok d.

(** 293-318: the loop over the portfolio.  The report of the problem and whether it was solved. *)
Fixpoint try_solvers (outs : list outcome) (report : option outcome) : option outcome * bool :=
  match outs with
  | [] => (report, false)
  | o :: outs => if is_ok o then (Some o, true) else try_solvers outs (Some o)
  end.

(** 289-333: one problem *)
Definition handle_problem (d : stats) (p : problem) : res stats :=
  let '(report, solved) := try_solvers (pr_outcomes p) None in
  if solved then validate_solution_content d p
  else match report with
       | None => Err KeyError
       | Some o => let* d := count_problem d (outcome_name o) (pr_stem p) in validate_against_expert_plan d p
       end.

(** [sum([d[k] for k in ks])] *)
Definition sum_stats (d : stats) (ks : list string) : res nat :=
  fold_res (fun acc k => match dict_get d k with Some (VInt n) => Ok (acc + n) | Some _ => Err TypeError | None => Err KeyError end) ks 0.

(** 210-232 (both percentage functions): [d[f"percent_{k}"] = 100 * (d[k] / total)] *)
Definition percentages (d : stats) (ks : list string) : res stats :=
  let* total := sum_stats d ks in
  let total := if 0 <? total then total else 1 in
  fold_res (fun (d : stats) (k : string) => match dict_get d k with
                       | Some (VInt n) => let* q := py_div n total in Ok (dict_set d ("percent_" ++ k)%string (VNum (100 * q)%Q))
                       | Some _ => Err TypeError
                       | None => Err KeyError
                       end) ks d.

(** 284-289 *)
Definition initial_stats : stats :=
  map (fun k => (k, VInt 0)) NUMERIC_STATISTICS_LABELS ++ map (fun k => (k, VNames [])) DEBUG_STATISTICS.

(** 257-353: the row appended to the statistics.  [times] stands for the average solving time, [header] for the fields
    that only describe the experiment. *)
Definition validate_domain (header : list string) (solving_time : Q) (ps : list problem) : res stats :=
  let* d := fold_res handle_problem ps initial_stats in
  let d := dict_set d "solving_time" (VNum solving_time) in
  let* d := percentages d AGGREGATED_SOLVING_FIELDS in
  let* d := percentages d [VALIDATED_AGAINST_EXPERT_PLAN; NOT_VALIDATED_AGAINST_EXPERT_PLAN] in
  Ok (dict_of (map (fun k => (k, VText k)) header ++ d)).

(** 343-350: the fields of the row that do not depend on the solving. *)
Definition ROW_HEADER := ["learning_algorithm"; "num_trajectories"; "policy"; "num_trajectory_triplets"; "learning_time"; "solver"].
