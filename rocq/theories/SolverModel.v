(** * Running the planners

    Model of solvers/metric_ff_solver.py, solvers/enhsp_solver.py and solvers/fast_downward_solver.py: how a planner is
    started, how its end is turned into a status, what happens to the solution file and to the working directory.
    The planners themselves are external: what the [i]-th started process does is data.  A file is the list of its lines.
    Logging, the signals sent to a process that is late, and the text of the command line (its arguments are kept) are
    left out.  A missing file or directory is [KeyError] (the code raises FileNotFoundError). *)
From Verif Require Export ValidateModel.
Open Scope string_scope. Open Scope list_scope. Open Scope nat_scope.

(** A path: from the root, or from the working directory (no [..]). *)
Inductive path := Abs (names : list string) | Rel (names : list string).
Definition content := list string.
Definition resolve (cwd : list string) (p : path) : list string := match p with Abs l => l | Rel l => cwd ++ l end.
(** [p.absolute()] *)
Definition absolute (cwd : list string) (p : path) : path := Abs (resolve cwd p).
(** [p / name] *)
Definition join (p : path) (name : string) : path := match p with Abs l => Abs (l ++ [name]) | Rel l => Rel (l ++ [name]) end.
Definition stem_of (p : path) : string := last (match p with Abs l => l | Rel l => l end) "".

(** The working directory of the process, the files, and the number of planner processes started so far. *)
Record machine := mk_machine { m_cwd : list string; m_files : list (list string * content); m_runs : nat }.
Definition file_at (m : machine) (p : path) : option content := dict_get (m_files m) (resolve (m_cwd m) p).
Definition put (m : machine) (p : path) (c : option content) : machine :=
  mk_machine (m_cwd m) (match c with
                        | Some c => dict_set (m_files m) (resolve (m_cwd m) p) c
                        | None => dict_pop (m_files m) (resolve (m_cwd m) p)
                        end) (m_runs m).
(** [path.unlink(missing_ok=True)] *)
Definition unlink (m : machine) (p : path) : machine := put m p None.
Definition started (m : machine) : machine := mk_machine (m_cwd m) (m_files m) (m_runs m + 1).

(** A problem file: its path without the suffix [.pddl]. *)
Definition solution_name (problem : path) : string := (stem_of problem ++ ".solution")%string.

(** What a planner is asked: the working directory it runs in, the domain and problem files, where to write the plan. *)
Record command := mk_command { cm_cwd : list string; cm_domain : path; cm_problem : path; cm_solution : path; cm_timeout : nat; cm_tolerance : Q }.
(** How a process ends: it is late, it has no exit code, or it has one; what it printed; what it does to the solution file. *)
Inductive ending := Late | NoCode | Exit (code : Z).
Record outcome_of_run := mk_run { ru_end : ending; ru_stdout : string; ru_stderr : string; ru_solution : option content -> option content }.

Section Solvers.
(** The directories that exist; what the [i]-th process does. *)
Variables (directory : list string -> bool) (process : nat -> command -> outcome_of_run).

(** [os.chdir] *)
Definition chdir (m : machine) (p : path) : res machine :=
  if directory (resolve (m_cwd m) p) then Ok (mk_machine (resolve (m_cwd m) p) (m_files m) (m_runs m)) else Err KeyError.

(** Starting a process and waiting for its end. *)
Definition run (m : machine) (c : command) : machine * outcome_of_run :=
  let r := process (m_runs m) c in
  (put (started m) (cm_solution c) (ru_solution r (file_at m (cm_solution c))), r).

(** ** Metric-FF.  The parser of its output: the status of a solution file, and the plan read from it (pddl_plus_parser). *)
Section MetricFF.
Variables (get_solving_status : content -> string) (parse_plan : content -> content) (METRIC_FF_DIRECTORY : path).

(** metric_ff_solver.py 39-85 *)
Definition run_metric_ff_process (m : machine) (c : command) : res (machine * outcome) :=
  let '(m, r) := run m c in
  let finish :=
    match file_at m (cm_solution c) with
    | None => Err KeyError
    | Some text => if Prelude.eqb (get_solving_status text) "ok" then Ok (put m (cm_solution c) (Some (parse_plan text)), ok)
                   else Ok (unlink m (cm_solution c), no_solution)
    end in
  match ru_end r with
  | Late => Ok (unlink m (cm_solution c), timeout)
  | NoCode => Ok (unlink m (cm_solution c), timeout)
  | Exit code =>
      if negb (code =? 0)%Z then
        match file_at m (cm_solution c) with
        | None => Ok (m, solver_error)
        | Some text =>
            let status := get_solving_status text in
            if negb (Prelude.eqb status "ok") && negb (Prelude.eqb status "no-solution") then Ok (unlink m (cm_solution c), solver_error)
            else finish
        end
      else finish
  end.

(** metric_ff_solver.py 87-107 *)
Definition solve_metric_ff (m : machine) (domain problem directory_path : path) (limit : nat) (tolerance : Q) : res (machine * outcome) :=
  let* m := chdir m METRIC_FF_DIRECTORY in
  run_metric_ff_process m (mk_command (m_cwd m) domain problem (join directory_path (solution_name problem)) limit tolerance).

(** metric_ff_solver.py 109-133; [problems]: the problem files of the directory that match the pattern *)
Definition execute_metric_ff (m : machine) (domain directory_path : path) (problems : list path) (limit : nat) (tolerance : Q)
  : res (machine * list (string * string)) :=
  fold_res (fun (ms : machine * list (string * string)) problem =>
              let* (m, o) := solve_metric_ff (fst ms) domain problem directory_path limit tolerance in
              Ok (m, dict_set (snd ms) (stem_of problem) (outcome_name o))) problems (m, []).
End MetricFF.

(** ** ENHSP *)
(** enhsp_solver.py 18-23 *)
Definition PROBLEM_SOLVED := "Problem Solved".
Definition NO_SOLUTION_FOR_PROBLEM := "Problem Detected as Unsolvable".
Definition OTHER_NO_SOLUTION_TYPE := "Problem unsolvable".
Definition GOAL_NOT_REACHABLE := "Goal is not reachable".
Definition ERROR_TYPE_NO_SOLUTION := """this.plan"" is null".

(** enhsp_solver.py 35-86 *)
Definition run_enhsp_process (m : machine) (c : command) : machine * (bool * outcome) :=
  let '(m, r) := run m c in
  (m, match ru_end r with
      | Late => (true, timeout)
      | NoCode => (true, timeout)
      | Exit _ =>
          if in_text PROBLEM_SOLVED (ru_stdout r) then (true, ok)
          else if in_text NO_SOLUTION_FOR_PROBLEM (ru_stdout r) || in_text OTHER_NO_SOLUTION_TYPE (ru_stdout r) || in_text ERROR_TYPE_NO_SOLUTION (ru_stderr r)
          then (true, no_solution)
          else if in_text GOAL_NOT_REACHABLE (ru_stderr r) then (true, no_solution)
          else (false, solver_error)
      end).

(** enhsp_solver.py 123-126: the loop; [retries] runs are left *)
Fixpoint retry_enhsp (retries : nat) (m : machine) (c : command) (r : bool * outcome) : machine * outcome :=
  match retries with
  | 0 => (m, snd r)
  | S retries => if fst r then (m, snd r) else let '(m, r) := run_enhsp_process m c in retry_enhsp retries m c r
  end.

(** enhsp_solver.py 88-128 *)
Definition solve_enhsp (m : machine) (domain problem directory_path : path) (limit : nat) (tolerance : Q) : machine * outcome :=
  let c := mk_command (m_cwd m) (absolute (m_cwd m) domain) (absolute (m_cwd m) problem)
                      (absolute (m_cwd m) (join directory_path (solution_name problem))) limit tolerance in
  let '(m, r) := run_enhsp_process m c in
  retry_enhsp 3 m c r.

(** enhsp_solver.py 130-154 *)
Definition execute_enhsp (m : machine) (domain directory_path : path) (problems : list path) (limit : nat) (tolerance : Q) : machine * list (string * string) :=
  fold_left (fun (ms : machine * list (string * string)) problem =>
               let '(m, o) := solve_enhsp (fst ms) domain problem directory_path limit tolerance in
               (m, dict_set (snd ms) (stem_of problem) (outcome_name o))) problems (m, []).

(** ** Fast Downward *)
Section FastDownward.
(** The name of the temporary file of the [i]-th process (a random identifier is in it), and its text if the process writes one. *)
Variables (FAST_DOWNWARD_DIR_PATH : path) (sas_name : nat -> string) (sas_text : nat -> option content).

(** fast_downward_solver.py 27-37: all the lines but the last *)
Definition remove_cost_from_file (m : machine) (p : path) : res machine :=
  match file_at m p with
  | Some lines => Ok (put m p (Some (removelast lines)))
  | None => Err KeyError
  end.

(** fast_downward_solver.py 39-107.  [subprocess.check_output] waits for the end (the limit is enforced by the planner) and raises unless the exit
    code is 0. *)
Definition solve_fast_downward (m : machine) (domain problem directory_path : path) (limit : nat) (tolerance : Q) : res (machine * outcome) :=
  let original := m_cwd m in
  let solution := join directory_path (solution_name problem) in
  let sas := sas_name (m_runs m) in
  let absolute_solution := absolute (m_cwd m) solution in
  let absolute_domain := absolute (m_cwd m) domain in
  let absolute_problem := absolute (m_cwd m) problem in
  let* m := chdir m FAST_DOWNWARD_DIR_PATH in
  let c := mk_command (m_cwd m) absolute_domain absolute_problem absolute_solution limit 0 in
  let written := sas_text (m_runs m) in
  let '(m, r) := run m c in
  let m := match written with Some text => put m (Rel [sas]) (Some text) | None => m end in
  match ru_end r with
  | Exit code =>
      if (code =? 0)%Z then
        let* m := chdir m (Abs original) in
        let* m := remove_cost_from_file m solution in
        Ok (unlink m (join FAST_DOWNWARD_DIR_PATH sas), ok)
      else if memb code [21; 23; 247]%Z then Ok (m, timeout)
      else if memb code [11; 12]%Z then Ok (m, no_solution)
      else Ok (m, solver_error)
  | _ => Err RuntimeError
  end.

(** fast_downward_solver.py 134-139: the loop; [retries] runs are left *)
Fixpoint retry_fast_downward (retries : nat) (m : machine) (o : outcome) (domain problem directory_path : path) (limit : nat) (tolerance : Q) : res (machine * outcome) :=
  match retries with
  | 0 => Ok (m, o)
  | S retries =>
      match o with
      | solver_error => let* (m, o) := solve_fast_downward m domain problem directory_path limit tolerance in
                        retry_fast_downward retries m o domain problem directory_path limit tolerance
      | _ => Ok (m, o)
      end
  end.

(** fast_downward_solver.py 109-143; the status of a problem is that of the last run.  The tolerance is not passed on. *)
Definition execute_fast_downward (m : machine) (domain directory_path : path) (problems : list path) (limit : nat) (tolerance : Q)
  : res (machine * list (string * string)) :=
  let* m := chdir m FAST_DOWNWARD_DIR_PATH in
  fold_res (fun (ms : machine * list (string * string)) problem =>
              let* (m, o) := solve_fast_downward (fst ms) domain problem directory_path limit (1 # 10) in
              let* (m, o) := retry_fast_downward 3 m o domain problem directory_path limit (1 # 10) in
              Ok (m, dict_set (snd ms) (stem_of problem) (outcome_name o))) problems (m, []).
End FastDownward.
End Solvers.
