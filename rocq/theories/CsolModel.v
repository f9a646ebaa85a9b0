(** * Planners on a cluster

    Model of experiments/cluster_scripts/sbatching_solver.py (ENHSP), sbatching_solver_metric_ff.py, sbatching_fast_downward_solver.py and
    sbatching_trajectory_creation.py ([main]; the other functions of these scripts are never called), of [submit_job] of common.py for their jobs,
    and of the command lines of solvers/enhsp_solver.py, metric_ff_solver.py and fast_downward_solver.py.  A job is its script and its arguments; a
    path is told from other texts, and contains no spaces; the rest of the template, printing and sleeping are left out.  A job is run in the directory in
    which it was submitted.  [sbatch] is a variable.  Paths of problems have no suffix, as in SolverModel.v. *)
From Verif Require Export GenModel.
From Verif Require CluModel.
From Verif Require Import Prelude.
Open Scope string_scope. Open Scope list_scope. Open Scope nat_scope.

(** A value of the configuration file (json) *)
Inductive setting := Text (s : string) | Number (n : nat).
(** The configuration file: the directory of the code, the working directory, the domain file and the prefix of problems (texts); timeout and tolerance *)
Record configuration := mk_configuration { cf_code : string; cf_workdir : path; cf_domain : string; cf_prefix : string;
  cf_timeout : option setting; cf_tolerance : option setting }.
(** An argument of a job: the text of a path, another text, or an object that is no text *)
Inductive argument := PathText (p : path) | Word (s : string) | NoText.
Definition argument_of (s : setting) : argument := match s with Text s => Word s | Number _ => NoText end.
Definition is_text (a : argument) : bool := match a with NoText => false | _ => true end.
Record job := mk_job { j_script : string; j_arguments : list argument }.
Definition solver_script (k : solver_type) : string :=
  match k with enhsp => "enhsp_solver.py" | metric_ff => "metric_ff_solver.py" | fast_downward => "fast_downward_solver.py" end.
Definition script_of (code : string) (k : solver_type) : string := (code ++ "/" ++ solver_script k)%string.

Section Submission.
(** The [i]-th call of [sbatch]: the number of the job, or an error *)
Variable sbatch : nat -> job -> option nat.
(** The calls of [sbatch] so far, and the jobs that were accepted *)
Record queue := mk_queue { q_calls : nat; q_jobs : list job }.

(** common.py 192-241: [" ".join(arguments)] raises for an argument that is no text.  The jobs have no dependency, so that the second attempt is the
    same as the first one; a second error is not caught. *)
Definition submit_job (q : queue) (j : job) : queue * option exc :=
  if negb (forallb is_text (j_arguments j)) then (q, Some TypeError) else
  match sbatch (q_calls q) j with
  | Some _ => (mk_queue (q_calls q + 1) (q_jobs q ++ [j]), None)
  | None => match sbatch (q_calls q + 1) j with
            | Some _ => (mk_queue (q_calls q + 2) (q_jobs q ++ [j]), None)
            | None => (mk_queue (q_calls q + 2) (q_jobs q), Some RuntimeError)
            end
  end.
Definition key {A} (x : option A) : res A := match x with Some v => Ok v | None => Err KeyError end.
(** sbatching_solver.py 70-77, sbatching_solver_metric_ff.py 24-31, sbatching_fast_downward_solver.py 70-76 *)
Definition solver_arguments (k : solver_type) (c : configuration) (cwd : list string) (stem : string) : res (list argument) :=
  let* limit := key (cf_timeout c) in
  let paths := [PathText (absolute cwd (join (cf_workdir c) (cf_domain c))); PathText (absolute cwd (join (cf_workdir c) stem)); PathText (cf_workdir c)] in
  match k with
  | fast_downward => Ok (paths ++ [argument_of limit])
  | _ => let* tolerance := key (cf_tolerance c) in Ok (paths ++ [argument_of limit; argument_of tolerance])
  end.
(** sbatching_solver.py 69-89, sbatching_solver_metric_ff.py 23-43, sbatching_fast_downward_solver.py 69-87: the loop *)
Fixpoint submit_problems (k : solver_type) (c : configuration) (cwd : list string) (stems : list string) (q : queue) : queue * option exc :=
  match stems with
  | [] => (q, None)
  | stem :: stems =>
      match solver_arguments k c cwd stem with
      | Err e => (q, Some e)
      | Ok arguments => match submit_job q (mk_job (script_of (cf_code c) k) arguments) with
                        | (q, None) => submit_problems k c cwd stems q
                        | (q, Some e) => (q, Some e)
                        end
      end
  end.
(** [workdir.glob(f"{prefix}*.pddl")] *)
Definition work_stems (m : machine) (c : configuration) : list string := filter (String.prefix (cf_prefix c)) (glob m (cf_workdir c) ".pddl").
(** sbatching_solver.py 56-89, sbatching_solver_metric_ff.py 10-43, sbatching_fast_downward_solver.py 56-87: [main] *)
Definition submit_solver (k : solver_type) (c : configuration) (m : machine) : queue * option exc :=
  submit_problems k c (m_cwd m) (work_stems m c) (mk_queue 0 []).
(** sbatching_trajectory_creation.py 31-57: the second argument is a path object, not its text *)
Definition submit_trajectory_creation (c : configuration) (q : queue) : queue * option exc :=
  submit_job q (mk_job (cf_code c ++ "/experiments_trajectories_creator.py") [Word "driverlogHardNumeric.pddl"; NoText]).
End Submission.

(** ** The jobs *)
Section Jobs.
Variables (directory : list string -> bool) (process : nat -> command -> outcome_of_run).
Variables (status_of : content -> string) (plan_of : content -> content) (METRIC_FF_DIRECTORY : path).
Variables (FAST_DOWNWARD_DIR_PATH : path) (sas_name : nat -> string) (sas_text : nat -> option content).
(** [float] of a text *)
Variable float : string -> res Q.

(** enhsp_solver.py 157-169, metric_ff_solver.py 136-146, fast_downward_solver.py 146-157: [sys.argv] from 1 on; what [solve_problem] returns is not used
    (it is logged) *)
Definition solver_main (k : solver_type) (arguments : list argument) (m : machine) : res (machine * (path * outcome)) :=
  match arguments with
  | PathText domain :: PathText problem :: PathText where_ :: Word limit :: rest =>
      let* limit := CluModel.int limit in
      match k, rest with
      | fast_downward, _ => let* (m, o) := solve_fast_downward directory process FAST_DOWNWARD_DIR_PATH sas_name sas_text m domain problem where_ limit (1 # 10) in Ok (m, (problem, o))
      | enhsp, Word tolerance :: _ => let* tolerance := float tolerance in let '(m, o) := solve_enhsp process m domain problem where_ limit tolerance in Ok (m, (problem, o))
      | metric_ff, Word tolerance :: _ => let* tolerance := float tolerance in
                                          let* (m, o) := solve_metric_ff directory process status_of plan_of METRIC_FF_DIRECTORY m domain problem where_ limit tolerance in Ok (m, (problem, o))
      | _, _ => Err IndexError
      end
  | _ => Err IndexError
  end.
Definition planner_of (code script : string) : res solver_type :=
  if String.eqb script (script_of code enhsp) then Ok enhsp
  else if String.eqb script (script_of code metric_ff) then Ok metric_ff
  else if String.eqb script (script_of code fast_downward) then Ok fast_downward else Err KeyError.
(** template.sbatch: a new process in the directory of the submission *)
Definition run_job (code : string) (cwd : list string) (m : machine) (j : job) : res (machine * (path * outcome)) :=
  let* k := planner_of code (j_script j) in
  solver_main k (j_arguments j) (mk_machine cwd (m_files m) (m_runs m)).
(** One job after the other, with the answers that they log *)
Definition run_jobs (code : string) (cwd : list string) (jobs : list job) (m : machine) : res (machine * list (string * string)) :=
  fold_res (fun (mr : machine * list (string * string)) j =>
              let* (m, po) := run_job code cwd (fst mr) j in
              Ok (m, dict_set (snd mr) (stem_of (fst po)) (outcome_name (snd po)))) jobs (m, []).
End Jobs.
