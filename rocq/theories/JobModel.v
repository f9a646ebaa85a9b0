(** * A job of the numeric experiments

    Model of [run_fold_iteration] and what it calls in experiments/concurrent_execution/parallel_basic_experiment_runner.py, and of
    experiments/concurrent_execution/parallel_numeric_experiment_runner.py.  The parsers, the learners, PlanMiner, the solvers and the
    semantic measures are external: here they are functions of the texts they are given, so that a job that runs twice gets the same
    answers.  The directory results_directory exists.  What PlanMiner leaves in the directory of the training set is not tracked, nor is
    the domain it moves into the test directory, which is written again when the job goes on.  The domain that is made for PlanMiner
    keeps its name.  The degree of the polynomials and the map of the fluents are part of the learner. *)
From Verif Require Export CresModel CrossModel.
Open Scope string_scope. Open Scope list_scope. Open Scope nat_scope.

(** The working directory: the directories in train, test and performance_evaluation_trajectories, the files of results_directory, and
    those of its directory domains_backup. *)
Record workspace := mk_ws { ws_train : list (string * files); ws_test : list (string * files); ws_eval : list (string * files);
  ws_results : directory; ws_backups : files }.
Definition ending_ws := (workspace * option exc)%type.
Definition stopping {A} (ws : workspace) (x : res A) (f : A -> ending_ws) : ending_ws := match x with Ok a => f a | Err e => (ws, Some e) end.
Definition directory_in (l : list (string * files)) (name : string) : res files := match dict_get l name with Some d => Ok d | None => Err KeyError end.
(** [glob] of a directory that does not exist gives nothing *)
Definition listed (l : list (string * files)) (name : string) : files := match dict_get l name with Some d => d | None => [] end.

Section Job.
Variables (domain obs : Type).
Variables (parse_partial : string -> res domain) (parse_observation : domain -> string -> string -> res obs).
(** The learners by the number of their algorithm; PlanMiner on a directory with trajectories *)
Variable learn : nat -> domain -> list obs -> res (domain * option learning_report).
Variable mine : files -> res (domain * option learning_report).
Variables (to_pddl title : domain -> string) (actions_of : domain -> domain_actions) (view : obs -> observation).
(** [DomainValidator.validate_domain]: the algorithm, the training set (where PlanMiner has its reference domain), the text of the tested
    domain, the test directory, the observations and the learning time *)
Variable validate : string -> files -> string -> files -> list obs -> string -> res (list (string * value)).
(** statistics/utils.py 30-93 on a directory, the one of PlanMiner on both; [calculate_performance] *)
Variables (data : Type) (init_calculator : files -> res data) (mined_calculator : files -> files -> res data).
Variable measure : string -> data -> string -> nat -> string -> res (rows value).
Variable matching : files -> list string.
Variables (to_float : string -> res Q) (pb_literals pb_functions : action -> nat) (show : value -> string).
(** The reference domain, the one of PlanMiner, the file of the domain *)
Variables (domain_name : string) (model : domain_actions) (mined_model : files -> domain_actions) (domain_file_name : string).
(** Whether ABORT_SOLVING is in the environment *)
Variable abort : bool.
(** negative_preconditions_policy: the default *)
Definition default_policy := "no_remove".

(** parallel_numeric_experiment_runner.py 195-211 with experiments_consts.py 19-22; 160-193: PlanMiner has a calculator and a reference
    domain of its own *)
Definition apply_learning_algorithm (version : nat) (calc : data) (train eval : files) (partial : domain) (used : list obs)
  : res (domain * option learning_report * data * domain_actions) :=
  if version =? 5 then
    let* calc := mined_calculator train eval in
    let* (learned, report) := mine train in
    Ok (learned, report, calc, mined_model train)
  else if memb version [3; 19] then
    let* (learned, report) := learn version partial used in
    Ok (learned, report, calc, model)
  else Err KeyError.

(** parallel_basic_experiment_runner.py 178-187 *)
Definition job_backup_file (alg : string) (fold : nat) (learned : domain) (n : nat) : string :=
  (alg ++ "_fold_" ++ decimal fold ++ "_" ++ title learned ++ "_" ++ decimal n ++ "_trajectories_" ++ default_policy ++ "_policy.pddl")%string.
(** 112-124, 158-188 *)
Definition export_domain_and_backup (alg : string) (fold : nat) (sets : string) (test : files) (used : list obs) (learned : domain) (ws : workspace) : workspace :=
  mk_ws (ws_train ws) (dict_set (ws_test ws) sets (dict_set test domain_file_name (to_pddl learned))) (ws_eval ws) (ws_results ws)
        (dict_set (ws_backups ws) (job_backup_file alg fold learned (length used)) (to_pddl learned)).
(** 246, the value of the report *)
Definition learning_time (report : option learning_report) : res string :=
  match report with None => Err TypeError | Some r => match dict_get r "learning_time" with None => Err KeyError | Some t => Ok t end end.

(** 263-265 *)
Definition export_results (alg : string) (fold n : nat) (solving numeric : rows value) (m : manager) (d : directory) : directory * option exc :=
  and_then (and_then (write_statistics value show alg fold (Some n) solving d) (export_numeric_performance value show alg domain_name fold (Some n) numeric))
    (export_action_learning_statistics alg domain_name show fold (Some n) m).

(** 95-105, 221-308 *)
Definition run_fold_iteration (fold version n : nat) (sets : string) (ws : workspace) : ending_ws :=
  stopping ws (algorithm_type version) (fun alg =>
  let eval := listed (ws_eval ws) ("fold_" ++ decimal fold) in
  stopping ws (init_calculator eval) (fun calc =>
  stopping ws (directory_in (ws_train ws) sets) (fun train =>
  stopping ws (let* t := read train domain_file_name in parse_partial t) (fun partial =>
  stopping ws (collect_observations domain obs parse_observation matching train partial) (fun used =>
  stopping ws (apply_learning_algorithm version calc train eval partial used) (fun '(learned, report, calc, reference) =>
  let '(m, e) := add_to_action_stats to_float pb_literals pb_functions alg domain_name reference (map view used) (actions_of learned) report default_policy new_manager in
  stopping ws (match e with Some e => Err e | None => learning_time report end) (fun time =>
  stopping ws (directory_in (ws_test ws) sets) (fun test =>
  let ws := export_domain_and_backup alg fold sets test used learned ws in
  stopping ws (if abort then Ok [] else
               let* row := validate alg train (to_pddl learned) (dict_set test domain_file_name (to_pddl learned)) used time in Ok [row]) (fun solving =>
  stopping ws (measure alg calc (to_pddl learned) (length used) default_policy) (fun numeric =>
  let '(d, e) := export_results alg fold n solving numeric m (ws_results ws) in
  (mk_ws (ws_train ws) (ws_test ws) (ws_eval ws) d (ws_backups ws), e))))))))))).

(** parallel_numeric_experiment_runner.py 244-266 *)
Definition run_job (arguments : list argument) (ws : workspace) : ending_ws :=
  stopping ws (numeric_runner arguments) (fun '(fold, version, n, sets) => run_fold_iteration fold version n sets ws).
(** The jobs of a cluster, in the order in which they run; one that ends with an error leaves what it has written. *)
Definition run_jobs (js : list job) (ws : workspace) : workspace := fold_left (fun ws j => fst (run_job (j_arguments j) ws)) js ws.
End Job.
