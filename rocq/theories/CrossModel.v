(** * Cross validation of a learner

    Model of experiments/basic_experiment_runner.py ([OfflineBasicExperimentRunner]) and of [run_fold] in
    experiments/numeric_experiment_runner.py.  The parsers, the learner, the solvers and the semantic measures are external (they
    are modelled elsewhere): here they are functions of the texts they are given.  What is written into the train and test
    directories of a fold disappears with them, see [remove_created_directories].  When something raises, the results and the
    backups written so far are kept in the model, what the two directories then hold is not tracked. *)
From Verif Require Export FoldModel CollectModel.
Open Scope string_scope. Open Scope list_scope. Open Scope nat_scope.

Definition learning_report := list (string * string).
Notation files := (dir string).
Notation value := LstatModel.value.

(** What a runner has in memory, and what it has written: the rows of the statistics manager, those of the validator for the
    current fold and for all the folds before, those of the semantic performance calculator (None before the first fold), the
    results directory and the backup of the learned domains. *)
Record runner := mk_runner { r_manager : manager; r_solving : rows value; r_all_solving : rows value; r_semantic : option (rows value);
  r_results : directory; r_backups : files }.
Definition outcome := (runner * option exc)%type.
Definition then_do (o : outcome) (f : runner -> outcome) : outcome := match o with (r, None) => f r | (r, Some e) => (r, Some e) end.
Definition raising {A} (r : runner) (x : res A) (f : A -> outcome) : outcome := match x with Ok a => f a | Err e => (r, Some e) end.
Definition on_manager (f : manager -> manager * option exc) (r : runner) : outcome :=
  let '(m, e) := f (r_manager r) in (mk_runner m (r_solving r) (r_all_solving r) (r_semantic r) (r_results r) (r_backups r), e).
Definition on_results (f : directory -> directory * option exc) (r : runner) : outcome :=
  let '(d, e) := f (r_results r) in (mk_runner (r_manager r) (r_solving r) (r_all_solving r) (r_semantic r) d (r_backups r), e).

Section Cross.
Variables (domain obs : Type).
(** DomainParser with partial parsing; ProblemParser and TrajectoryParser on the texts of a problem and a trajectory. *)
Variables (parse_partial : string -> res domain) (parse_observation : domain -> string -> string -> res obs).
(** [_apply_learning_algorithm]; none of the runners looks at the test directory there. *)
Variable learn : domain -> list obs -> res (domain * option learning_report).
Variables (to_pddl title : domain -> string) (actions_of : domain -> domain_actions) (view : obs -> observation).
(** [DomainValidator.validate_domain]: the text of the tested domain, the test directory, the observations and the learning time. *)
Variable validate : string -> files -> list obs -> Q -> res (list (string * value)).
(** statistics/utils.py 30-93: a calculator from the problems and trajectories of a directory; [calculate_performance]. *)
Variables (data : Type) (init_calculator : files -> res data) (measure : data -> string -> nat -> string -> res (rows value)).
(** The stems of the files "*.trajectory" of a directory, sorted. *)
Variable matching : files -> list string.
(** LearningStatisticsManager. *)
Variables (to_float : string -> res Q) (pb_literals pb_functions : action -> nat) (show : value -> string).
(** __init__ 58-89: the name of the algorithm, whether it is numeric (statistics/utils.py 19-26), the reference domain, the file of the domain, the policy *)
Variables (algorithm : string) (numeric : bool) (domain_name : string) (model : domain_actions) (domain_file_name policy : string).

Definition read (d : files) (name : string) : res string := match dict_get d name with Some c => Ok c | None => Err KeyError end.

(** 117-134 *)
Definition collect_observations (train : files) (partial : domain) : res (list obs) :=
  map_res (fun stem => let* p := read train (problem_file stem) in let* t := read train (trajectory_file stem) in parse_observation partial p t)
          (matching train).

(** 187-190 *)
Definition backup_file (fold_number : nat) (learned : domain) (n : nat) : string :=
  (algorithm ++ "_fold_" ++ decimal fold_number ++ "_" ++ title learned ++ "_" ++ decimal n ++ "_trajectories.pddl")%string.

(** 164-207: the learned domain is written into the test directory and into the backup, then it is validated *)
Definition validate_learned_domain (used : list obs) (learned : domain) (test : files) (fold_number : nat) (time : Q) (r : runner) : outcome :=
  let test := dict_set test domain_file_name (to_pddl learned) in
  let r := mk_runner (r_manager r) (r_solving r) (r_all_solving r) (r_semantic r) (r_results r)
             (dict_set (r_backups r) (backup_file fold_number learned (length used)) (to_pddl learned)) in
  raising r (validate (to_pddl learned) test used time)
    (fun row => (mk_runner (r_manager r) (r_solving r ++ [row]) (r_all_solving r) (r_semantic r) (r_results r) (r_backups r), None)).

(** The exported semantic performance (semantic_performance_calculator.py 311-326, numeric_performance_calculator.py 120-135). *)
Definition export_performance (fold_num : nat) (stats : rows value) : directory -> directory * option exc :=
  if numeric then export_numeric_performance value show algorithm domain_name fold_num None stats
  else CollectModel.export_semantic_performance value show algorithm domain_name fold_num None stats.
(** semantic_performance_calculator.py 328-338, numeric_performance_calculator.py 137-146 *)
Definition combined_file : string :=
  if numeric then (algorithm ++ "_" ++ domain_name ++ "combined_numeric_performance.csv")%string
  else (algorithm ++ "_" ++ domain_name ++ "_combined_semantic_performance.csv")%string.
Definition export_combined_performance (stats : rows value) : directory -> directory * option exc :=
  write_csv value show (if numeric then NUMERIC_PERFORMANCE_STATS else SEMANTIC_PRECISION_STATS) stats combined_file.

(** 136-162.  [calc] is the calculator of the runner, created at the start of the fold. *)
Definition learn_model_offline (calc : data) (fold_num : nat) (train test : files) (r : runner) : outcome :=
  raising r (let* t := read train domain_file_name in parse_partial t) (fun partial =>
  raising r (collect_observations train partial) (fun used =>
  raising r (learn partial used) (fun '(learned, rep) =>
  then_do (on_manager (add_to_action_stats to_float pb_literals pb_functions algorithm domain_name model (map view used) (actions_of learned) rep policy) r) (fun r =>
  raising r (match rep with None => Err TypeError | Some rp => match dict_get rp "learning_time" with None => Err KeyError | Some t => to_float t end end) (fun time =>
  then_do (validate_learned_domain used learned test fold_num time r) (fun r =>
  raising r (measure calc (to_pddl learned) (length used) policy) (fun stats =>
  let stats := match r_semantic r with Some old => old ++ stats | None => stats end in
  let r := mk_runner (r_manager r) (r_solving r) (r_all_solving r) (Some stats) (r_results r) (r_backups r) in
  then_do (on_results (export_action_learning_statistics algorithm domain_name show fold_num None (r_manager r)) r) (fun r =>
  then_do (on_results (export_performance (fold_num + 1) stats) r) (fun r =>
  on_results (write_statistics value show algorithm fold_num None (r_solving r)) r))))))))).

(** 91-97: a new calculator has no rows *)
Definition init_semantic_performance_calculator (test : files) (r : runner) (f : data -> runner -> outcome) : outcome :=
  raising r (init_calculator test) (fun calc =>
  f calc (mk_runner (r_manager r) (r_solving r) (r_all_solving r) (Some []) (r_results r) (r_backups r))).
(** safe_domain_validator.py 377-380 *)
Definition clear_solving (r : runner) : runner :=
  mk_runner (r_manager r) [] (r_all_solving r ++ r_solving r) (r_semantic r) (r_results r) (r_backups r).

(** 211-216: one turn of the loop *)
Definition one_fold (r : runner) (fold_num : nat) (train test : files) : outcome :=
  init_semantic_performance_calculator test r (fun calc r =>
  then_do (learn_model_offline calc fold_num train test r) (fun r =>
  on_manager (fun m => (clear_statistics m, None)) (clear_solving r))).

(** 211-216; every fold has its two directories *)
Fixpoint all_folds (fold_num : nat) (folds : list (option files * option files)) (r : runner) : outcome :=
  match folds with
  | [] => (r, None)
  | (Some train, Some test) :: folds => then_do (one_fold r fold_num train test) (all_folds (S fold_num) folds)
  | _ :: _ => (r, Some KeyError)
  end.

(** safe_domain_validator.py 364-375 *)
Definition write_all_solving (stats : rows value) : directory -> directory * option exc :=
  write_csv value show SOLVING_STATISTICS stats (algorithm ++ "_all_folds_solving_stats.csv")%string.

(** 218-220 *)
Definition write_joint (r : runner) : outcome :=
  then_do (on_results (write_all_solving (r_all_solving r)) r) (fun r =>
  match r_semantic r with
  | None => (r, Some AttributeError)
  | Some stats =>
      then_do (on_results (export_combined_performance stats) r) (fun r =>
      on_results (write_complete_joint_statistics algorithm show (r_manager r)) r)
  end).

(** __init__ *)
Definition new_runner (results : directory) (backups : files) : runner := mk_runner new_manager [] [] None results backups.

(** 207-220.  The loop asks the generator for a next fold until there is none: more often than there can be folds.  When the
    generator raises before its end the model runs no fold. *)
Variables (shuffle : nat -> list nat) (fifth : nat -> nat) (sample : list string -> nat -> list string) (n_split : nat).
Definition saved_folds (s : saved) : nat := match s with Saved c => length c | _ => 0 end.
Definition run_cross_validation (w : world string) (r : runner) : world string * outcome :=
  match create_k_fold shuffle fifth string domain_file_name matching sample
          (S (length (matching (w_files _ w)) + saved_folds (w_config _ w))) n_split 0 false true w with
  | Err e => (w, (r, Some e))
  | Ok (seen, w, e) =>
      (w, then_do (all_folds 0 seen r) (fun r => match e with Some e => (r, Some e) | None => write_joint r end))
  end.

(** numeric_experiment_runner.py 65-74: one fold by itself.  The calculator reads the directory "test" of the working directory,
    whose files are given as [common_test]; the fold has a test directory of its own. *)
Definition run_fold (fold_num : nat) (train test common_test : files) (r : runner) : outcome :=
  init_semantic_performance_calculator common_test r (fun calc r =>
  then_do (learn_model_offline calc fold_num train test r) (fun r => (clear_solving r, None))).
End Cross.
