(** * Property C111: a job of the numeric experiments

    Only theorems; every proof is a reference to a lemma.  Specification: JobSpec.v. *)
From Coq Require Import QArith.
From Verif Require Import JobModel JobSpec JobProofs JobFinal Prelude PreludeProofs.
Open Scope string_scope. Open Scope list_scope. Open Scope nat_scope.

Section Job.
Variables (domain obs : Type).
Variables (parse_partial : string -> res domain) (parse_observation : domain -> string -> string -> res obs).
Variable learn : nat -> domain -> list obs -> res (domain * option learning_report).
Variable mine : files -> res (domain * option learning_report).
Variables (to_pddl title : domain -> string) (actions_of : domain -> domain_actions) (view : obs -> observation).
Variable validate : string -> files -> string -> files -> list obs -> string -> res (list (string * value)).
Variables (data : Type) (init_calculator : files -> res data) (mined_calculator : files -> files -> res data).
Variable measure : string -> data -> string -> nat -> string -> res (rows value).
Variable matching : files -> list string.
Variables (to_float : string -> res Q) (pb_literals pb_functions : action -> nat) (show : value -> string).
Variables (domain_name : string) (model : domain_actions) (mined_model : files -> domain_actions) (domain_file_name : string).
Variable abort : bool.
Notation run_fold_iteration := (run_fold_iteration domain obs parse_partial parse_observation learn mine to_pddl title actions_of view validate data init_calculator mined_calculator measure matching
  to_float pb_literals pb_functions show domain_name model mined_model domain_file_name abort).
Notation run_job := (run_job domain obs parse_partial parse_observation learn mine to_pddl title actions_of view validate data init_calculator mined_calculator measure matching
  to_float pb_literals pb_functions show domain_name model mined_model domain_file_name abort).
Notation run_jobs := (run_jobs domain obs parse_partial parse_observation learn mine to_pddl title actions_of view validate data init_calculator mined_calculator measure matching
  to_float pb_literals pb_functions show domain_name model mined_model domain_file_name abort).
Notation answered := (answered domain obs parse_partial parse_observation learn mine to_pddl validate data init_calculator mined_calculator measure matching to_float model mined_model domain_file_name abort).
Notation writable := (writable domain obs actions_of).
Notation right_actions := (right_actions domain obs actions_of view pb_literals pb_functions domain_name).
Notation job_done := (job_done domain obs to_pddl title show domain_name domain_file_name).
Notation own_files := (own_files domain_name domain_file_name).
Notation ready := (ready_job domain obs parse_partial parse_observation learn mine to_pddl actions_of validate data init_calculator mined_calculator measure matching to_float model mined_model domain_file_name abort).

(** The tools work for the job: it learns from its own training set, is measured on its own test set and its fold, ends without an error, leaves right results in its three files and changes nothing else. *)
Theorem C111_job args ws fold version n sets alg a : numeric_runner args = Ok (fold, version, n, sets) -> algorithm_type version = Ok alg -> answered ws fold version n alg a -> writable a ->
  exists actions ws', run_job args ws = (ws', None) /\ right_actions alg a actions /\ job_done fold version n alg a actions ws ws'.
Proof. exact (job_ok domain obs parse_partial parse_observation learn mine to_pddl title actions_of view validate data init_calculator mined_calculator measure matching to_float pb_literals pb_functions show domain_name model mined_model domain_file_name abort args ws fold version n sets alg a). Qed.

(** The other way round: a job that ends without an error had an answer from every tool, and left right results of it. *)
Theorem C111_honest args ws ws' : model <> [] -> (forall train, mined_model train <> []) -> run_job args ws = (ws', None) ->
  exists fold version n sets alg a, numeric_runner args = Ok (fold, version, n, sets) /\ algorithm_type version = Ok alg /\ answered ws fold version n alg a /\
    (well_named (an_reference _ _ a) -> well_named (actions_of (an_learned _ _ a)) -> exists actions, right_actions alg a actions /\ job_done fold version n alg a actions ws ws').
Proof. exact (job_honest domain obs parse_partial parse_observation learn mine to_pddl title actions_of view validate data init_calculator mined_calculator measure matching to_float pb_literals pb_functions show domain_name model mined_model domain_file_name abort args ws ws'). Qed.

(** Whatever the tools do, and wherever it stops, a job changes only its own files. *)
Theorem C111_own_files args ws : fst (run_job args ws) = ws \/ exists fold version n sets alg, numeric_runner args = Ok (fold, version, n, sets) /\ algorithm_type version = Ok alg /\ own_files fold version n alg ws (fst (run_job args ws)).
Proof. exact (job_own domain obs parse_partial parse_observation learn mine to_pddl title actions_of view validate data init_calculator mined_calculator measure matching to_float pb_literals pb_functions show domain_name model mined_model domain_file_name abort args ws). Qed.

(** Jobs in any order, each as often as it was submitted: each ends without an error, and together they leave what each would report by itself; this is what C110 asks of the jobs. *)
Theorem C111_jobs report ws0 js : Forall (ready ws0 report) js ->
  (forall before j rest, js = before ++ j :: rest -> snd (run_job (j_arguments j) (run_jobs before ws0)) = None) /\
  exists results, reportable value results (flat_map job_subjects js) /\ (forall j, In j js -> ran (flat_map job_subjects js) j) /\
    perform_all value show domain_name results (flat_map job_subjects js) (ws_results ws0) = (ws_results (run_jobs js ws0), None) /\
    forall j fold version n sets alg, In j js -> numeric_runner (j_arguments j) = Ok (fold, version, n, sets) -> algorithm_type version = Ok alg ->
      results (mk_subject Solving alg fold (Some n)) = an_solving _ _ (report fold version n) /\ results (mk_subject Numeric alg fold (Some n)) = an_numeric _ _ (report fold version n) /\
      right_actions alg (report fold version n) (results (mk_subject Actions alg fold (Some n))).
Proof. exact (jobs_ok domain obs parse_partial parse_observation learn mine to_pddl title actions_of view validate data init_calculator mined_calculator measure matching to_float pb_literals pb_functions show domain_name model mined_model domain_file_name abort report ws0 js). Qed.

(** The third algorithm that the submission offers has no learner: its jobs end with an error and leave nothing. *)
Theorem C111_no_learner_refuted script e fold n j ws : configured e -> In 15 (ex_versions e) -> job_for script e fold 15 (Some n) j ->
  (exists x, run_job (j_arguments j) ws = (ws, Some x)) /\
  forall calc train text partial used, init_calculator (listed (ws_eval ws) ("fold_" ++ decimal fold)) = Ok calc -> dict_get (ws_train ws) (DfoldSpec.iteration_name fold 15 n) = Some train -> dict_get train domain_file_name = Some text -> parse_partial text = Ok partial ->
    Forall2 (fun x o => exists p t, dict_get train (x ++ ".pddl")%string = Some p /\ dict_get train (x ++ ".trajectory")%string = Some t /\ parse_observation partial p t = Ok o) (matching train) used ->
    run_job (j_arguments j) ws = (ws, Some KeyError).
Proof. exact (no_learner domain obs parse_partial parse_observation learn mine to_pddl title actions_of view validate data init_calculator mined_calculator measure matching to_float pb_literals pb_functions show domain_name model mined_model domain_file_name abort script e fold n j ws). Qed.

(** So the results can never be collected: whatever jobs ran, and whatever is asked for, the collection ends with an error before two of its three files are written. *)
Theorem C111_never_collected_refuted std percent algorithms num_folds iterations dom js ws : validator_names obs validate show -> ws_results ws = [] ->
  exists d2 e, collect_with_figures std percent algorithms num_folds iterations dom (ws_results (run_jobs js ws)) = (d2, Some e) /\
    dict_get d2 "syntactic_performance_combined_statistics.csv" = None /\ dict_get d2 "numeric_performance_combined_statistics.csv" = None.
Proof. exact (never_collected domain obs parse_partial parse_observation learn mine to_pddl title actions_of view validate data init_calculator mined_calculator measure matching to_float pb_literals pb_functions show domain_name model mined_model domain_file_name abort std percent algorithms num_folds iterations dom js ws). Qed.
End Job.
Print Assumptions C111_job.
Print Assumptions C111_honest.
Print Assumptions C111_own_files.
Print Assumptions C111_jobs.
Print Assumptions C111_no_learner_refuted.
Print Assumptions C111_never_collected_refuted.
