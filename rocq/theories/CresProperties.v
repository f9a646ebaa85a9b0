(** * Property C110: collecting the results of a cluster

    Only theorems; every proof is a reference to a lemma.  Specification: CresSpec.v, CluSpec.v and CollectSpec.v. *)
From Coq Require Import QArith.
From Verif Require Import CresModel CresSpec CresProofs Prelude PreludeProofs.
Open Scope string_scope. Open Scope list_scope. Open Scope nat_scope.

(** One or more equal jobs for each experiment, in their order, and no others; each collects the results of all folds, algorithms and numbers of trajectories. *)
Theorem C110_jobs sbatch code script num_folds experiments l : collection_main sbatch code script num_folds experiments = Ok l ->
  exists its, Forall2 (fun e it => create_internal_iterations_list e = Ok it) experiments its /\ attempts (map (collection_job (code ++ "/" ++ script) num_folds) (combine experiments its)) l.
Proof. exact (collection_log sbatch code script num_folds experiments l). Qed.
Print Assumptions C110_jobs.

(** The experiments were submitted and their jobs ran: the job that collects finds everything, draws both figures from the reported rows, and writes the three files with the results of exactly the submitted jobs. *)
Theorem C110_collected (V : Type) (show : V -> string) domain results std percent sbatch shown turns code script num_folds experiments l e it ss script' c w :
  numeric_main sbatch shown turns code script num_folds experiments = Ok l -> 0 < num_folds -> In e experiments -> configured e -> NoDup (map fst (ex_options e)) -> (forall v, In v [3; 5; 15] -> In v (ex_versions e)) ->
  create_internal_iterations_list e = Ok it -> collection_job script' num_folds (e, it) c -> dict_get (ex_options e) "working_directory_path" = Some w ->
  (forall j, In j l -> value_of (j_arguments j) "working_directory_path" = Some w -> ran ss j) -> reportable V results ss -> reports_itself show results ss ->
  exists file names d1 d2, numeric_collector (j_arguments c) = Ok (w, file, names, num_folds, it) /\ dict_get (ex_options e) "domain_file_name" = Some file /\
    Forall2 (fun version name => algorithm_type version = Ok name) (ex_versions e) names /\
    perform_all V show domain results ss [] = (d1, None) /\ collect_with_figures std percent names num_folds it domain d1 = (d2, None) /\
    (forall k, In k [Solving; Actions; Numeric] -> dict_get d2 (collected_name k ++ ".csv")%string = Some (collected V show results k true (jobs num_folds it names))) /\
    (forall name, ~ In name (map (fun k => collected_name k ++ ".csv")%string [Solving; Actions; Numeric]) -> dict_get d2 name = dict_get d1 name) /\
    (exists rows figure solo, map_res (result_of percent) (read_csv (collected V show results Solving true (jobs num_folds it names))) = Ok rows /\
       Forall2 (shown_row show percent) (flat_map (fun j => results (subject_of Solving true j)) (jobs num_folds it names)) rows /\ nsam_figure std rows = Ok figure /\ solo_figure std rows = Ok solo).
Proof. exact (submitted_collected V show domain results std percent sbatch shown turns code script num_folds experiments l e it ss script' c w). Qed.
Print Assumptions C110_collected.

(** An experiment without one of the three algorithms: the first figure ends the collection; the other two files are never written. *)
Theorem C110_missing_algorithm_refuted (V : Type) (show : V -> string) domain results std percent sbatch shown turns code script num_folds experiments l e it ss script' c w v :
  numeric_main sbatch shown turns code script num_folds experiments = Ok l -> In e experiments -> configured e -> NoDup (map fst (ex_options e)) -> ex_versions e <> [] -> In v [3; 5; 15] -> ~ In v (ex_versions e) ->
  create_internal_iterations_list e = Ok it -> collection_job script' num_folds (e, it) c -> dict_get (ex_options e) "working_directory_path" = Some w ->
  (forall j, In j l -> value_of (j_arguments j) "working_directory_path" = Some w -> ran ss j) -> reportable V results ss -> names_itself show results ss ->
  exists file names d1 d2 x, numeric_collector (j_arguments c) = Ok (w, file, names, num_folds, it) /\
    perform_all V show domain results ss [] = (d1, None) /\ collect_with_figures std percent names num_folds it domain d1 = (d2, Some x) /\
    dict_get d2 "solving_combined_statistics.csv" = Some (collected V show results Solving true (jobs num_folds it names)) /\
    dict_get d2 "syntactic_performance_combined_statistics.csv" = None /\ dict_get d2 "numeric_performance_combined_statistics.csv" = None.
Proof. exact (submitted_stopped V show domain results std percent sbatch shown turns code script num_folds experiments l e it ss script' c w v). Qed.
Print Assumptions C110_missing_algorithm_refuted.

(** An experiment with an option that the program of the numeric experiments does not have: every job of it ends with an error. *)
Theorem C110_unknown_option_refuted script e fold version n j key : In key (map fst (ex_options e)) -> ~ In key runner_options -> job_for script e fold version (Some n) j ->
  numeric_runner (j_arguments j) = Err RuntimeError.
Proof. exact (unknown_option script e fold version n j key). Qed.
Print Assumptions C110_unknown_option_refuted.
