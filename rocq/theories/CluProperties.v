(** * Property C108: submitting experiments to a cluster

    Only theorems; every proof is a reference to a lemma.  Specification: CluSpec.v and DfoldSpec.v. *)
From Coq Require Import Sorted.
From Verif Require FoldSpec DfoldModel DfoldSpec.
From Verif Require Import CluModel CluSpec CluProofs CluFinal Prelude PreludeProofs.
Open Scope string_scope. Open Scope list_scope. Open Scope nat_scope.

(** The numbers of trajectories of an experiment *)
Theorem C108_iterations e its : create_internal_iterations_list e = Ok its -> exists limit, training_limit e = Some limit /\ StronglySorted lt its /\
  forall n, In n its <->
    if ex_hop e =? 100 then n = 1 \/ (exists k, 1 <= k /\ k <= 9 /\ n = 10 * k) \/ (exists k, 1 <= k /\ n = 100 * k /\ n <= limit)
    else (1 <= n /\ n <= 9) \/ (n <= limit /\ exists k, n = 10 + k * ex_hop e).
Proof. exact (iterations_spec e its). Qed.
Print Assumptions C108_iterations.

(** The jobs of the numeric experiments: the folds of each experiment, then every combination, in order, at least once, and no others *)
Theorem C108_numeric sbatch shown turns code script num_folds experiments l : numeric_main sbatch shown turns code script num_folds experiments = Ok l ->
  exists its folders jobs, Forall2 (fun e it => create_internal_iterations_list e = Ok it) experiments its /\ l = folders ++ jobs /\
    attempts (map (folder_job code true) (combine experiments its)) folders /\ attempts (flat_map (numeric_wishes (code ++ "/" ++ script) num_folds) (combine experiments its)) jobs.
Proof. exact (numeric_log sbatch shown turns code script num_folds experiments l). Qed.
Print Assumptions C108_numeric.

(** When the cluster accepts every job and shows it in time, every combination is submitted exactly once. *)
Theorem C108_once sbatch shown turns : (forall i j, exists sid, sbatch i j = Some sid) -> (forall i sid, shown i sid = true) -> 0 < turns ->
  forall code script num_folds experiments its, Forall configured experiments -> Forall2 (fun e it => create_internal_iterations_list e = Ok it) experiments its ->
  exists folders jobs, numeric_main sbatch shown turns code script num_folds experiments = Ok (folders ++ jobs) /\ length folders = length experiments /\
    Forall2 (fun P j => P j) (flat_map (numeric_wishes (code ++ "/" ++ script) num_folds) (combine experiments its)) jobs.
Proof. exact (numeric_once sbatch shown turns). Qed.
Print Assumptions C108_once.

(** The jobs of the experiments with several agents *)
Theorem C108_multi_agent sbatch shown turns code script num_folds experiments l : multi_agent_main sbatch shown turns code script num_folds experiments = Ok l ->
  exists its folders jobs, Forall2 (fun e it => create_internal_iterations_list e = Ok it) experiments its /\ l = folders ++ jobs /\
    attempts (map (folder_job code false) (combine experiments its)) folders /\
    attempts (flat_map (multi_agent_wishes (code ++ "/parallel_multi_agent_experiment_runner_with_triplets.py") (code ++ "/" ++ script) num_folds) (combine experiments its)) jobs.
Proof. exact (multi_agent_log sbatch shown turns code script num_folds experiments l). Qed.
Print Assumptions C108_multi_agent.

(** The jobs of the online experiments; every job that should make their folds ends with an error, whatever the experiment is. *)
Theorem C108_online_refuted sbatch shown turns code script num_folds experiments l : online_main sbatch shown turns code script num_folds experiments = Ok l ->
  exists folders jobs, l = folders ++ jobs /\
    attempts (map (fun _ j => j_script j = (code ++ "/folder_creation_for_parallel_execution.py")%string /\ folder_creation (j_arguments j) = Err RuntimeError) experiments) folders /\
    attempts (flat_map (online_wishes (code ++ "/" ++ script) num_folds) experiments) jobs.
Proof. exact (online_log sbatch shown turns code script num_folds experiments l). Qed.
Print Assumptions C108_online_refuted.

(** The job of the folds makes the two directories of every submitted job of the first five folds; it makes none for the others. *)
Theorem C108_directories (shuffle : nat -> list nat) (fifth : nat -> nat) : FoldSpec.shuffles shuffle ->
  forall (content : Type) (domain : string) (matching : FoldModel.dir content -> list string) (sample : list string -> nat -> list string), FoldSpec.samples sample ->
  forall (w : DfoldModel.dworld content) code script random e its f triplets load, configured e -> create_internal_iterations_list e = Ok its -> ex_versions e <> [] -> folder_job code random (e, its) f ->
  DfoldSpec.dready content domain matching w -> 5 <= FoldSpec.used (length (matching (DfoldModel.dw_files _ w))) (match ex_size e with Some n => n | None => 100 end) ->
  DfoldSpec.earlier_dsettings 5 (DfoldModel.dw_config _ w) -> load = false \/ DfoldModel.dw_config _ w = DfoldModel.DNoFile ->
  exists algorithms iterations size splits w' items, folder_creation (j_arguments f) = Ok (algorithms, iterations, size, splits) /\
    DfoldModel.create_distributed_k_fold shuffle fifth content domain matching sample splits false algorithms iterations triplets w size load false = Ok (w', None) /\
    incl items (matching (DfoldModel.dw_files _ w)) /\ NoDup items /\
    (forall fold version n j, fold < 5 -> In version (ex_versions e) -> In n its -> job_for script e fold version (Some n) j ->
       exists name test, numeric_runner (j_arguments j) = Ok (fold, version, n, name) /\ incl test items /\
         DfoldSpec.pair_for content (DfoldModel.dw_files _ w) domain w' name name (firstn n (DfoldSpec.rest_of items test)) test) /\
    (forall fold version n j, 5 <= fold -> In version (ex_versions e) -> job_for script e fold version (Some n) j ->
       exists name, numeric_runner (j_arguments j) = Ok (fold, version, n, name) /\ ~ In name (map fst (DfoldModel.dw_train _ w')) /\ ~ In name (map fst (DfoldModel.dw_test _ w'))).
Proof. exact (directories shuffle fifth). Qed.
Print Assumptions C108_directories.
