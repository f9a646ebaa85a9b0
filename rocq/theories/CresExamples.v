(** * Cases that meet the hypotheses of CresProperties.v *)
From Coq Require Import QArith.
From Verif Require Import CluExamples CresModel CresSpec CresProofs Prelude PreludeProofs.
Open Scope string_scope. Open Scope list_scope. Open Scope nat_scope.

Definition all3 := mk_experiment [3; 15; 5] 15 (Some 10) None options0.
Definition its9 := [1; 2; 3; 4; 5; 6; 7; 8; 9].
Example all3_configured : configured all3 /\ NoDup (map fst (ex_options all3)) /\ (forall v, In v [3; 5; 15] -> In v (ex_versions all3)) /\ create_internal_iterations_list all3 = Ok its9.
Proof.
  split; [split; [intros k K; cbn in K |- *; tauto|]; split; [intros k K; cbn in K |- *; tauto|]; repeat (apply Forall_cons; [cbn; tauto|]); apply Forall_nil|].
  split; [cbn; repeat (apply NoDup_cons; [cbn; intuition discriminate|]); apply NoDup_nil|]. split; [intros v I; cbn in I |- *; tauto|reflexivity].
Qed.
Definition cjob := mk_job "/code/collect.py" [Arg "working_directory_path" "/data"; Arg "domain_file_name" "domain.pddl"; Arg "learning_algorithms" "3,15,5"; Arg "num_folds" "2"; Arg "internal_iterations" "1,2,3,4,5,6,7,8,9"] None.
Example collection_run : collection_main yes_sbatch "/code" "collect.py" 2 [all3] = Ok [cjob].
Proof. vm_compute. reflexivity. Qed.
Example cjob_ok : collection_job "/code/collect.py" 2 (all3, its9) cjob.
Proof. apply (collection_job_ok all3 2 its9); [discriminate|vm_compute; reflexivity]. Qed.
Definition submitted := match numeric_main yes_sbatch yes_shown 1 "/code" "run.py" 2 [all3] with Ok l => l | Err _ => [] end.
Example submitted_ok : numeric_main yes_sbatch yes_shown 1 "/code" "run.py" 2 [all3] = Ok submitted /\ length submitted = 55.
Proof. split; vm_compute; reflexivity. Qed.
(** The runs of the submitted jobs; every run reports one row. *)
Definition runs_of (j : job) : list subject :=
  match numeric_runner (j_arguments j) with
  | Ok (fold, version, n, _) => match algorithm_type version with Ok name => map (fun k => mk_subject k name fold (Some n)) [Solving; Actions; Numeric] | Err _ => [] end
  | Err _ => []
  end.
Definition all_runs := flat_map runs_of submitted.
Example all_ran : forall j, In j submitted -> ran all_runs j.
Proof.
  intros j I fold version n name sets E T k K. unfold all_runs. apply in_flat_map. exists j. split; [exact I|]. unfold runs_of. rewrite E, T. apply in_map_iff. exists k. split; [reflexivity|exact K].
Qed.
Definition r_show (s : string) := s.
Definition r_results (s : subject) : rows string :=
  match s_kind s with
  | Solving => [[("learning_algorithm", s_alg s); ("num_trajectories", decimal (match s_iteration s with Some n => n | None => 0 end))]]
  | _ => [[("learning_algorithm", s_alg s)]]
  end.
Example r_reports : reportable string r_results all_runs /\ reports_itself r_show r_results all_runs.
Proof.
  split.
  - intros s r _ X. unfold r_results in X. destruct s as [k a f i]. destruct k; cbn [s_kind] in X; destruct X as [<-|[]]; intros x X; cbn [map fst In] in X; repeat (destruct X as [<-|X]; [vm_compute; tauto|]); destruct X.
  - split; [intros s r _ K I; unfold r_results in I; rewrite K in I; destruct I as [<-|[]]; split; [exists (s_alg s)|do 2 eexists]; split; reflexivity|]. intros s _ K. unfold r_results. rewrite K. discriminate.
Qed.
(** One algorithm only *)
Definition one := mk_experiment [3] 15 (Some 10) None options0.
Example one_submitted : exists l, numeric_main yes_sbatch yes_shown 1 "/code" "run.py" 2 [one] = Ok l /\ length l = 19 /\ ~ In 5 (ex_versions one) /\ forall j, In j l -> ran (flat_map runs_of l) j.
Proof.
  eexists. split; [vm_compute; reflexivity|]. split; [reflexivity|]. split; [cbn; intuition discriminate|].
  intros j I fold version n name sets E T k K. apply in_flat_map. exists j. split; [exact I|]. unfold runs_of. rewrite E, T. apply in_map_iff. exists k. split; [reflexivity|exact K].
Qed.

(** The options of the configuration file that is shipped for the numeric experiments *)
Definition shipped := mk_experiment [3; 15] 15 (Some 10) None (options0 ++ [("solver_type", "3")]).
Example shipped_key : In "solver_type" (map fst (ex_options shipped)) /\ ~ In "solver_type" runner_options.
Proof. split; [cbn; tauto|]. cbn. intuition discriminate. Qed.
(** An experiment without its parallelization cannot be collected at all. *)
Example no_parallelization : collection_main yes_sbatch "/code" "collect.py" 2 [mk_experiment [14] 15 None None options0] = Err KeyError.
Proof. reflexivity. Qed.
