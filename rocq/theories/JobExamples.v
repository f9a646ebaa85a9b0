(** * Cases that meet the hypotheses of JobProperties.v *)
From Coq Require Import QArith.
From Verif Require Import CluExamples CresExamples CrossExamples JobModel JobSpec JobProofs JobFinal JobProperties CluProofs Prelude PreludeProofs.
Open Scope string_scope. Open Scope list_scope. Open Scope nat_scope.

(** A learner that remembers its number and the observations; a validator that tells what it was given. *)
Definition j_learn (v : nat) (d : string) (os : list string) : res (string * option learning_report) := Ok ((d ++ decimal v ++ String.concat "," os)%string, Some [("learning_time", "2.5")]).
Definition j_mine (train : files) : res (string * option learning_report) := Ok (("mined " ++ String.concat " " (dict_keys train))%string, Some [("learning_time", "7")]).
Definition j_row (alg text : string) (test : files) (used : list string) (time : string) : list (string * LstatModel.value) :=
  [("learning_algorithm", LstatModel.SText alg); ("num_trajectories", LstatModel.SText (decimal (length used))); ("learning_time", LstatModel.SText time); ("solver", LstatModel.SText (text ++ " on " ++ String.concat " " (map snd test)))].
Definition j_validate (alg : string) (train : files) (text : string) (test : files) (used : list string) (time : string) : res (list (string * LstatModel.value)) := Ok (j_row alg text test used time).
Definition j_init (d : files) : res (list string) := Ok (dict_keys d).
Definition j_mined_calc (train d : files) : res (list string) := Ok ("mined" :: dict_keys d).
Definition j_measure (alg : string) (c : list string) (t : string) (_ : nat) (_ : string) : res (rows LstatModel.value) := Ok [[("action_name", LstatModel.SText (alg ++ ": " ++ t ++ " on " ++ String.concat " " c))]].
Definition j_float (s : string) : res Q := if Prelude.eqb s "7" then Ok 7%Q else Ok (5 # 2)%Q.
Notation j_run_job abort := (run_job string string parse_partial_ex parse_observation_ex j_learn j_mine (fun d => d) (fun _ => "toy") (fun _ => the_model) (fun _ => [Single "move"]) j_validate (list string) j_init j_mined_calc j_measure listing
  j_float (fun _ => 0) (fun _ => 0) show_ex "toy" the_model (fun _ => the_model) "domain.pddl" abort).
Notation j_run_jobs abort := (run_jobs string string parse_partial_ex parse_observation_ex j_learn j_mine (fun d => d) (fun _ => "toy") (fun _ => the_model) (fun _ => [Single "move"]) j_validate (list string) j_init j_mined_calc j_measure listing
  j_float (fun _ => 0) (fun _ => 0) show_ex "toy" the_model (fun _ => the_model) "domain.pddl" abort).
Notation j_answered abort := (answered string string parse_partial_ex parse_observation_ex j_learn j_mine (fun d => d) j_validate (list string) j_init j_mined_calc j_measure listing j_float the_model (fun _ => the_model) "domain.pddl" abort).
Notation j_ready abort := (ready_job string string parse_partial_ex parse_observation_ex j_learn j_mine (fun d => d) (fun _ => the_model) j_validate (list string) j_init j_mined_calc j_measure listing j_float the_model (fun _ => the_model) "domain.pddl" abort).
Example j_names : validator_names string j_validate show_ex.
Proof. intros alg train text test used time row E. apply Ok_inj in E. subst row. split; [eexists|do 2 eexists]; split; reflexivity. Qed.

Definition train1 : files := [("domain.pddl", "D"); ("p1.pddl", "P1"); ("p1.trajectory", "T1"); ("p2.pddl", "P2"); ("p2.trajectory", "T2")].
Definition test1 : files := [("domain.pddl", "D"); ("p3.pddl", "P3")].
Definition eval1 : files := [("p3.pddl", "P3"); ("p3.trajectory", "T3")].
Definition ws1 : workspace := mk_ws [("fold_0_3_2", train1); ("fold_0_5_2", train1); ("fold_0_15_2", train1)] [("fold_0_3_2", test1); ("fold_0_5_2", test1); ("fold_0_15_2", test1)] [("fold_0", eval1)] [] [].
Definition the_job (version : nat) : job := mk_job "/code/run.py" (create_execution_arguments all3 0 version ++ [Arg "iteration_number" "2"]) None.
Definition answer3 : answer string string :=
  mk_answer string string ["P1T1"; "P2T2"] "D3P1T1,P2T2" [("learning_time", "2.5")] (5 # 2)%Q the_model
    [j_row "numeric_sam" "D3P1T1,P2T2" (dict_set test1 "domain.pddl" "D3P1T1,P2T2") ["P1T1"; "P2T2"] "2.5"] [[("action_name", LstatModel.SText "numeric_sam: D3P1T1,P2T2 on p3.pddl p3.trajectory")]].
Definition mined := "mined domain.pddl p1.pddl p1.trajectory p2.pddl p2.trajectory".
Definition answer5 : answer string string :=
  mk_answer string string ["P1T1"; "P2T2"] mined [("learning_time", "7")] 7%Q the_model
    [j_row "plan_miner" mined (dict_set test1 "domain.pddl" mined) ["P1T1"; "P2T2"] "7"] [[("action_name", LstatModel.SText ("plan_miner: " ++ mined ++ " on mined p3.pddl p3.trajectory"))]].
Definition report1 (fold version n : nat) : answer string string := if version =? 3 then answer3 else answer5.

Example runner3 : numeric_runner (j_arguments (the_job 3)) = Ok (0, 3, 2, "fold_0_3_2") /\ algorithm_type 3 = Ok "numeric_sam".
Proof. split; vm_compute; reflexivity. Qed.
Example runner5 : numeric_runner (j_arguments (the_job 5)) = Ok (0, 5, 2, "fold_0_5_2") /\ algorithm_type 5 = Ok "plan_miner".
Proof. split; vm_compute; reflexivity. Qed.
Lemma observed : Forall2 (fun x o => exists p t, dict_get train1 (x ++ ".pddl")%string = Some p /\ dict_get train1 (x ++ ".trajectory")%string = Some t /\ parse_observation_ex "D" p t = Ok o) (listing train1) ["P1T1"; "P2T2"].
Proof. change (listing train1) with ["p1"; "p2"]. constructor; [exists "P1", "T1"; auto|]. constructor; [exists "P2", "T2"; auto|]. constructor. Qed.
Example answered3 : j_answered false ws1 0 3 2 "numeric_sam" answer3.
Proof.
  exists train1, test1, eval1, "D", "D", ["p3.pddl"; "p3.trajectory"], "2.5". split; [reflexivity|]. split; [reflexivity|]. split; [left; reflexivity|]. split; [reflexivity|]. split; [reflexivity|]. split; [exact observed|].
  split; [split; [eexists; reflexivity|left; split; [left; reflexivity|]; split; [reflexivity|]; split; reflexivity]|]. split; [reflexivity|]. split; [reflexivity|]. split; [eexists; split; reflexivity|reflexivity].
Qed.
Example answered5 : j_answered false ws1 0 5 2 "plan_miner" answer5.
Proof.
  exists train1, test1, eval1, "D", "D", ["mined"; "p3.pddl"; "p3.trajectory"], "7". split; [reflexivity|]. split; [reflexivity|]. split; [left; reflexivity|]. split; [reflexivity|]. split; [reflexivity|]. split; [exact observed|].
  split; [split; [eexists; reflexivity|right; split; [reflexivity|]; split; [reflexivity|]; split; reflexivity]|]. split; [reflexivity|]. split; [reflexivity|]. split; [eexists; split; reflexivity|reflexivity].
Qed.
Lemma model_named : well_named the_model.
Proof. split; [constructor; [intros []|constructor]|]. intros n a [E|[]]. injection E as <- <-. reflexivity. Qed.
Example writable35 : writable string string (fun _ => the_model) answer3 /\ writable string string (fun _ => the_model) answer5.
Proof.
  split; (split; [exact model_named|]; split; [exact model_named|]; split; (apply Forall_cons; [|apply Forall_nil]); intros x X; cbn [dict_keys map fst In j_row] in X; repeat (destruct X as [<-|X]; [vm_compute; tauto|]); destruct X).
Qed.
(** The first job runs twice. *)
Definition three_jobs := [the_job 3; the_job 5; the_job 3].
Example ready3 : Forall (j_ready false ws1 report1) three_jobs.
Proof.
  assert (R3 : j_ready false ws1 report1 (the_job 3)) by (do 5 eexists; split; [exact (proj1 runner3)|]; split; [exact (proj2 runner3)|]; split; [exact answered3|exact (proj1 writable35)]).
  assert (R5 : j_ready false ws1 report1 (the_job 5)) by (do 5 eexists; split; [exact (proj1 runner5)|]; split; [exact (proj2 runner5)|]; split; [exact answered5|exact (proj2 writable35)]).
  repeat (apply Forall_cons; [assumption|]). apply Forall_nil.
Qed.
(** What they leave *)
Example three_left : map fst (ws_results (j_run_jobs false three_jobs ws1)) =
    ["numeric_sam_problem_solving_stats_fold_0_2_trajectories.csv"; "numeric_sam_toy_numeric_learning_performance_stats_fold_0_2.csv"; "numeric_sam_toy_action_stats_fold_0_2.csv";
     "plan_miner_problem_solving_stats_fold_0_2_trajectories.csv"; "plan_miner_toy_numeric_learning_performance_stats_fold_0_2.csv"; "plan_miner_toy_action_stats_fold_0_2.csv"] /\
  ws_backups (j_run_jobs false three_jobs ws1) =
    [("numeric_sam_fold_0_toy_2_trajectories_no_remove_policy.pddl", "D3P1T1,P2T2"); ("plan_miner_fold_0_toy_2_trajectories_no_remove_policy.pddl", mined)] /\
  dict_get (ws_test (j_run_jobs false three_jobs ws1)) "fold_0_3_2" = Some [("domain.pddl", "D3P1T1,P2T2"); ("p3.pddl", "P3")].
Proof. split; [|split]; vm_compute; reflexivity. Qed.
(** The third algorithm: the job is among those that are submitted, and all its files are there. *)
Example job15 : configured all3 /\ In 15 (ex_versions all3) /\ job_for "/code/run.py" all3 0 15 (Some 2) (the_job 15) /\ j_run_job false (j_arguments (the_job 15)) ws1 = (ws1, Some KeyError).
Proof. split; [exact (proj1 all3_configured)|]. split; [cbn; tauto|]. split; [exact (job_for_iteration "/code/run.py" all3 0 15 2)|]. vm_compute. reflexivity. Qed.
(** The collection after all three *)
Example no_collection : exists d, collect_with_figures (fun _ => None) (fun _ => 0%Q) ["numeric_sam"; "naive_nsam"; "plan_miner"] 1 [2] "toy" (ws_results (j_run_jobs false (the_job 15 :: three_jobs) ws1)) = (d, Some KeyError).
Proof. eexists. vm_compute. reflexivity. Qed.
Example no_figure : exists d e, collect_with_figures (fun _ => None) (fun _ => 0%Q) ["numeric_sam"; "plan_miner"] 1 [2] "toy" (ws_results (j_run_jobs false three_jobs ws1)) = (d, Some e) /\
  In "solving_combined_statistics.csv" (map fst d).
Proof. do 2 eexists. split; [vm_compute; reflexivity|]. vm_compute. tauto. Qed.
(** With ABORT_SOLVING no problem is solved; the report of the solver is empty. *)
Example aborted : option_map csv_lines (dict_get (ws_results (fst (j_run_job true (j_arguments (the_job 3)) ws1))) "numeric_sam_problem_solving_stats_fold_0_2_trajectories.csv") = Some [].
Proof. vm_compute. reflexivity. Qed.

(** The job of numeric_sam ends without an error, and the reference domain has actions. *)
Example C111_honest_case : the_model <> [] /\ exists ws', j_run_job false (j_arguments (the_job 3)) ws1 = (ws', None).
Proof. split; [discriminate|]. eexists. vm_compute. reflexivity. Qed.
