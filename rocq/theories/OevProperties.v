(** * Property C112: the evaluation of a fold of online learning

    Only theorems; every proof is a reference to a lemma.  Specification: OevSpec.v. *)
From Verif Require Import NoamSpec OevModel OevSpec OevFinal Prelude PreludeProofs.
Open Scope string_scope. Open Scope list_scope. Open Scope nat_scope.

Section Evaluation.
Variables (data : Type) (init_calculator : texts -> res data).
Variable measure : calculator -> string -> data -> string -> nat -> string -> res table.
Variable validate : string -> texts -> res row.
Variables (partial_name title prefix : string).
Notation evaluate := (evaluate data init_calculator measure validate partial_name title prefix).
Notation tools_answer := (tools_answer data init_calculator measure validate).

(** Both domains are measured and tried on the test set, the second without plans of the first; both files of results say so, and nothing else changes. *)
Theorem C112_evaluation alg fold n m safe optimistic train test evaluation out rows rows' stats stats' : alg = "noam_learning" \/ alg = "goal_oriented_explorer" -> NoDup (dict_keys train) ->
  apart prefix partial_name -> count_of (is_problem prefix) (dict_keys train) n -> count_of (is_trajectory prefix) (dict_keys train) m -> tools_answer alg n safe optimistic test evaluation rows rows' stats stats' ->
  exists train' test' out', evaluate alg fold safe optimistic train test evaluation out = (train', test', out', None) /\ both_domains partial_name safe optimistic train train' /\
    evaluation_done title prefix alg fold n m train test rows rows' stats stats' out test' out'.
Proof. exact (evaluation_kept data init_calculator measure validate partial_name title prefix alg fold n m safe optimistic train test evaluation out rows rows' stats stats'). Qed.

(** The other way round: an evaluation without an error had an answer from every tool for each of both domains. *)
Theorem C112_honest alg fold n safe optimistic train test evaluation out train' test' out' : alg = "noam_learning" \/ alg = "goal_oriented_explorer" -> NoDup (dict_keys train) -> apart prefix partial_name -> count_of (is_problem prefix) (dict_keys train) n ->
  evaluate alg fold safe optimistic train test evaluation out = (train', test', out', None) ->
  evaluated_fold data init_calculator measure validate title alg fold n safe optimistic test evaluation out'.
Proof. exact (evaluate_honest data init_calculator measure validate partial_name title prefix alg fold n safe optimistic train test evaluation out train' test' out'). Qed.

(** Whatever the tools do: the learned domains are in the train directory, the test directory loses at most plans, and at most the two files of the fold change. *)
Theorem C112_own_files alg fold safe optimistic train test evaluation out train' test' out' e : alg = "noam_learning" \/ alg = "goal_oriented_explorer" -> evaluate alg fold safe optimistic train test evaluation out = (train', test', out', e) ->
  both_domains partial_name safe optimistic train train' /\ (test' = test \/ cleared test test') /\ exists n, others_kept out out' [measures_name alg title fold n; rates_name alg fold n].
Proof. exact (evaluate_frame data init_calculator measure validate partial_name title prefix alg fold safe optimistic train test evaluation out train' test' out' e). Qed.

(** The reported number of triplets is not that of the trajectories: with two trajectories that have any it is too small, and for trajectories as the project writes them it is zero. *)
Theorem C112_triplets_refuted alg fold n m safe optimistic train test evaluation out rows rows' stats stats' : alg = "noam_learning" \/ alg = "goal_oriented_explorer" -> NoDup (dict_keys train) ->
  apart prefix partial_name -> count_of (is_problem prefix) (dict_keys train) n -> count_of (is_trajectory prefix) (dict_keys train) m -> tools_answer alg n safe optimistic test evaluation rows rows' stats stats' ->
  exists train' test' out' r r' k, evaluate alg fold safe optimistic train test evaluation out = (train', test', out', None) /\
    dict_get out' (rates_name alg fold n) = Some [r; r'] /\ dict_get r "num_trajectory_triplets" = Some (CNat k) /\ dict_get r' "num_trajectory_triplets" = Some (CNat k) /\
    (forall counts x y kx ky, all_triplets prefix train counts -> In (x, kx) counts -> In (y, ky) counts -> x <> y -> 0 < kx -> 0 < ky -> k < list_sum (map snd counts)) /\
    ((forall x text, is_trajectory prefix x -> dict_get train x = Some text -> project_format text) -> k = 0).
Proof. exact (triplets_wrong data init_calculator measure validate partial_name title prefix alg fold n m safe optimistic train test evaluation out rows rows' stats stats'). Qed.
End Evaluation.

Section Folds.
Variable le : text -> text -> bool.
Variables unit fine : positive.
Variable fit : list (list Q) -> list Q -> list Q * Q * bool.
Variable hull : list (list Q) -> option (list (list Q) * list Q).
Variable schmidt : list (list Q) -> list (list Q) -> list (list Q).
Variable rank : list (list Q) -> nat.
Variable svm : list (list Q * bool) -> list Q * Q.
Variable limit : nat.
Variable flatten : bool.
Variable dom : domain.
Variable rd : random.
Variables starvation min_episodes min_executions max_steps max_failed max_file : nat.
Variable solvers : list solver.
Variables (data : Type) (init_calculator : texts -> res data).
Variable measure : calculator -> string -> data -> string -> nat -> string -> res table.
Variable validate : string -> texts -> res row.
Variables (partial_name title prefix : string).
Variable to_pddl : list (string * exported) -> string.
Notation pil_scripts := (pil_scripts le unit fine fit hull schmidt rank svm limit flatten dom rd starvation min_episodes min_executions max_steps max_failed max_file solvers data init_calculator measure validate partial_name title prefix to_pddl).
Notation pil_script := (pil_script le unit fine fit hull schmidt rank svm limit flatten dom rd starvation min_episodes min_executions max_steps max_failed max_file solvers data init_calculator measure validate partial_name title prefix to_pddl).
Notation alg := "noam_learning".

(** A script that ends without an error has tried every problem, and has evaluated the safe and the optimistic domain of all lessons together. *)
Theorem C112_script k n degree f out out' : k = noam_learner \/ k = goal_oriented -> fair rd -> Forall plain_name (dict_keys (d_actions dom)) -> apart prefix partial_name -> fold_ready prefix n f ->
  pil_script (exploring k) degree f out = (out', None) ->
  exists problems ts safe optimistic, problems_of (fi_problems f) prefix problems /\
    all_tried (safe_after le unit fine fit hull schmidt rank flatten dom degree) (optimistic_after le unit fine fit hull schmidt rank svm limit flatten dom degree) solvers max_steps max_failed k [] problems ts /\
    safe_after le unit fine fit hull schmidt rank flatten dom degree (concat (map tr_lesson ts)) safe /\ optimistic_after le unit fine fit hull schmidt rank svm limit flatten dom degree (concat (map tr_lesson ts)) optimistic /\
    evaluated_fold data init_calculator measure validate title (algorithm_name (exploring k)) (fi_fold f) (n (fi_fold f)) (to_pddl safe) (to_pddl optimistic) (fi_test f) (fi_evaluation f) out'.
Proof. exact (script_evaluates le unit fine fit hull schmidt rank svm limit flatten dom rd starvation min_episodes min_executions max_steps max_failed max_file solvers data init_calculator measure validate partial_name title prefix to_pddl k n degree f out out'). Qed.
(** The scripts of any number of folds, none with an error, leave exactly the files that are collected: per fold a row for every problem, the measures, and a row for each of both domains. *)
Theorem C112_files n degree fs out : fair rd -> Forall plain_name (dict_keys (d_actions dom)) -> 0 < max_file -> apart prefix partial_name -> harmless_title title -> NoDup (map fi_fold fs) -> Forall (fold_ready prefix n) fs ->
  pil_scripts (exploring noam_learner) degree fs [] = Some out ->
  (exists runs, explored out alg runs /\ Forall2 (run_of_fold prefix) fs runs) /\
  files_of out (is_semantic alg) (semantic_name alg title n) any_table (folds_of fs) /\ files_of out (is_solving alg) (solving_name alg n) two_rows (folds_of fs).
Proof. exact (scripts_files le unit fine fit hull schmidt rank svm limit flatten dom rd starvation min_episodes min_executions max_steps max_failed max_file solvers data init_calculator measure validate partial_name title prefix to_pddl n degree fs out). Qed.
(** So all three collections of noam_learning succeed and contain all folds. *)
Theorem C112_collected n degree fs out domain' filename : fair rd -> Forall plain_name (dict_keys (d_actions dom)) -> 0 < max_file -> apart prefix partial_name -> harmless_title title -> NoDup (map fi_fold fs) -> fs <> [] -> Forall (fold_ready prefix n) fs ->
  pil_scripts (exploring noam_learner) degree fs [] = Some out ->
  (exists runs order u, Forall2 (run_of_fold prefix) fs runs /\ in_name_order (statistics_file alg) runs order /\ export_unified_statistics_to_csv out filename domain' alg = Ok (dict_set out (domain' ++ "_" ++ alg ++ "_" ++ filename)%string u, u) /\ collected_files out (statistics_file alg) collected_rows 0 order u) /\
  (exists order u, in_name_order (semantic_name alg title n) (folds_of fs) order /\ collect_sematic_performance_statistics out alg domain' = Ok (dict_set out (domain' ++ "_" ++ alg ++ "_combined_semantic_performance.csv")%string u) /\ collected_files out (semantic_name alg title n) labelled_rows 0 order u) /\
  (exists order u, in_name_order (solving_name alg n) (folds_of fs) order /\ collect_test_set_solving_statistics out alg domain' = Ok (dict_set out (domain' ++ "_" ++ alg ++ "_combined_test_set_solving_statistics.csv")%string u) /\ collected_files out (solving_name alg n) labelled_rows 0 order u).
Proof. exact (scripts_collected le unit fine fit hull schmidt rank svm limit flatten dom rd starvation min_episodes min_executions max_steps max_failed max_file solvers data init_calculator measure validate partial_name title prefix to_pddl n degree fs out domain' filename). Qed.
(** The measures of the other algorithm that is evaluated are never found by the collection. *)
Theorem C112_goal_oriented_refuted n degree fs out domain' : Forall (fold_ready prefix n) fs -> apart prefix partial_name -> plain_title title ->
  pil_scripts (exploring goal_oriented) degree fs [] = Some out -> collect_sematic_performance_statistics out "goal_oriented_explorer" domain' = Err ValueError.
Proof. exact (goal_oriented_lost le unit fine fit hull schmidt rank svm limit flatten dom rd starvation min_episodes min_executions max_steps max_failed max_file solvers data init_calculator measure validate partial_name title prefix to_pddl n degree fs out domain'). Qed.
End Folds.
Print Assumptions C112_evaluation.
Print Assumptions C112_honest.
Print Assumptions C112_own_files.
Print Assumptions C112_triplets_refuted.
Print Assumptions C112_script.
Print Assumptions C112_files.
Print Assumptions C112_collected.
Print Assumptions C112_goal_oriented_refuted.
