(** * Properties of collecting the results of online learning *)
From Verif Require Import SemiSpec EpisodeSpec OcolModel OcolSpec OcolProofs OcolTable OcolFinal Prelude PreludeProofs.
Open Scope string_scope. Open Scope list_scope. Open Scope nat_scope.

(** ** The files *)
(** Every series of calls of recorders, one per fold, leaves the files that are collected. *)
Theorem C100_recorded (wstate call : Type) (nm : call -> string) (M : nat) names alg : Forall plain_name names -> forall (series : list (nat * list (op wstate call))) recorders d runs, explored d alg runs -> NoDup (map fst runs ++ map fst series) ->
  Forall (fun x => Forall (legal wstate call nm names) (snd x)) series -> Forall2 (fun x r => run wstate call nm M names (snd x) = Ok r) series recorders ->
  explored (fold_left (fun d fr => export_statistics d alg (fst (fst fr)) (r_rows _ _ (snd fr))) (combine series recorders) d) alg (runs ++ map (fun x => (fst x, map snd (fst (episodes wstate call (snd x))))) series).
Proof. exact (recorded_files wstate call nm M names alg). Qed.
(** So do semi-online runs; there an episode is a success exactly if its goal was reached. *)
Theorem C100_semi : forall le unit fine fit hull schmidt rank svm limit fl dom rd min_episodes min_executions max_steps max_failed max_file problem_files,
  fair rd -> 0 < max_file -> Forall plain_name (dict_keys (d_actions dom)) -> forall solvers degree problems M, action_sets problems ->
  semi_run le unit fine fit hull schmidt rank svm limit fl dom rd min_episodes min_executions max_steps max_failed max_file problem_files (Some solvers) degree problems = Ok M ->
  forall d alg runs fold, explored d alg runs -> ~ In fold (map fst runs) -> exists es, length es = length problems /\ Forall (fun e => success e = e_goal e) es /\
    explored (export_statistics d alg fold (r_rows world call (se_rec M))) alg (runs ++ [(fold, es)]).
Proof. exact semi_files. Qed.

(** ** The collected episodes *)
(** All episodes of all runs are collected, file after file in the order of their names; only columns are added. *)
Theorem C100_unified d alg domain filename runs : explored d alg runs -> runs <> [] ->
  exists order u, in_name_order (statistics_file alg) runs order /\ export_unified_statistics_to_csv d filename domain alg = Ok (dict_set d (domain ++ "_" ++ alg ++ "_" ++ filename)%string u, u) /\
    collected_files d (statistics_file alg) collected_rows 0 order u.
Proof. exact (unified_spec d alg domain filename runs). Qed.
(** Without files nothing can be collected. *)
Theorem C100_no_files d alg domain filename : explored d alg [] -> export_unified_statistics_to_csv d filename domain alg = Err ValueError.
Proof. exact (no_runs d alg domain filename). Qed.
(** With at most ten folds, numbered from 0, the files come in the order of the folds. *)
Theorem C100_folds_partial d alg domain filename runs n : explored d alg runs -> 0 < n <= 10 -> Permutation (map fst runs) (seq 0 n) ->
  exists order u, Permutation runs order /\ map fst order = seq 0 n /\ export_unified_statistics_to_csv d filename domain alg = Ok (dict_set d (domain ++ "_" ++ alg ++ "_" ++ filename)%string u, u) /\
    collected_files d (statistics_file alg) collected_rows 0 order u.
Proof. exact (folds_right d alg domain filename runs n). Qed.
(** The label of an episode is its fold exactly if there are at most ten folds. *)
Theorem C100_labels d alg domain filename runs n d' u : explored d alg runs -> Permutation (map fst runs) (seq 0 n) -> (forall run, In run runs -> snd run <> []) ->
  export_unified_statistics_to_csv d filename domain alg = Ok (d', u) -> ((forall r, In r u -> dict_get r "fold" = dict_get r "fold_number") <-> n <= 10).
Proof. exact (labels_iff d alg domain filename runs n d' u). Qed.
(** The four categories of an episode add up to one, except when it is a success although the plan of the optimistic domain was not applicable. *)
Theorem C100_stack i e r r' : collected_row i e r r' -> stack r' = Some (if success e && String.eqb (e_optimistic e) "not_applicable" then 2 else 1).
Proof. exact (stack_height i e r r'). Qed.
(** The successes of the solvers are the successes. *)
Theorem C100_solver_column i e r r' : collected_row i e r r' -> dict_get r' "aggregated_success_solver" = dict_get r' "aggregated_success".
Proof. exact (solver_column i e r r'). Qed.

(** ** All algorithms *)
(** The table has a row per episode number and in it, for every algorithm, the share of successes among the runs that have this episode. *)
Theorem C100_table d algs domain output (runs : string -> list run_of) : algs <> [] -> NoDup algs -> ~ In "episode_number" algs ->
  (forall alg alg', In alg algs -> In alg' algs -> ~ is_statistics alg' (domain ++ "_" ++ alg ++ "_" ++ output)%string) ->
  (forall alg, In alg algs -> (domain ++ "_" ++ alg ++ "_" ++ output)%string <> "aggregated_success_by_algorithm.csv") -> (forall alg, In alg algs -> explored d alg (runs alg) /\ runs alg <> []) ->
  exists d' t, collect_results_for_all_algorithms d algs domain output = Ok d' /\ dict_get d' "aggregated_success_by_algorithm.csv" = Some t /\ success_table algs runs t /\
    (forall alg, In alg algs -> exists order u, in_name_order (statistics_file alg) (runs alg) order /\ dict_get d' (domain ++ "_" ++ alg ++ "_" ++ output)%string = Some u /\ collected_files d (statistics_file alg) collected_rows 0 order u) /\
    (forall k, k <> "aggregated_success_by_algorithm.csv" -> (forall alg, In alg algs -> k <> (domain ++ "_" ++ alg ++ "_" ++ output)%string) -> dict_get d' k = dict_get d k).
Proof. exact (table_spec d algs domain output runs). Qed.

(** ** Statistics of the evaluation *)
Theorem C100_semantic d alg domain domain' n (runs : list (nat * unit)) : files_of d (is_semantic alg) (semantic_name alg domain n) any_table runs -> runs <> [] ->
  exists order u, in_name_order (semantic_name alg domain n) runs order /\
    collect_sematic_performance_statistics d alg domain' = Ok (dict_set d (domain' ++ "_" ++ alg ++ "_combined_semantic_performance.csv")%string u) /\ collected_files d (semantic_name alg domain n) labelled_rows 0 order u /\
    forall m, Permutation (map fst runs) (seq 0 m) -> (map fst order = seq 0 m <-> m <= 10).
Proof. exact (semantic_spec d alg domain domain' n runs). Qed.
Theorem C100_solving d alg domain n (runs : list (nat * unit)) : files_of d (is_solving alg) (solving_name alg n) any_table runs -> runs <> [] ->
  exists order u, in_name_order (solving_name alg n) runs order /\
    collect_test_set_solving_statistics d alg domain = Ok (dict_set d (domain ++ "_" ++ alg ++ "_combined_test_set_solving_statistics.csv")%string u) /\ collected_files d (solving_name alg n) labelled_rows 0 order u /\
    forall m, Permutation (map fst runs) (seq 0 m) -> (map fst order = seq 0 m <-> m <= 10).
Proof. exact (solving_spec d alg domain n runs). Qed.
(** The script needs evaluation files of one algorithm, whatever the algorithms whose results are collected. *)
Theorem C100_main d algs domain output d1 : collect_results_for_all_algorithms d algs domain output = Ok d1 -> (forall x, In x (dict_keys d1) -> ~ is_semantic "noam_learning" x) -> collect_main d algs domain output = Err ValueError.
Proof. exact (main_files d algs domain output d1). Qed.

Print Assumptions C100_recorded. Print Assumptions C100_semi. Print Assumptions C100_unified. Print Assumptions C100_no_files. Print Assumptions C100_folds_partial. Print Assumptions C100_labels.
Print Assumptions C100_stack. Print Assumptions C100_solver_column. Print Assumptions C100_table. Print Assumptions C100_semantic. Print Assumptions C100_solving. Print Assumptions C100_main.
