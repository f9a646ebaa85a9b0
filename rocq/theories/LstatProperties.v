(** * Properties C93, C94: learning statistics and collected results

    Only theorems; every proof is a reference to a lemma.  Specifications: LstatSpec.v, CollectSpec.v. *)
From Verif Require Import LstatModel LstatSpec CollectModel CollectSpec.
From Verif Require Import LstatProofs CollectProofs CollectFinal.
Open Scope string_scope. Open Scope list_scope. Open Scope nat_scope.

(** For every sequence of additions, clearings and exports: nothing raises; each addition gives one row for each action of the
    reference domain, in order, with the right counts and scores; each row is either in the current statistics or in the merged
    ones, exactly once and in order; the exported file holds the rows since the last clearing, the file of all folds those before
    it, and the file of numeric statistics is always empty. *)
Theorem C93_statistics to_float pb_literals pb_functions algorithm domain_name model show os d :
  well_named model -> Forall (sound to_float) os -> exists m d' earlier current,
  run_operations to_float pb_literals pb_functions algorithm domain_name model show (new_manager, d) os = ((m, d'), None) /\
  Forall2 (rows_of pb_literals pb_functions algorithm domain_name model to_float) (fst (history os)) earlier /\
  Forall2 (rows_of pb_literals pb_functions algorithm domain_name model to_float) (snd (history os)) current /\
  m_merged_action m = concat earlier /\ m_action m = concat current /\
  (forall f i, exists after, run_operation to_float pb_literals pb_functions algorithm domain_name model show (m, d') (Export f i) = ((m, after), None) /\
     file_added (algorithm ++ "_" ++ domain_name ++ "_action_stats_fold_" ++ decimal f ++ match i with Some n => "_" ++ decimal n | None => "" end ++ ".csv")%string
       (mk_csv LEARNED_ACTIONS_STATS_COLUMNS (map (line_of show LEARNED_ACTIONS_STATS_COLUMNS) (concat current))) d' after) /\
  (exists after, run_operation to_float pb_literals pb_functions algorithm domain_name model show (m, d') ExportAll = ((m, after), None) /\
     file_added "all_folds_action_learning_stats.csv"
       (mk_csv LEARNED_ACTIONS_STATS_COLUMNS (map (line_of show LEARNED_ACTIONS_STATS_COLUMNS) (concat earlier))) d' after) /\
  (exists after, run_operation to_float pb_literals pb_functions algorithm domain_name model show (m, d') WriteJoint = ((m, after), None) /\
     file_added (algorithm ++ "_all_folds_numeric_learning_stats.csv")%string (mk_csv LEARNED_ACTIONS_STATS_COLUMNS []) d' after).
Proof. intros W; exact (history_ok to_float pb_literals pb_functions algorithm domain_name model W show os d). Qed.
Print Assumptions C93_statistics.

(** The report is optional, but without it the addition raises and adds nothing. *)
Theorem C93_no_report_refuted to_float pb_literals pb_functions algorithm domain_name model used learned policy m : model <> [] ->
  snd (add_to_action_stats to_float pb_literals pb_functions algorithm domain_name model used learned None policy m) = Some TypeError /\
  fst (add_to_action_stats to_float pb_literals pb_functions algorithm domain_name model used learned None policy m) = m.
Proof. exact (no_report_raises to_float pb_literals pb_functions algorithm domain_name model used learned policy m). Qed.
Print Assumptions C93_no_report_refuted.

(** Runs in any order, also repeated, for any algorithms, folds and iterations; when there is a run for everything that is collected,
    the collected file has exactly the rows of those runs with the number of their fold, ordered by fold, iteration and algorithm. *)
Theorem C94_collected V show domain results algorithms num_folds iterations exclude ss d k :
  let js := jobs num_folds iterations (kept algorithms (if can_exclude k then exclude else None)) in
  reportable V results ss -> (forall j, In j js -> In (subject_of k true j) ss) ->
  exists d1 d2, perform_all V show domain results ss d = (d1, None) /\ collecting algorithms num_folds iterations domain exclude k false d1 = (d2, None) /\
    file_added (collected_name k ++ ".csv")%string (collected V show results k true js) d1 d2.
Proof. intros js R C; exact (collected_ok V show domain results algorithms num_folds iterations exclude ss d k false R (fun _ => eq_refl) C). Qed.
Print Assumptions C94_collected.

(** No run is collected twice. *)
Theorem C94_each_run_once k num_folds iterations algorithms : NoDup iterations -> NoDup algorithms ->
  NoDup (map (subject_of k true) (jobs num_folds iterations algorithms)).
Proof. exact (subjects_NoDup k num_folds iterations algorithms). Qed.
Print Assumptions C94_each_run_once.

(** When one of the runs is missing, collecting raises and no file changes. *)
Theorem C94_missing_run V show domain results algorithms num_folds iterations exclude ss k j :
  reportable V results ss -> In j (jobs num_folds iterations (kept algorithms (if can_exclude k then exclude else None))) -> ~ In (subject_of k true j) ss ->
  exists d1, perform_all V show domain results ss [] = (d1, None) /\ collecting algorithms num_folds iterations domain exclude k false d1 = (d1, Some KeyError).
Proof. intros R; exact (missing_raises V show domain results algorithms num_folds iterations exclude ss k false j R (fun _ => eq_refl)). Qed.
Print Assumptions C94_missing_run.

(** The collection of the numeric experiments: three files, everything else unchanged. *)
Theorem C94_numeric_collection V show domain results algorithms num_folds iterations ss d : reportable V results ss ->
  (forall k j, In k [Solving; Actions; Numeric] -> In j (jobs num_folds iterations algorithms) -> In (subject_of k true j) ss) ->
  exists d1 d2, perform_all V show domain results ss d = (d1, None) /\ collect_numeric_statistics algorithms num_folds iterations domain d1 = (d2, None) /\
    (forall k, In k [Solving; Actions; Numeric] -> dict_get d2 (collected_name k ++ ".csv")%string = Some (collected V show results k true (jobs num_folds iterations algorithms))) /\
    (forall name, ~ In name (map (fun k => collected_name k ++ ".csv")%string [Solving; Actions; Numeric]) -> dict_get d2 name = dict_get d1 name).
Proof. exact (numeric_whole V show domain results algorithms num_folds iterations ss d). Qed.
Print Assumptions C94_numeric_collection.

(** With triplets the runs have no iteration, and the rows of each are collected once for every iteration. *)
Theorem C94_triplets_repeated V show domain results algorithms num_folds iterations exclude ss d k : k <> Semantic ->
  let js := jobs num_folds iterations (kept algorithms (if can_exclude k then exclude else None)) in
  reportable V results ss -> (forall j, In j js -> In (subject_of k false j) ss) ->
  exists d1 d2, perform_all V show domain results ss d = (d1, None) /\ collecting algorithms num_folds iterations domain exclude k true d1 = (d2, None) /\
    file_added (collected_name k ++ "_with_triplets" ++ ".csv")%string (collected V show results k false js) d1 d2.
Proof. intros NS js R C; exact (collected_ok V show domain results algorithms num_folds iterations exclude ss d k true R (fun E => False_ind _ (NS E)) C). Qed.
Print Assumptions C94_triplets_repeated.

(** Semantic statistics with triplets are never found, whatever the runs exported. *)
Theorem C94_semantic_triplets_refuted V show domain results algorithms num_folds iterations exclude ss j : reportable V results ss ->
  (forall s, In s ss -> count_digits (s_alg s) = 0) -> (forall a, In a algorithms -> count_digits a = 0) ->
  In j (jobs num_folds iterations (kept algorithms exclude)) ->
  exists d1, perform_all V show domain results ss [] = (d1, None) /\ collecting algorithms num_folds iterations domain exclude Semantic true d1 = (d1, Some KeyError).
Proof.
  intros R DS DA J; destruct (semantic_triplets_never V show domain results algorithms num_folds iterations exclude ss j R DS DA J) as (d1 & E & F & _).
  exact (ex_intro _ d1 (conj E F)).
Qed.
Print Assumptions C94_semantic_triplets_refuted.

(** So the collection of the multi-agent experiments always raises. *)
Theorem C94_multi_agent_refuted V show domain results algorithms num_folds iterations ss : reportable V results ss ->
  (forall s, In s ss -> count_digits (s_alg s) = 0) -> (forall a, In a algorithms -> count_digits a = 0) ->
  0 < num_folds -> iterations <> [] -> (exists a, In a algorithms /\ a <> "ma_sam_plus") ->
  exists d1 d2 e, perform_all V show domain results ss [] = (d1, None) /\ collect_multi_agent_statistics algorithms num_folds iterations domain d1 = (d2, Some e).
Proof. exact (multi_agent_never V show domain results algorithms num_folds iterations ss). Qed.
Print Assumptions C94_multi_agent_refuted.
