(** * Properties of semi-online learning *)
From Verif Require Import SemiSpec SemiProofs SemiFinal NoamFinal.
Open Scope string_scope. Open Scope list_scope. Open Scope nat_scope.

(** ** C99 *)
(** Every problem is visited in order; what is learned are exactly the lessons of these visits; the waiting explorations are in files; every
    visit is reported. *)
Theorem C99_visits_partial : forall le unit fine fit hull schmidt rank svm limit fl dom rd min_episodes min_executions max_steps max_failed max_file problem_files,
  fair rd -> 0 < max_file -> Forall plain_name (dict_keys (d_actions dom)) -> forall solvers degree problems M, action_sets problems ->
  semi_run le unit fine fit hull schmidt rank svm limit fl dom rd min_episodes min_executions max_steps max_failed max_file problem_files (Some solvers) degree problems = Ok M ->
  exists vs, all_visited (safe_after le unit fine fit hull schmidt rank fl dom degree) (optimistic_after le unit fine fit hull schmidt rank svm limit fl dom degree) solvers (dict_keys (d_actions dom)) min_episodes min_executions max_steps max_failed max_file 0 [] [] [] problems vs /\
    numeric_train le unit fit hull schmidt dom degree (fst (lessons [] vs)) = Ok (se_learners M) /\
    se_queue M = map (f_name world call) (r_files world call (se_rec M)) /\ Forall2 holds_trace (r_files world call (se_rec M)) (snd (lessons [] vs)) /\
    numbered (reported (dict_keys (d_actions dom))) 1 (combine problems vs) (r_rows world call (se_rec M)).
Proof. intros. eapply run_spec; eassumption. Qed.
(** Within the region of the observed states the safe domain is safe. *)
Theorem C99_safe_partial : forall le unit fine fit hull schmidt rank svm limit fl dom rd min_episodes min_executions max_steps max_failed max_file problem_files solvers degree problems M,
  fair rd -> 0 < max_file -> Forall plain_name (dict_keys (d_actions dom)) -> action_sets problems ->
  semi_run le unit fine fit hull schmidt rank svm limit fl dom rd min_episodes min_executions max_steps max_failed max_file problem_files (Some solvers) degree problems = Ok M ->
  exists vs, all_visited (safe_after le unit fine fit hull schmidt rank fl dom degree) (optimistic_after le unit fine fit hull schmidt rank svm limit fl dom degree) solvers (dict_keys (d_actions dom)) min_episodes min_executions max_steps max_failed max_file 0 [] [] [] problems vs /\ numeric_train le unit fit hull schmidt dom degree (fst (lessons [] vs)) = Ok (se_learners M) /\
  forall real, real_problems dom real problems -> exact_libraries unit fit hull schmidt -> real_numeric_actions dom degree real -> (exists j, fine = (unit * j)%positive) -> exact_regression unit fit ->
  online_input unit fit le dom degree (fst (lessons [] vs)) ->
  forall model n a e r np, construct_safe_action_model unit fine fit rank fl dom (se_learners M) = Ok model -> dict_get (d_actions dom) n = Some a -> dict_get model n = Some e -> real n = Some (r, np) ->
  of_action n (fst (lessons [] vs)) <> [] -> safe_export dom r np e.
Proof. exact semi_safety. Qed.
(** The problem of a trajectory file is found again if its name consists of letters, digits and underscores. *)
Theorem C99_names : forall name episode part, word_name name ->
  search_name (trajectory_stem ("trajectory_" ++ name ++ "_episode_" ++ decimal episode ++ "_part_" ++ decimal part ++ ".trajectory")%string) = Some name.
Proof. exact name_found. Qed.
(** Once as many steps have failed in all explorations together as are allowed in one, nothing is explored any more. *)
Theorem C99_exhausted : forall le unit fine fit hull schmidt rank svm limit fl dom rd min_episodes min_executions max_steps max_failed max_file problem_files,
  fair rd -> 0 < max_file -> Forall plain_name (dict_keys (d_actions dom)) -> forall solvers degree problems M, action_sets problems ->
  semi_run le unit fine fit hull schmidt rank svm limit fl dom rd min_episodes min_executions max_steps max_failed max_file problem_files (Some solvers) degree problems = Ok M ->
  let rows := r_rows world call (se_rec M) in forall i, max_failed <= list_sum (map (number_in "sum_failed_actions") (firstn i rows)) ->
  forall r, In r (skipn i rows) -> dict_get r "num_steps_in_episode" = Some (CNat 0).
Proof. exact no_exploration. Qed.

Print Assumptions C99_visits_partial. Print Assumptions C99_safe_partial. Print Assumptions C99_names. Print Assumptions C99_exhausted.
