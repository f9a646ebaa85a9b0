(** * Properties of online exploration and solving *)
From Verif Require Import NoamSpec NoamFinal PreludeProofs.
Open Scope string_scope. Open Scope list_scope. Open Scope nat_scope.

(** ** C83 *)
Theorem C83_explores : forall le unit fine fit hull schmidt rank svm limit fl dom rd starvation max_failed max_file, fair rd ->
  forall k solvers degree ops M results, noam_run le unit fine fit hull schmidt rank svm limit fl dom rd starvation max_failed max_file k solvers degree ops = Ok (M, results) -> ground_sets ops ->
  forall k' E w total M' goal n, NoDup (en_actions E) -> explore unit fit hull schmidt dom rd starvation max_failed k' E M w total = Ok (M', (goal, n)) ->
  exists rs ws final, walk E w rs ws /\ r_traj world call (nm_rec M') = r_traj world call (nm_rec M) ++ all_steps (rs ++ final) /\
    fold_res (numeric_train_transition unit fit hull schmidt dom) (map as_component (learned_steps (rs ++ final))) (nm_learners M) = Ok (nm_learners M') /\
    length ws <= total /\ failures (all_steps (rs ++ final)) <= max_failed + 2 * length (en_actions E) /\
    if goal then final = [] /\ n = length ws /\ exists ws' w', ws = ws' ++ [w'] /\ en_goal E w' = Ok true /\ Forall (fun w => en_goal E w = Ok false) ws'
    else n = total /\ Forall (fun w => en_goal E w = Ok false) ws /\
      ((final = [] /\ (length ws = total \/ max_failed <= failures (all_steps rs) \/ forall c, In c (en_actions E) -> ~ NoDup (c_params c))) \/ exists r, final = [r] /\ dead_end E (last_state w ws) r).
Proof. exact explored. Qed.
Theorem C83_retries_end : forall le unit fine fit hull schmidt rank svm limit fl dom rd starvation max_failed max_file, fair rd ->
  forall k solvers degree ops M results, noam_run le unit fine fit hull schmidt rank svm limit fl dom rd starvation max_failed max_file k solvers degree ops = Ok (M, results) -> ground_sets ops ->
  forall k' E step w c ok w' frontier extra,
  retry unit fit hull schmidt dom rd starvation (length frontier + extra) k' E step M w (c, ok, w') frontier = retry unit fit hull schmidt dom rd starvation (length frontier) k' E step M w (c, ok, w') frontier.
Proof. exact fuel_enough. Qed.

(** ** C84 *)
Theorem C84_learns : forall le unit fine fit hull schmidt rank svm limit fl dom rd starvation max_failed max_file, fair rd ->
  forall k solvers degree ops M results, noam_run le unit fine fit hull schmidt rank svm limit fl dom rd starvation max_failed max_file k solvers degree ops = Ok (M, results) -> ground_sets ops ->
  exists tss, Forall2 learned_from ops tss /\ numeric_train le unit fit hull schmidt dom degree (concat tss) = Ok (nm_learners M) /\ results_fit ops results.
Proof. exact run_trained. Qed.
Theorem C84_safe_partial : forall le unit fine fit hull schmidt rank svm limit fl dom rd starvation max_failed max_file k solvers degree ops M results,
  fair rd -> noam_run le unit fine fit hull schmidt rank svm limit fl dom rd starvation max_failed max_file k solvers degree ops = Ok (M, results) -> ground_sets ops ->
  forall real, real_ops dom real ops -> exact_libraries unit fit hull schmidt -> real_numeric_actions dom degree real -> (exists j, fine = (unit * j)%positive) -> exact_regression unit fit ->
  forall tss, Forall2 learned_from ops tss -> numeric_train le unit fit hull schmidt dom degree (concat tss) = Ok (nm_learners M) -> online_input unit fit le dom degree (concat tss) ->
  forall model n a e r np, construct_safe_action_model unit fine fit rank fl dom (nm_learners M) = Ok model -> dict_get (d_actions dom) n = Some a -> dict_get model n = Some e -> real n = Some (r, np) ->
  of_action n (concat tss) <> [] -> safe_export dom r np e.
Proof. exact learned_safely. Qed.

(** ** C85 *)
Theorem C85_choice : forall unit fit hull schmidt dom rd starvation M w frontier M1 c rest, choose unit fit hull schmidt dom rd starvation M w frontier = Ok (M1, c, rest) ->
  (starving starvation M (c_name c) /\ Permutation (c :: rest) frontier) \/
  ((forall d, In d frontier -> ~ starving starvation M (c_name d)) /\ exists skipped, frontier = skipped ++ c :: rest /\
    Forall (fun d => is_informative unit fit hull schmidt dom M w d = Ok false) skipped /\ (is_informative unit fit hull schmidt dom M w c = Ok true \/ rest = [])).
Proof. exact choice. Qed.
(** Once enough actions were executed in all episodes, what was learned and the state do not matter any more. *)
Theorem C85_starvation_wins : forall le unit fine fit hull schmidt rank svm limit fl dom rd starvation max_failed max_file, fair rd ->
  forall k solvers degree ops M results, noam_run le unit fine fit hull schmidt rank svm limit fl dom rd starvation max_failed max_file k solvers degree ops = Ok (M, results) -> ground_sets ops ->
  forall b w frontier, (forall P total, In (op_solve P total) ops -> total <= b) -> starvation + b <= nm_global M ->
  (forall n, starving starvation M n) /\
  forall L F w', match choose unit fit hull schmidt dom rd starvation M w frontier, choose unit fit hull schmidt dom rd starvation (with_learners M L F) w' frontier with
    | Ok (_, c, rest), Ok (_, c', rest') => c' = c /\ rest' = rest | Err _, Err _ => True | _, _ => False end.
Proof. exact starvation_wins. Qed.

(** ** C86 *)
Theorem C86_solved : forall le unit fine fit hull schmidt rank svm limit fl dom rd starvation max_failed max_file, fair rd ->
  forall k solvers degree ops M results, noam_run le unit fine fit hull schmidt rank svm limit fl dom rd starvation max_failed max_file k solvers degree ops = Ok (M, results) -> ground_sets ops ->
  forall real, real_ops dom real ops -> forall tss, Forall2 learned_from ops tss -> numeric_train le unit fit hull schmidt dom degree (concat tss) = Ok (nm_learners M) ->
  exact_libraries unit fit hull schmidt -> online_input unit fit le dom degree (concat tss) -> real_numeric_actions dom degree real -> (exists j, fine = (unit * j)%positive) -> exact_regression unit fit ->
  forall model, construct_safe_action_model unit fine fit rank fl dom (nm_learners M) = Ok model ->
  forall P k' before sv after plan total, real_environment dom real (pr_env P) -> guarded dom (concat tss) -> uses_safe k' ->
  Forall (fun s : solver => is_ok (fst (s model P)) = false) before -> sv model P = (st_ok, plan) -> plan_solves dom model (pr_env P) (pr_init P) plan ->
  exists t w, plan_run (pr_env P) (pr_init P) plan t w true /\ length t = length plan /\ en_goal (pr_env P) w = Ok true /\
  let r := try_to_solve unit fine fit hull schmidt rank svm limit fl dom rd starvation max_failed max_file k' (Some (before ++ sv :: after)) P M total in
  (forall M' goal n, r = Ok (M', (goal, n)) -> goal = true /\ n = length plan) /\
  (online_input unit fit le dom degree (concat tss ++ [t]) -> (exists M', r = Ok (M', (true, length plan))) \/ (r = Err RuntimeError /\ hull_failure hull)).
Proof. exact plan_succeeds. Qed.

Print Assumptions C83_explores. Print Assumptions C83_retries_end. Print Assumptions C84_learns. Print Assumptions C84_safe_partial.
Print Assumptions C85_choice. Print Assumptions C85_starvation_wins. Print Assumptions C86_solved.
