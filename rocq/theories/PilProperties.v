(** * Property C102: one fold of online learning (and plans in semi-online learning for C99)

    Only theorems; every proof is a reference to a lemma.  Specification: PilSpec.v, SemiSpec.v, NoamSpec.v and OcolSpec.v. *)
From Verif Require Import NoamSpec SemiSpec OcolSpec PilModel PilSpec PilFinal.
Open Scope string_scope. Open Scope list_scope. Open Scope nat_scope.

(** ** C102 *)
(** Every problem file is tried once, in the order of the names; what is learned are exactly the lessons of these trials; one row per problem is
    written, to one file of the results. *)
Theorem C102_fold : forall le unit fine fit hull schmidt rank svm limit fl dom rd starvation min_episodes min_executions max_steps max_failed max_file solvers k prefix fold degree d out L out' t,
  fair rd -> Forall plain_name (dict_keys (d_actions dom)) -> NoDup (dict_keys d) -> action_sets_in d ->
  learn_model_online le unit fine fit hull schmidt rank svm limit fl dom rd starvation min_episodes min_executions max_steps max_failed max_file solvers (exploring k) prefix fold degree d out = Ok (L, out', t) ->
  exists problems ts tbl, problems_of d prefix problems /\ all_tried (safe_after le unit fine fit hull schmidt rank fl dom degree) (optimistic_after le unit fine fit hull schmidt rank svm limit fl dom degree) solvers max_steps max_failed k [] problems ts /\
    numeric_train le unit fit hull schmidt dom degree (concat (map tr_lesson ts)) = Ok L /\
    fold_table (dict_keys (d_actions dom)) (algorithm_name (exploring k)) fold (combine problems (map as_visit ts)) tbl /\ only_file out (statistics_file (algorithm_name (exploring k)) fold) tbl out' /\
    t = match problems with [] => None | _ => Some tbl end.
Proof. intros. eapply fold_spec; eassumption. Qed.
Print Assumptions C102_fold.
(** The same with the semi-online learner. *)
Theorem C102_semi : forall le unit fine fit hull schmidt rank svm limit fl dom rd starvation min_episodes min_executions max_steps max_failed max_file solvers prefix fold degree d out L out' t,
  fair rd -> Forall plain_name (dict_keys (d_actions dom)) -> 0 < max_file -> NoDup (dict_keys d) -> action_sets_in d ->
  learn_model_online le unit fine fit hull schmidt rank svm limit fl dom rd starvation min_episodes min_executions max_steps max_failed max_file solvers semi_online prefix fold degree d out = Ok (L, out', t) ->
  exists problems vs tbl, problems_of d prefix problems /\
    all_visited (safe_after le unit fine fit hull schmidt rank fl dom degree) (optimistic_after le unit fine fit hull schmidt rank svm limit fl dom degree) solvers (dict_keys (d_actions dom)) min_episodes min_executions max_steps max_failed max_file 0 [] [] [] problems vs /\
    numeric_train le unit fit hull schmidt dom degree (fst (lessons [] vs)) = Ok L /\
    fold_table (dict_keys (d_actions dom)) "semi_online" fold (combine problems vs) tbl /\ only_file out (statistics_file "semi_online" fold) tbl out' /\ t = None.
Proof. intros. eapply semi_spec; eassumption. Qed.
Print Assumptions C102_semi.
(** The domains that are evaluated: only two algorithms have them, and they are those of all lessons together. *)
Theorem C102_evaluated : forall le unit fine fit hull schmidt rank svm limit fl dom rd starvation min_episodes min_executions max_steps max_failed max_file solvers a prefix fold degree d out out' t domains,
  fair rd -> Forall plain_name (dict_keys (d_actions dom)) -> NoDup (dict_keys d) -> action_sets_in d ->
  pil_main le unit fine fit hull schmidt rank svm limit fl dom rd starvation min_episodes min_executions max_steps max_failed max_file solvers a prefix fold degree d out = Ok (out', t, domains) ->
  match domains with
  | Some (safe, optimistic) => exists k problems ts, a = exploring k /\ (k = noam_learner \/ k = goal_oriented) /\ problems_of d prefix problems /\
      all_tried (safe_after le unit fine fit hull schmidt rank fl dom degree) (optimistic_after le unit fine fit hull schmidt rank svm limit fl dom degree) solvers max_steps max_failed k [] problems ts /\
      safe_after le unit fine fit hull schmidt rank fl dom degree (concat (map tr_lesson ts)) safe /\ optimistic_after le unit fine fit hull schmidt rank svm limit fl dom degree (concat (map tr_lesson ts)) optimistic
  | None => a <> exploring noam_learner /\ a <> exploring goal_oriented
  end.
Proof. exact fold_evaluated. Qed.
Print Assumptions C102_evaluated.
(** The results stay as the collection of C100 needs them, whatever the algorithm; an episode counts as a success exactly if its goal was reached. *)
Theorem C102_collected : forall le unit fine fit hull schmidt rank svm limit fl dom rd starvation min_episodes min_executions max_steps max_failed max_file solvers a prefix fold degree d out L out' t runs,
  fair rd -> Forall plain_name (dict_keys (d_actions dom)) -> 0 < max_file -> NoDup (dict_keys d) -> action_sets_in d ->
  learn_model_online le unit fine fit hull schmidt rank svm limit fl dom rd starvation min_episodes min_executions max_steps max_failed max_file solvers a prefix fold degree d out = Ok (L, out', t) ->
  explored out (algorithm_name a) runs -> ~ In fold (map fst runs) ->
  exists names es, problem_files d prefix names /\ length es = length names /\ Forall (fun e => success e = e_goal e) es /\ explored out' (algorithm_name a) (runs ++ [(fold, es)]).
Proof. exact fold_collects. Qed.
Print Assumptions C102_collected.
(** Within the region of the observed states the safe domain is safe, and a plan that solves a problem in the safe domain of its time ends the trial: nothing is explored. *)
Theorem C102_safe_partial : forall le unit fine fit hull schmidt rank svm limit fl dom rd starvation min_episodes min_executions max_steps max_failed max_file solvers k prefix fold degree d out L out' t,
  fair rd -> Forall plain_name (dict_keys (d_actions dom)) -> NoDup (dict_keys d) -> action_sets_in d ->
  learn_model_online le unit fine fit hull schmidt rank svm limit fl dom rd starvation min_episodes min_executions max_steps max_failed max_file solvers (exploring k) prefix fold degree d out = Ok (L, out', t) ->
  exists problems ts, problems_of d prefix problems /\ all_tried (safe_after le unit fine fit hull schmidt rank fl dom degree) (optimistic_after le unit fine fit hull schmidt rank svm limit fl dom degree) solvers max_steps max_failed k [] problems ts /\
  numeric_train le unit fit hull schmidt dom degree (concat (map tr_lesson ts)) = Ok L /\
  forall real, real_dir dom real d -> exact_libraries unit fit hull schmidt -> real_numeric_actions dom degree real -> (exists j, fine = (unit * j)%positive) -> exact_regression unit fit ->
  (online_input unit fit le dom degree (concat (map tr_lesson ts)) ->
   forall model n a e r np, construct_safe_action_model unit fine fit rank fl dom L = Ok model -> dict_get (d_actions dom) n = Some a -> dict_get model n = Some e -> real n = Some (r, np) ->
   of_action n (concat (map tr_lesson ts)) <> [] -> safe_export dom r np e) /\
  (forall bp P ap bt tr at' model before sv after plan, problems = bp ++ P :: ap -> ts = bt ++ tr :: at' -> length bp = length bt -> tries_safe k = true ->
   let learned := concat (map tr_lesson bt) in online_input unit fit le dom degree learned -> guarded dom learned -> safe_after le unit fine fit hull schmidt rank fl dom degree learned model ->
   solvers = before ++ sv :: after -> Forall (refused model P) before -> sv model P = (st_ok, plan) -> plan_solves dom model (pr_env P) (pr_init P) plan ->
   by_plan tr /\ tr_safe_status tr = st_ok /\ tr_optimistic tr = None /\ exists trace w, tr_safe tr = Some trace /\ plan_run (pr_env P) (pr_init P) plan trace w true /\ length trace = length plan /\ en_goal (pr_env P) w = Ok true).
Proof. exact fold_safe. Qed.
Print Assumptions C102_safe_partial.
(** A problem file that cannot be read: there is no result at all. *)
Theorem C102_unreadable : forall le unit fine fit hull schmidt rank svm limit fl dom rd starvation min_episodes min_executions max_steps max_failed max_file solvers a prefix fold degree d out x e,
  fair rd -> Forall plain_name (dict_keys (d_actions dom)) -> 0 < max_file -> NoDup (dict_keys d) -> action_sets_in d -> dict_get d x = Some (Err e) -> is_problem prefix x ->
  exists e', learn_model_online le unit fine fit hull schmidt rank svm limit fl dom rd starvation min_episodes min_executions max_steps max_failed max_file solvers a prefix fold degree d out = Err e'.
Proof. intros. eapply unreadable; eassumption. Qed.
Print Assumptions C102_unreadable.
(** Numbered problems are tried in the order of their numbers only if there are at most ten. *)
Theorem C102_order : forall d prefix n problems,
  NoDup (dict_keys d) -> (forall x, In x (dict_keys d) /\ is_problem prefix x <-> exists i, i < n /\ x = numbered_file prefix i) -> problems_of d prefix problems ->
  (map pr_name problems = map (fun i => (prefix ++ decimal i)%string) (seq 0 n) <-> n <= 10).
Proof. exact numbered_order. Qed.
Print Assumptions C102_order.

(** ** C99 *)
(** A plan that solves a problem in the safe domain of its time ends the visit: nothing is explored. *)
Theorem C99_plan : forall le unit fine fit hull schmidt rank svm limit fl dom rd min_episodes min_executions max_steps max_failed max_file problem_files solvers degree problems M,
  fair rd -> 0 < max_file -> Forall plain_name (dict_keys (d_actions dom)) -> action_sets problems ->
  semi_run le unit fine fit hull schmidt rank svm limit fl dom rd min_episodes min_executions max_steps max_failed max_file problem_files (Some solvers) degree problems = Ok M ->
  exists vs, all_visited (safe_after le unit fine fit hull schmidt rank fl dom degree) (optimistic_after le unit fine fit hull schmidt rank svm limit fl dom degree) solvers (dict_keys (d_actions dom)) min_episodes min_executions max_steps max_failed max_file 0 [] [] [] problems vs /\
    EpisodeSpec.numbered (reported (dict_keys (d_actions dom))) 1 (combine problems vs) (r_rows world call (se_rec M)) /\
  forall real, real_problems dom real problems -> exact_libraries unit fit hull schmidt -> real_numeric_actions dom degree real -> (exists j, fine = (unit * j)%positive) -> exact_regression unit fit ->
  forall bp P ap bv v av model before sv after plan, problems = bp ++ P :: ap -> vs = bv ++ v :: av -> length bp = length bv -> vi_planned v = true ->
  let learned := fst (lessons [] bv) ++ snd (lessons [] bv) in online_input unit fit le dom degree learned -> guarded dom learned -> safe_after le unit fine fit hull schmidt rank fl dom degree learned model ->
  solvers = before ++ sv :: after -> Forall (refused model P) before -> sv model P = (st_ok, plan) -> plan_solves dom model (pr_env P) (pr_init P) plan ->
  solved v /\ vi_safe_status v = st_ok /\ vi_optimistic v = None /\ exists trace w, vi_safe v = Some trace /\ plan_run (pr_env P) (pr_init P) plan trace w true /\ length trace = length plan /\ en_goal (pr_env P) w = Ok true.
Proof. exact semi_plans. Qed.
Print Assumptions C99_plan.

(** ** C102 again *)
(** Every algorithm and every fold has its own file: a run leaves the tables of all other algorithms and folds as they are. *)
Theorem C102_own_file : forall le unit fine fit hull schmidt rank svm limit fl dom rd starvation min_episodes min_executions max_steps max_failed max_file solvers a prefix fold degree d out L out' t b g,
  learn_model_online le unit fine fit hull schmidt rank svm limit fl dom rd starvation min_episodes min_executions max_steps max_failed max_file solvers a prefix fold degree d out = Ok (L, out', t) ->
  (b, g) <> (a, fold) -> dict_get out' (statistics_file (algorithm_name b) g) = dict_get out (statistics_file (algorithm_name b) g).
Proof. exact fold_keeps. Qed.
Print Assumptions C102_own_file.
