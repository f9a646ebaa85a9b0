(** * What online exploration and solving should say *)
From Verif Require Export NoamModel OnumSpec.
Open Scope string_scope. Open Scope list_scope. Open Scope nat_scope.

(** ** Executions in an environment *)
Definition episode_step := EpisodeModel.step world call.
Definition es_prev (s : episode_step) : world := EpisodeModel.s_prev world call s.
Definition es_call (s : episode_step) : call := EpisodeModel.s_call world call s.
Definition es_next (s : episode_step) : world := EpisodeModel.s_next world call s.
Definition es_ok (s : episode_step) : bool := EpisodeModel.s_ok world call s.
(** The environment really gave this outcome: the new state, or a refusal that leaves the state as it was. *)
Definition real_outcome (E : environment) (w : world) (c : call) (w' : world) (ok : bool) : Prop :=
  In (c_name c) (en_names E) /\ if ok then en_apply E c w = Ok w' else en_apply E c w = Err ValueError /\ w' = w.
Definition happened (E : environment) (s : episode_step) : Prop := real_outcome E (es_prev s) (es_call s) (es_next s) (es_ok s).
Definition component_happened (E : environment) (cp : ncomponent) : Prop :=
  real_outcome E (cp_prev (nc_comp cp), nc_prev cp) (cp_call (nc_comp cp)) (cp_next (nc_comp cp), nc_next cp) (cp_ok (nc_comp cp)).
Definition as_component (s : episode_step) : ncomponent := transition (es_prev s) (es_call s) (es_next s) (es_ok s).
(** One step of an exploration: the actions tried with learning, and after they all failed those tried without.  All were tried in [w]
    and only the last can have succeeded. *)
Record round := mk_round { rn_tried : list episode_step; rn_fallback : list episode_step }.
Definition round_steps (r : round) : list episode_step := rn_tried r ++ rn_fallback r.
Definition attempt_at (E : environment) (w : world) (s : episode_step) : Prop :=
  es_prev s = w /\ happened E s /\ In (es_call s) (en_actions E) /\ NoDup (c_params (es_call s)).
Definition moves (E : environment) (w : world) (r : round) (w' : world) : Prop :=
  Forall (attempt_at E w) (round_steps r) /\ rn_tried r <> [] /\
  exists failed last, round_steps r = failed ++ [last] /\ Forall (fun s => es_ok s = false) failed /\ es_ok last = true /\ es_next last = w'.
(** No action could be executed. *)
Definition dead_end (E : environment) (w : world) (r : round) : Prop :=
  Forall (attempt_at E w) (round_steps r) /\ rn_tried r <> [] /\ Forall (fun s => es_ok s = false) (round_steps r) /\
  forall c, In c (en_actions E) -> NoDup (c_params c) -> In c (map es_call (rn_fallback r)).
(** Successful rounds one after the other; [ws] are the states that were reached. *)
Inductive walk (E : environment) : world -> list round -> list world -> Prop :=
| walk_nil w : walk E w [] []
| walk_step w r w' rs ws : moves E w r w' -> walk E w' rs ws -> walk E w (r :: rs) (w' :: ws).
Definition last_state (w : world) (ws : list world) : world := last ws w.
Definition all_steps (rs : list round) : list episode_step := flat_map round_steps rs.
Definition learned_steps (rs : list round) : list episode_step := flat_map rn_tried rs.
(** The failed executions of a list of steps. *)
Definition failures (l : list episode_step) : nat := length (filter (fun s => negb (es_ok s)) l).

(** Executing a plan until it ends or an action is refused. *)
Inductive plan_run (E : environment) : world -> list call -> list ncomponent -> world -> bool -> Prop :=
| plan_done w : plan_run E w [] [] w true
| plan_go w c w' plan t w'' b : real_outcome E w c w' true -> plan_run E w' plan t w'' b -> plan_run E w (c :: plan) (transition w c w' true :: t) w'' b
| plan_stop w c plan : real_outcome E w c w false -> plan_run E w (c :: plan) [transition w c w false] w false.
(** What an attempt to solve a problem learns from: the executed plans of at most two models and one exploration. *)
Definition plan_trace (P : problem) (t : list ncomponent) : Prop := exists plan w b, plan_run (pr_env P) (pr_init P) plan t w b.
(** An exploration starts in the initial state or where the execution of a plan ended. *)
Definition starts_at (P : problem) (w : world) : Prop := exists plan t b, plan_run (pr_env P) (pr_init P) plan t w b.
Definition exploration_trace (P : problem) (t : list ncomponent) : Prop :=
  exists w rs ws final, starts_at P w /\ walk (pr_env P) w rs ws /\ (final = [] \/ exists r, final = [r] /\ dead_end (pr_env P) (last_state w ws) r) /\ t = map as_component (learned_steps (rs ++ final)).
Definition learned_from (o : noam_op) (ts : list (list ncomponent)) : Prop :=
  match o with
  | op_train t => ts = [t]
  | op_solve P _ => exists plans explored, ts = plans ++ explored /\ length plans <= 2 /\ Forall (plan_trace P) plans /\ length explored <= 1 /\ Forall (exploration_trace P) explored
  end.
(** The goal was reached by a plan of [n] actions or by exploring for [n] successful steps, and not before. *)
Definition reached_in (P : problem) (n : nat) : Prop :=
  (exists plan t w b, plan_run (pr_env P) (pr_init P) plan t w b /\ n = length t /\ en_goal (pr_env P) w = Ok true) \/
  (exists w rs ws w', starts_at P w /\ walk (pr_env P) w rs (ws ++ [w']) /\ n = length (ws ++ [w']) /\ en_goal (pr_env P) w' = Ok true /\ Forall (fun w => en_goal (pr_env P) w = Ok false) ws).

(** The results: [true] only if the goal was reached, [false] with the number of allowed steps. *)
Definition outcome (P : problem) (total : nat) (goal : bool) (n : nat) : Prop := if goal then reached_in P n else n = total.
Definition attempts (ops : list noam_op) : list (problem * nat) := flat_map (fun o => match o with op_solve P total => [(P, total)] | op_train _ => [] end) ops.
Definition results_fit (ops : list noam_op) (rs : list (bool * nat)) : Prop := Forall2 (fun p r => outcome (fst p) (snd p) (fst r) (snd r)) (attempts ops) rs.

(** ** Random choices *)
(** A shuffle is a permutation; a choice without replacement takes different positions of the list. *)
Record fair (rd : random) : Prop :=
  { fa_shuffle : forall i l, Permutation (rd_shuffle rd i l) l;
    fa_choice : forall i l ps k l', rd_choice rd i l ps k = Ok l' -> length l' = k /\ exists rest, Permutation (l' ++ rest) l }.

(** ** Runs *)
(** The ground actions of each problem are a set. *)
Definition ground_sets (ops : list noam_op) : Prop := forall P total, In (op_solve P total) ops -> NoDup (en_actions (pr_env P)).
(** An action was never executed, or not in the last steps. *)
Definition starving (starvation : nat) (M : noam) (n : string) : Prop := forall k, dict_get (nm_last M) n = Some k -> k + starvation <= nm_global M.

(** ** Plans *)
(** [w1] is what the exported action predicts for the state [w]: its facts, a value for each term that the action can mention, and the old
    values for all others. *)
Definition predicted (dom : domain) (sig : signature) (e : exported) (sg : assignment) (w w1 : world) : Prop :=
  (forall p args, holds (fst w1) p args <-> export_after e sg (fst w) p args) /\
  (forall t, num_mentionable dom sig t -> exists v, gives (lifted_state sg (fluents_state (snd w))) (ex_effects e) (fst t) (snd t) v /\
     (fluents_state (snd w1) (fst t) (map sg (snd t)) == v)%Q) /\
  (forall f objs, (forall t, num_mentionable dom sig t -> fst t = f -> map sg (snd t) <> objs) -> (fluents_state (snd w1) f objs == fluents_state (snd w) f objs)%Q).
(** The plan is a solution in the exported domain: every call names its objects once and no constant, its action is applicable, and
    whatever state is predicted, the rest of the plan is a solution from it. *)
Fixpoint plan_solves (dom : domain) (model : list (string * exported)) (E : environment) (w : world) (plan : list call) : Prop :=
  match plan with
  | [] => en_goal E w = Ok true
  | c :: plan => exists a e, dict_get (d_actions dom) (c_name c) = Some a /\ dict_get model (c_name c) = Some e /\
      length (c_params c) = length (a_sig a) /\ NoDup (c_params c) /\ no_constant_args dom c /\
      export_applicable e (call_assignment (a_sig a) c) (fst w) (fluents_state (snd w)) /\
      forall w1, predicted dom (a_sig a) e (call_assignment (a_sig a) c) w w1 -> plan_solves dom model E w1 plan
  end.
(** The environment follows the real actions: it refuses exactly the calls whose preconditions are false, and changes what the real effects
    change. *)
Record real_environment (dom : domain) (real : string -> option (action * numeric_part)) (E : environment) : Prop :=
  { re_names : forall n, In n (dict_keys (d_actions dom)) -> In n (en_names E);
    re_success : forall c w w', en_apply E c w = Ok w' -> real_success dom real (transition w c w' true);
    re_frame : forall c w w' r np, en_apply E c w = Ok w' -> real (c_name c) = Some (r, np) -> forall f objs,
      (forall t, num_mentionable dom (a_sig r) t -> fst t = f -> map (call_assignment (a_sig r) c) (snd t) <> objs) -> (fluents_state (snd w') f objs == fluents_state (snd w) f objs)%Q;
    re_applicable : forall c w r np, real (c_name c) = Some (r, np) -> let sg := call_assignment (a_sig r) c in
      (forall l, In l (a_pre r) -> lit_true (fst w) (ground sg l)) -> num_applicable np (lifted_state sg (fluents_state (snd w))) -> exists w', en_apply E c w = Ok w' }.
(** Something was learned about the action, or it has a literal to be learned. *)
Definition guarded (dom : domain) (traces : list (list ncomponent)) : Prop :=
  forall n a, dict_get (d_actions dom) n = Some a -> of_action n traces <> [] \/ exists l, mentionable dom (a_sig a) l.
(** All that was trained from follows the real actions. *)
Definition real_ops (dom : domain) (real : string -> option (action * numeric_part)) (ops : list noam_op) : Prop :=
  (forall t cp, In (op_train t) ops -> In cp t -> cp_ok (nc_comp cp) = true -> real_success dom real cp) /\
  (forall P total, In (op_solve P total) ops -> real_environment dom real (pr_env P)).
(** The explorers that try the safe domain first. *)
Definition uses_safe (k : explorer) : Prop := match k with noam_learner | goal_oriented | informative_explorer => True | _ => False end.
