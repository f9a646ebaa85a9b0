(** * Properties C41, C42, C44: recording episodes, exporting trajectories, executing plans

    Only theorems; every proof is a reference to a lemma.  Specifications: EpisodeSpec.v, AgentSpec.v. *)
From Verif Require Import EpisodeModel EpisodeSpec AgentModel AgentSpec EpisodeProofs AgentProofs Prelude PreludeProofs.
Open Scope string_scope. Open Scope list_scope. Open Scope nat_scope.

(** After any legal calls the counters are those of the calls since the last end of an episode, every finished episode has
    exactly one row with its own counts, the cumulative history counts all calls, and the trajectory is what was recorded
    since it was last cleared. *)
Theorem C41_accounting (wstate call : Type) (nm : call -> string) (M : nat) names os : Forall plain_name names -> Forall (legal wstate call nm names) os ->
  exists r, run wstate call nm M names os = Ok r /\
    counts_of wstate call nm names (snd (episodes wstate call os)) (dict_get (r_info _ _ r)) /\
    numbered (row_of wstate call nm names) 1 (fst (episodes wstate call os)) (r_rows _ _ r) /\
    (forall a, In a names -> get_number_successful_action_executions wstate call r a = Ok (count wstate call (succeeded wstate call nm a) os)) /\
    r_traj _ _ r = recorded wstate call os.
Proof. exact (accounting wstate call nm M names os). Qed.
Print Assumptions C41_accounting.

(** Steps are successes plus failures, the totals are the sums over the actions, and the history is the sum over the
    episodes. *)
Theorem C41_totals (wstate call : Type) (nm : call -> string) names os : NoDup names -> Forall (legal wstate call nm names) os ->
  count wstate call (any_step wstate call) os = count wstate call (any_success wstate call) os + count wstate call (any_failure wstate call) os /\
  list_sum (map (fun a => count wstate call (succeeded wstate call nm a) os) names) = count wstate call (any_success wstate call) os /\
  list_sum (map (fun a => count wstate call (failed wstate call nm a) os) names) = count wstate call (any_failure wstate call) os /\
  forall a, count wstate call (succeeded wstate call nm a) os =
    list_sum (map (fun ep => count wstate call (succeeded wstate call nm a) (fst ep)) (fst (episodes wstate call os))) +
    count wstate call (succeeded wstate call nm a) (snd (episodes wstate call os)).
Proof.
  exact (fun N L => conj (steps_sum wstate call os) (conj (proj1 (count_actions wstate call nm names os N L))
    (conj (proj2 (count_actions wstate call nm names os N L)) (fun a => count_episodes wstate call _ os (fun _ => eq_refl))))).
Qed.
Print Assumptions C41_totals.

(** Every export writes its trajectory cut into files of at most [M] steps, no file replaces another one, and the list of
    paths names the files written since it was last cleared, in order. *)
Theorem C42_files (wstate call : Type) (nm : call -> string) (M : nat) names os r : 0 < M -> Forall plain_name names ->
  Forall (legal wstate call nm names) os -> run wstate call nm M names os = Ok r ->
  exists fss, Forall2 (export_written wstate call M) (exports wstate call os) fss /\ r_files _ _ r = concat fss /\
    forall os1 os2, os = os1 ++ os2 -> (os1 = [] \/ exists os0, os1 = os0 ++ [ClearPaths _ _]) -> ~ In (ClearPaths _ _) os2 ->
      r_paths _ _ r = map (f_name wstate call) (concat (skipn (length (exports wstate call os1)) fss)).
Proof. exact (run_written wstate call nm M names os r). Qed.
Print Assumptions C42_files.

(** The files together hold every recorded operator, status and next state in order; no file is empty or longer than [M];
    reading them gives back the trajectory if consecutive steps share a state. *)
Theorem C42_partition (wstate call : Type) (M : nat) x fs : export_written wstate call M x fs ->
  Forall (fun f => 0 < length (f_body wstate call f) <= M) fs /\
  concat (map (f_body wstate call) fs) = map (fun s => (s_call _ _ s, s_ok _ _ s, s_next _ _ s)) (snd x) /\
  (continuous wstate call (snd x) -> concat (map (read_file wstate call) fs) = snd x).
Proof. exact (export_readable wstate call M x fs). Qed.
Print Assumptions C42_partition.

(** The trace of a plan is a chain from the initial state that follows the plan, stops after the first action that is not
    applicable, and keeps the state there. *)
Theorem C44_trace (binop : string -> Q -> Q -> res Q) (call : Type) (nm : call -> string) actions (apply : call -> AgentModel.wstate -> res AgentModel.wstate) g init plan tr reached ok :
  snd (execute_plan binop call nm actions apply g init plan) = Ok (tr, reached, ok) ->
  exists final, chained call init tr final /\ map (c_call call) tr = firstn (length tr) plan /\
  (ok = true -> length tr = length plan /\ forall c, In c tr -> c_success call c = true) /\
  (ok = false -> exists tr0 c, tr = tr0 ++ [c] /\ c_success call c = false /\ c_next call c = c_prev call c /\ forall c', In c' tr0 -> c_success call c' = true) /\
  (forall c, In c tr -> c_success call c = true -> apply (c_call call c) (c_prev call c) = Ok (c_next call c)) /\
  (forall c, In c tr -> c_success call c = false -> apply (c_call call c) (c_prev call c) = Err ValueError).
Proof.
  exact (fun H => let '(ex_intro _ final (conj X _)) := execute_plan_sound binop call nm actions apply g init plan tr reached ok H in
    ex_intro _ final (executed_shape call apply init plan tr final ok X)).
Qed.
Print Assumptions C44_trace.

(** For a plan of known actions, whose last state gives a value to every function of the goal, the result is the execution of
    the plan and the goal is reported reached exactly if it holds in the last state. *)
Theorem C44_goal (binop : string -> Q -> Q -> res Q) (call : Type) (nm : call -> string) actions (apply : call -> AgentModel.wstate -> res AgentModel.wstate) g init plan tr final ok :
  (forall c, In c plan -> In (nm c) actions) -> executed call apply init plan tr final ok ->
  well_formed_state final -> (forall e, In e (g_fluents g) -> defined_in (ws_fluents final) (term_of e)) ->
  evaluable binop (map term_of (g_fluents g)) final ->
  exists reached, snd (execute_plan binop call nm actions apply g init plan) = Ok (tr, reached, ok) /\
    (reached = true <-> holds binop (g_predicates g) (map term_of (g_fluents g)) final).
Proof. exact (execute_plan_total binop call nm actions apply g init plan tr final ok). Qed.
Print Assumptions C44_goal.

(** Executing a plan leaves the goal as it was, apart from the values stored in its functions, so it can be used again; and
    every plan has an execution if applying an action returns a state or raises ValueError. *)
Theorem C44_goal_unchanged (binop : string -> Q -> Q -> res Q) (call : Type) (nm : call -> string) actions (apply : call -> AgentModel.wstate -> res AgentModel.wstate) g init plan :
  map term_of (g_fluents (fst (execute_plan binop call nm actions apply g init plan))) = map term_of (g_fluents g) /\
  g_predicates (fst (execute_plan binop call nm actions apply g init plan)) = g_predicates g.
Proof. exact (execute_plan_goal binop call nm actions apply g init plan). Qed.
Print Assumptions C44_goal_unchanged.
Theorem C44_every_plan_executes (call : Type) (apply : call -> AgentModel.wstate -> res AgentModel.wstate) s plan :
  (forall c s, exists r, apply c s = Ok r \/ apply c s = Err ValueError) -> exists tr s' ok, executed call apply s plan tr s' ok.
Proof. exact (executed_total call apply s plan). Qed.
Print Assumptions C44_every_plan_executes.
