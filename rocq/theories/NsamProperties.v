(** * Properties of Numeric SAM: C64-C67 *)
From Verif Require Import NsamModel NsamSpec SamFinal NsamProofs NsamOwn NsamFinal.
Open Scope string_scope. Open Scope list_scope. Open Scope nat_scope.

(** The values that an observation gives to lifted function terms are those of the functions it instantiates. *)
Theorem C64_functions_matched : forall dom a c (st : fluents), wf_domain dom -> dict_get (d_actions dom) (c_name c) = Some a -> length (c_params c) = length (a_sig a) ->
  NoDup (c_params c) -> no_constant_args dom c -> (forall f, In (f, []) (d_funcs dom) -> dict_get st (f, []) <> None) ->
  exists m, match_state_functions dom c (numeric_state_snapshot st (parameterized_objects dom a c)) = Ok m /\
    forall l v, dict_get m l = Some v <-> nameable dom (a_sig a) l /\ dict_get st (fst l, map (call_assignment (a_sig a) c) (snd l)) = Some v.
Proof. exact functions_matched. Qed.
Print Assumptions C64_functions_matched.

(** The learned discrete and numeric preconditions together allow only states in which the real action is applicable. *)
Theorem C65_numeric_action_safe : forall le unit fine fit hull gram complement rank dom relevant unsafe degree policy obs, nsam_input dom obs -> forall N report,
  learn_numeric_model le unit fine fit hull gram complement rank (init_nlearner dom relevant unsafe degree policy) obs = Ok (N, report) ->
  forall real n a0 a r conds effs np, exact_oracles unit fine fit hull gram complement -> dict_get (d_actions dom) n = Some a0 ->
  dict_get (d_actions (s_dom (n_sam N))) n = Some a -> dict_get (n_numeric N) n = Some (conds, effs) ->
  real_domain dom real -> real n = Some r -> real_components real (concat (comps obs)) -> policy_ok policy (concat (comps obs)) n r ->
  expressible_part dom (a_sig a0) degree relevant n np -> real_observations unit dom (a_sig a0) degree np obs n -> safe_pair dom a r conds np.
Proof. exact run_pair. Qed.
Print Assumptions C65_numeric_action_safe.

(** Every observed state satisfies the learned numeric preconditions. *)
Theorem C65_observed_states_allowed : forall le unit fine fit hull gram complement rank dom relevant unsafe degree policy obs, nsam_input dom obs -> forall N report,
  learn_numeric_model le unit fine fit hull gram complement rank (init_nlearner dom relevant unsafe degree policy) obs = Ok (N, report) ->
  forall n a0 conds effs, exact_oracles unit fine fit hull gram complement -> dict_get (d_actions dom) n = Some a0 -> dict_get (n_numeric N) n = Some (conds, effs) ->
  forall cp, nevidence obs n cp -> (forall cp, nevidence obs n cp -> clean_values unit dom (a_sig a0) degree cp) ->
  forall t, In t conds -> satisfied (num_before (a_sig a0) cp) t.
Proof. exact run_observed. Qed.
Print Assumptions C65_observed_states_allowed.

(** In a state that satisfies the learned numeric preconditions the learned numeric effects give each function term the value that the
    real action gives it.  Missing for the full claim: statements "scale-down", whose factor is wrong (C37_scale_down_refuted). *)
Theorem C66_numeric_effects_partial : forall le unit fine fit hull gram complement rank dom relevant degree policy obs, nsam_input dom obs -> forall N report,
  learn_numeric_model le unit fine fit hull gram complement rank (init_nlearner dom relevant false degree policy) obs = Ok (N, report) ->
  forall n a0 conds effs np, exact_oracles unit fine fit hull gram complement -> dict_get (d_actions dom) n = Some a0 -> dict_get (n_numeric N) n = Some (conds, effs) ->
  expressible_part dom (a_sig a0) degree relevant n np -> real_observations unit dom (a_sig a0) degree np obs n ->
  forall st, (forall t, In t conds -> satisfied st t) -> forall f args, gives st effs f args (num_after np st (f, args)).
Proof. intros. eapply run_numeric; try eassumption; reflexivity. Qed.
Print Assumptions C66_numeric_effects_partial.

(** The report lists the actions with evidence; the returned model has those reported as safe. *)
Theorem C67_report : forall le unit fine fit hull gram complement rank dom relevant unsafe degree policy obs, nsam_input dom obs -> forall N report,
  learn_numeric_model le unit fine fit hull gram complement rank (init_nlearner dom relevant unsafe degree policy) obs = Ok (N, report) ->
  map fst report = filter (fun n => match of_action n obs with [] => false | _ => true end) (dict_keys (d_actions dom)) /\
  (forall n, dict_get report n = Some nv_ok <-> exists a, dict_get (d_actions (s_dom (n_sam N))) n = Some a) /\
  (forall n, dict_get report n = Some nv_ok <-> exists x, dict_get (n_numeric N) n = Some x) /\
  (forall n v, dict_get report n = Some v -> v = nv_ok \/ v = nv_not_safe).
Proof. exact run_listed. Qed.
Print Assumptions C67_report.

(** The discrete part of a returned action is what SAM learns from the same observations, without its inequalities. *)
Theorem C67_discrete_part : forall le unit fine fit hull gram complement rank dom relevant unsafe degree policy obs, nsam_input dom obs -> forall N report,
  learn_numeric_model le unit fine fit hull gram complement rank (init_nlearner dom relevant unsafe degree policy) obs = Ok (N, report) ->
  exists L rep, learn_action_model (init_learner dom policy true) (comps obs) = Ok (L, rep) /\
  forall n a, dict_get (d_actions (s_dom (n_sam N))) n = Some a -> (exists cp, nevidence obs n cp) /\ exists b, dict_get (d_actions (s_dom L)) n = Some b /\ a = with_ineq b [].
Proof. exact run_discrete. Qed.
Print Assumptions C67_discrete_part.

(** The verdict and the numeric part of an action depend on the observations of this action only. *)
Theorem C67_own_observations : forall le unit fine fit hull gram complement rank dom relevant unsafe degree policy1 policy2 obs1 obs2 N1 N2 report1 report2 n,
  nsam_input dom obs1 -> nsam_input dom obs2 ->
  learn_numeric_model le unit fine fit hull gram complement rank (init_nlearner dom relevant unsafe degree policy1) obs1 = Ok (N1, report1) ->
  learn_numeric_model le unit fine fit hull gram complement rank (init_nlearner dom relevant unsafe degree policy2) obs2 = Ok (N2, report2) ->
  of_action n obs1 = of_action n obs2 -> dict_get report1 n = dict_get report2 n /\ dict_get (n_numeric N1) n = dict_get (n_numeric N2) n.
Proof. exact run_own. Qed.
Print Assumptions C67_own_observations.

(** Without numeric functions the result is SAM's. *)
Theorem C67_no_functions : forall le unit fine fit hull gram complement rank dom relevant unsafe degree policy obs, d_funcs dom = [] ->
  learn_numeric_model le unit fine fit hull gram complement rank (init_nlearner dom relevant unsafe degree policy) obs =
  match learn_action_model (init_learner dom policy true) (comps obs) with
  | Ok (L, rep) => Ok (with_sam (init_nlearner dom relevant unsafe degree policy) L, map (fun nv => (fst nv, nv_sam (snd nv))) rep)
  | Err e => Err e
  end.
Proof. exact no_functions. Qed.
Print Assumptions C67_no_functions.
