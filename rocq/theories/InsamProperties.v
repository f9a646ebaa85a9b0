(** * Properties of incremental Numeric SAM: C74; an exactness property of Numeric SAM: C65 *)
From Verif Require Import NsamModel NsamSpec InsamModel InsamSpec SamFinal NsamProofs NsamExact InsamLoop InsamProofs InsamFinal.
Open Scope string_scope. Open Scope list_scope. Open Scope nat_scope.

(** Without a list of relevant fluents, the numeric preconditions that Numeric SAM returns are satisfied exactly by the means of the observed states. *)
Theorem C65_exact : forall le unit fine fit hull gram complement rank dom relevant unsafe degree policy obs, nsam_input dom obs -> forall N report,
  learn_numeric_model le unit fine fit hull gram complement rank (init_nlearner dom relevant unsafe degree policy) obs = Ok (N, report) ->
  forall n a0 conds effs, exact_oracles unit fine fit hull gram complement -> dict_get (d_actions dom) n = Some a0 -> dict_get (n_numeric N) n = Some (conds, effs) -> relevant = None ->
  forall st, (forall cp, nevidence obs n cp -> clean_values unit dom (a_sig a0) degree cp) ->
  ((forall t, In t conds -> satisfied st t) <-> mean_of_observed dom (a_sig a0) degree obs n st).
Proof. exact run_exact. Qed.
Print Assumptions C65_exact.

(** The numeric preconditions of a returned action are satisfied exactly by the means of the observed states, unless the user lists no fluent for it. *)
Theorem C74_exact : forall le unit fine fit hull schmidt rank dom relevant unsafe degree policy obs, exact_libraries unit fit hull schmidt -> insam_input unit fit le dom degree obs -> forall N report,
  learn_incremental_model le unit fine fit hull schmidt rank (init_ilearner dom relevant unsafe degree policy) obs = Ok (N, report) ->
  forall n a0 conds effs, dict_get (d_actions dom) n = Some a0 -> dict_get (is_numeric N) n = Some (conds, effs) ->
  forall st, ~ lists_nothing relevant n -> ((forall t, In t conds -> satisfied st t) <-> mean_of_observed dom (a_sig a0) degree obs n st).
Proof. exact irun_exact. Qed.
Print Assumptions C74_exact.

(** With an empty list the action gets no numeric precondition and no numeric effect. *)
Theorem C74_nothing_listed : forall le unit fine fit hull schmidt rank dom relevant unsafe degree policy obs, exact_libraries unit fit hull schmidt -> insam_input unit fit le dom degree obs -> forall N report,
  learn_incremental_model le unit fine fit hull schmidt rank (init_ilearner dom relevant unsafe degree policy) obs = Ok (N, report) ->
  forall n a0 conds effs, dict_get (d_actions dom) n = Some a0 -> dict_get (is_numeric N) n = Some (conds, effs) -> lists_nothing relevant n -> conds = [] /\ effs = [].
Proof. exact irun_nothing. Qed.
Print Assumptions C74_nothing_listed.

(** Every observed state satisfies the learned numeric preconditions. *)
Theorem C74_observed_states_allowed : forall le unit fine fit hull schmidt rank dom relevant unsafe degree policy obs, exact_libraries unit fit hull schmidt -> insam_input unit fit le dom degree obs -> forall N report,
  learn_incremental_model le unit fine fit hull schmidt rank (init_ilearner dom relevant unsafe degree policy) obs = Ok (N, report) ->
  forall n a0 conds effs, dict_get (d_actions dom) n = Some a0 -> dict_get (is_numeric N) n = Some (conds, effs) ->
  forall cp, nevidence obs n cp -> forall t, In t conds -> satisfied (num_before (a_sig a0) cp) t.
Proof. exact irun_observed. Qed.
Print Assumptions C74_observed_states_allowed.

(** The learned discrete and numeric preconditions together allow only states in which the real action is applicable, and the discrete results agree. *)
Theorem C74_action_safe : forall le unit fine fit hull schmidt rank dom relevant unsafe degree policy obs, exact_libraries unit fit hull schmidt -> insam_input unit fit le dom degree obs -> forall N report,
  learn_incremental_model le unit fine fit hull schmidt rank (init_ilearner dom relevant unsafe degree policy) obs = Ok (N, report) ->
  forall real n a0 a r conds effs np, (exists k, fine = (unit * k)%positive) -> exact_regression unit fit -> dict_get (d_actions dom) n = Some a0 ->
  dict_get (d_actions (s_dom (is_sam N))) n = Some a -> dict_get (is_numeric N) n = Some (conds, effs) ->
  real_domain dom real -> real n = Some r -> real_components real (concat (comps obs)) -> policy_ok policy (concat (comps obs)) n r ->
  expressible_part dom (a_sig a0) degree relevant n np -> (forall cp, nevidence obs n cp -> real_numeric dom (a_sig a0) np cp) -> safe_pair dom a r conds np.
Proof. exact irun_pair. Qed.
Print Assumptions C74_action_safe.

(** In a state that satisfies the learned numeric preconditions the learned numeric effects give each function term the value that the
    real action gives it.  Missing for the full claim: statements "scale-down", whose factor is wrong (C37_scale_down_refuted). *)
Theorem C74_effects_partial : forall le unit fine fit hull schmidt rank dom relevant degree policy obs, exact_libraries unit fit hull schmidt -> insam_input unit fit le dom degree obs -> forall N report,
  learn_incremental_model le unit fine fit hull schmidt rank (init_ilearner dom relevant false degree policy) obs = Ok (N, report) ->
  forall n a0 conds effs np, (exists k, fine = (unit * k)%positive) -> exact_regression unit fit -> dict_get (d_actions dom) n = Some a0 -> dict_get (is_numeric N) n = Some (conds, effs) ->
  expressible_part dom (a_sig a0) degree relevant n np -> (forall cp, nevidence obs n cp -> real_numeric dom (a_sig a0) np cp) ->
  forall st, (forall t, In t conds -> satisfied st t) -> forall f args, gives st effs f args (num_after np st (f, args)).
Proof. intros. eapply irun_numeric; try eassumption; reflexivity. Qed.
Print Assumptions C74_effects_partial.

(** The report lists the actions with evidence; the returned model has those reported as safe. *)
Theorem C74_report : forall le unit fine fit hull schmidt rank dom relevant unsafe degree policy obs, exact_libraries unit fit hull schmidt -> insam_input unit fit le dom degree obs -> forall N report,
  learn_incremental_model le unit fine fit hull schmidt rank (init_ilearner dom relevant unsafe degree policy) obs = Ok (N, report) ->
  map fst report = filter (fun n => match of_action n obs with [] => false | _ => true end) (dict_keys (d_actions dom)) /\
  (forall n, dict_get report n = Some nv_ok <-> exists a, dict_get (d_actions (s_dom (is_sam N))) n = Some a) /\
  (forall n, dict_get report n = Some nv_ok <-> exists x, dict_get (is_numeric N) n = Some x) /\
  (forall n v, dict_get report n = Some v -> v = nv_ok \/ v = nv_not_safe).
Proof. exact irun_listed. Qed.
Print Assumptions C74_report.

(** All observations are processed, unless the hull library fails. *)
Theorem C74_processed : forall le unit fit hull schmidt dom relevant unsafe degree policy obs, exact_libraries unit fit hull schmidt -> insam_input unit fit le dom degree obs ->
  done hull (learn_icomponents le unit fit hull schmidt (iwith_sam (init_ilearner dom relevant unsafe degree policy) (complete_possibly_missing_actions (deduce_initial_inequality_preconditions (init_learner dom policy true)))) obs).
Proof. intros. edestruct iloop_done as [(N & E & _)|(E & F)]; [eassumption|eassumption|left; exists N; exact E|right; split; [exact E|exact F]]. Qed.
Print Assumptions C74_processed.

(** A domain without functions is left to SAM. *)
Theorem C74_no_functions : forall le unit fine fit hull schmidt rank dom relevant unsafe degree policy obs, d_funcs dom = [] ->
  learn_incremental_model le unit fine fit hull schmidt rank (init_ilearner dom relevant unsafe degree policy) obs =
  match learn_action_model (init_learner dom policy true) (comps obs) with
  | Ok (L, rep) => Ok (iwith_sam (init_ilearner dom relevant unsafe degree policy) L, map (fun nv => (fst nv, nv_sam (snd nv))) rep)
  | Err e => Err e
  end.
Proof. exact ino_functions. Qed.
Print Assumptions C74_no_functions.

(** The batch learner returns the same discrete action, the same numeric effects and, without a list of fluents, conditions with the same meaning. *)
Theorem C74_batch : forall le unit fine fit hull schmidt gram complement rank dom relevant unsafe degree policy obs, exact_libraries unit fit hull schmidt -> insam_input unit fit le dom degree obs -> forall N report B report',
  learn_incremental_model le unit fine fit hull schmidt rank (init_ilearner dom relevant unsafe degree policy) obs = Ok (N, report) ->
  learn_numeric_model le unit fine fit hull gram complement rank (init_nlearner dom relevant unsafe degree policy) obs = Ok (B, report') ->
  forall n a0 a a' conds effs conds' effs', dict_get (d_actions dom) n = Some a0 ->
  dict_get (d_actions (s_dom (is_sam N))) n = Some a -> dict_get (is_numeric N) n = Some (conds, effs) ->
  dict_get (d_actions (s_dom (n_sam B))) n = Some a' -> dict_get (n_numeric B) n = Some (conds', effs') ->
  a' = a /\ effs' = effs /\ (relevant = None -> exact_oracles unit fine fit hull gram complement ->
    forall st, (forall t, In t conds -> satisfied st t) <-> (forall t, In t conds' -> satisfied st t)).
Proof.
  intros until 4. intros n a0 a a' conds effs conds' effs' G GA GN GA' GN'. split; [eapply batch_same_action; eassumption|]. split; [eapply batch_same_effects; try eassumption; apply PreludeProofs.dict_get_Some_iff; eauto|].
  intros. eapply batch_same_conditions; eassumption.
Qed.
Print Assumptions C74_batch.
