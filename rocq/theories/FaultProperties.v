(** * Properties of finding and repairing a faulty action: C96, C97 *)
From Coq Require Import Qabs.
From Verif Require Import FaultModel FaultSpec FaultProofs FaultFinal FaultExamples.
Open Scope string_scope. Open Scope list_scope. Open Scope nat_scope.

(** The comparison of two states: it raises only if a fluent is missing, and says what [agree] says. *)
Theorem C96_comparison : forall v w, (forall f x, In (f, x) (ws_fluents v) -> dict_get (ws_fluents w) f <> None) ->
  exists b, validate_applied_action v w = Ok b /\ (b = true <-> agree v w).
Proof. exact compare_total. Qed.
Print Assumptions C96_comparison.

(** For states with the same predicates and fluents and integral values this is equality. *)
Theorem C96_comparison_exact : forall P F v w, tidy P F v -> tidy P F w -> (agree v w <-> same_state v w).
Proof. intros P F v w T T'; split; [exact (agree_same P F v w T T')|exact (same_agree P F v w T T')]. Qed.
Print Assumptions C96_comparison_exact.

(** One plan: the complete run on the model, the steps of the other domain with other results, and the name of the first of these;
    or the name that the validator gives. *)
Theorem C96_single_plan : forall act apply model faulty d stem plan o nm, observe_single_plan act apply model faulty d stem plan = Ok (o, nm) ->
  (o = None /\ exists n, nm = Some n /\ is_plan_applicable (pd_validation d stem) = Ok (false, Some n)) \/
  (exists init vs fs ds, o = Some (vs, ds) /\ accepted d stem init /\ run act apply model init plan vs /\ run act apply faulty init plan fs /\
     differing vs fs ds /\ nm = option_map name_of (hd_error ds)).
Proof. exact single_spec. Qed.
Print Assumptions C96_single_plan.

(** The statuses of the plans. *)
Theorem C96_statuses : forall act apply model faulty d solved repaired, NoDup (map fst (pd_solutions d)) ->
  forall vo fo st, execute_plans_on_agent act apply model faulty d solved repaired = Ok (vo, fo, st) ->
  (forall stem plan, executed d solved stem plan ->
     (dict_get st stem = Some "ok" /\ no_fault act apply model faulty d stem plan) \/
     (dict_get st stem = Some "state_difference" /\ exists n, fault_found act apply model faulty d stem plan n)) /\
  (forall stem, dict_get st stem <> None -> exists plan, executed d solved stem plan).
Proof. exact execute_statuses. Qed.
Print Assumptions C96_statuses.

(** What is returned: the steps of one action in the runs on the model, and those of them that differ on the other domain.  The action
    is the one found in the last plan with a fault. *)
Theorem C96_observations : forall act apply model faulty d solved repaired, NoDup (map fst (pd_solutions d)) ->
  forall vo fo st, execute_plans_on_agent act apply model faulty d solved repaired = Ok (vo, fo, st) ->
  exists rs, Forall2 (plays act apply model faulty d) (accepted_plans d solved) rs /\
  ((exists n l1 stem plan l2, solved_plans d solved = l1 ++ (stem, plan) :: l2 /\ fault_found act apply model faulty d stem plan n /\
      (forall s p, In (s, p) l2 -> no_fault act apply model faulty d s p) /\
      vo = map (fun r => steps_of n (fst r)) rs /\ fo = map (fun r => steps_of n (snd r)) rs) \/
   (repaired = true /\ (forall s p, executed d solved s p -> no_fault act apply model faulty d s p) /\ concat vo = [] /\ concat fo = [])).
Proof. exact execute_observations. Qed.
Print Assumptions C96_observations.

(** Without a fault: ValueError, unless the domain is a repaired one. *)
Theorem C96_no_fault : forall act apply model faulty d solved repaired,
  (forall stem plan, executed d solved stem plan -> no_fault act apply model faulty d stem plan) ->
  match repaired with
  | false => execute_plans_on_agent act apply model faulty d solved repaired = Err ValueError
  | true => exists vo fo st, execute_plans_on_agent act apply model faulty d solved repaired = Ok (vo, fo, st)
  end.
Proof. exact execute_none. Qed.
Print Assumptions C96_no_fault.

(** If one action is altered and all executed plans are plans of the model, the returned observations are those of the altered
    action.  Missing for the full claim: plans that the model cannot execute, new predicates and values that are not integral, for which
    another action can be found (C96_blame_refuted, C96_new_predicate_refuted, C96_small_difference_refuted). *)
Theorem C96_localised_partial : forall act apply model faulty d solved repaired, NoDup (map fst (pd_solutions d)) ->
  forall P F n0 vo fo st, regular act apply P F -> altered_only act model faulty n0 -> (forall stem s, dict_get (pd_problems d) stem = Some s -> tidy P F s) ->
  (forall stem plan, executed d solved stem plan -> exists o, is_plan_applicable (pd_validation d stem) = Ok (true, o)) -> repaired = false ->
  execute_plans_on_agent act apply model faulty d solved repaired = Ok (vo, fo, st) ->
  exists rs, Forall2 (plays act apply model faulty d) (solved_plans d solved) rs /\ vo = map (fun r => steps_of n0 (fst r)) rs /\
    fo = map (fun r => steps_of n0 (snd r)) rs /\ exists x, In x (concat fo).
Proof. exact execute_altered. Qed.
Print Assumptions C96_localised_partial.

(** A plan without a fault has the same states in both domains. *)
Theorem C96_ok_means_same : forall act apply model faulty d P F n0, regular act apply P F -> altered_only act model faulty n0 ->
  (forall stem s, dict_get (pd_problems d) stem = Some s -> tidy P F s) ->
  forall stem plan, no_fault act apply model faulty d stem plan -> exists init vs fs, accepted d stem init /\ run act apply model init plan vs /\ run act apply faulty init plan fs /\
    Forall2 (fun v f => snd (fst v) = snd (fst f) /\ same_state (snd v) (snd f)) vs fs.
Proof. exact none_same. Qed.
Print Assumptions C96_ok_means_same.

(** What the validator's text means: applicable if it says that the plan is valid or misses the goal only; otherwise the name of the failed
    action if the text has it in the expected form. *)
Theorem C96_complaint : forall text,
  (says text "Plan valid" \/ says text "Goal not satisfied" -> is_plan_applicable text = Ok (true, None)) /\
  (~ says text "Plan valid" -> ~ says text "Goal not satisfied" ->
     (says text "Plan failed to execute" -> forall n, complains text n -> (forall n', complains text n' -> n' = n) -> is_plan_applicable text = Ok (false, Some n)) /\
     (says text "Plan failed to execute" -> (forall n, ~ complains text n) -> is_plan_applicable text = Err AttributeError) /\
     (~ says text "Plan failed to execute" -> is_plan_applicable text = Err TypeError)).
Proof. exact complaint. Qed.
Print Assumptions C96_complaint.

(** A plan that the model cannot execute is never reported as not applicable. *)
Theorem C96_not_applicable_refuted : forall act apply model faulty d solved repaired, NoDup (map fst (pd_solutions d)) ->
  forall vo fo st, execute_plans_on_agent act apply model faulty d solved repaired = Ok (vo, fo, st) -> forall stem, dict_get st stem <> Some "not_applicable".
Proof.
  intros act apply model faulty d solved repaired ND vo fo st R stem G. destruct (execute_statuses _ _ _ _ _ _ _ ND _ _ _ R) as [A B].
  destruct (B stem) as [plan X]; [congruence|]. destruct (A stem plan X) as [[Y _]|[Y _]]; congruence.
Qed.
Print Assumptions C96_not_applicable_refuted.

(** An effect that is off by less than 1 is not noticed, and a later action is named. *)
Theorem C96_small_difference_refuted : exists model faulty n0 init plan vs fs x ds, altered_only simple model faulty n0 /\
  run simple simple_apply model init plan vs /\ run simple simple_apply faulty init plan fs /\ differing vs fs (x :: ds) /\ name_of x <> n0.
Proof. exact small_difference. Qed.
Print Assumptions C96_small_difference_refuted.

(** An instance of a predicate that the state of the model does not list is not noticed, and a later action is named. *)
Theorem C96_new_predicate_refuted : exists model faulty n0 init plan vs fs x ds, altered_only simple model faulty n0 /\ ws_fluents init = [] /\
  run simple simple_apply model init plan vs /\ run simple simple_apply faulty init plan fs /\ differing vs fs (x :: ds) /\ name_of x <> n0.
Proof. exact new_predicate. Qed.
Print Assumptions C96_new_predicate_refuted.

(** A plan of the faulty domain that fails on the model: the action that fails is named, not the altered one before it. *)
Theorem C96_blame_refuted : exists model faulty n0 init c1 c2 s1 a2 d fs n, altered_only simple model faulty n0 /\
  run simple simple_apply faulty init [c1; c2] fs /\ run simple simple_apply model init [c1] [(init, c1, s1)] /\
  dict_get model (c_name c2) = Some a2 /\ simple_apply a2 (c_params c2) s1 = Err ValueError /\ complains (pd_validation d "p") (c_name c2) /\
  observe_single_plan simple simple_apply model faulty d "p" [c1; c2] = Ok (None, Some n) /\ n <> n0.
Proof. exact blame. Qed.
Print Assumptions C96_blame_refuted.

(** A name with a hyphen is not recognised. *)
Theorem C96_hyphen_refuted : exists before rest, is_plan_applicable (before ++ INAPPLICABLE_PLAN ++ before ++ LOCATOR ++ "fly-fast plane1)" ++ rest)%string = Err AttributeError.
Proof. exact hyphen. Qed.
Print Assumptions C96_hyphen_refuted.

(** Repair replaces one action by the learned one. *)
Theorem C97_repair : forall act report learn model faulty vo n dom rep, repair_model act report learn model faulty vo n = Ok (dom, rep) ->
  exists learned a, learn model vo = Ok (learned, rep) /\ dict_get learned n = Some a /\ dict_get dom n = Some a /\ forall k, k <> n -> dict_get dom k = dict_get faulty k.
Proof. exact repair_frame. Qed.
Print Assumptions C97_repair.

(** An action that was not learned cannot be repaired. *)
Theorem C97_not_learned : forall act report learn model faulty vo n learned rep, learn model vo = Ok (learned, rep) -> dict_get learned n = None ->
  repair_model act report learn model faulty vo n = Err KeyError.
Proof. exact repair_missing. Qed.
Print Assumptions C97_not_learned.

(** If the altered action is repaired by a safe one, every plan of the repaired domain is a plan of the model with the same states. *)
Theorem C97_repaired_plans : forall act apply report learn P F model faulty vo n dom rep real, regular act apply P F -> altered_only act model faulty n -> dict_get model n = Some real ->
  repair_model act report learn model faulty vo n = Ok (dom, rep) -> (forall a, dict_get dom n = Some a -> no_bolder act apply P F a real) ->
  forall plan s t fs, tidy P F s -> tidy P F t -> same_state s t -> run act apply dom s plan fs ->
  exists vs, run act apply model t plan vs /\ Forall2 (fun f v => snd (fst f) = snd (fst v) /\ same_state (snd f) (snd v)) fs vs.
Proof. exact repair_runs. Qed.
Print Assumptions C97_repaired_plans.

(** And no fault is found in such a plan. *)
Theorem C97_repaired_no_fault : forall act apply report learn P F model faulty vo n dom rep real d stem plan init fs, regular act apply P F -> tidy P F init ->
  altered_only act model faulty n -> dict_get model n = Some real ->
  repair_model act report learn model faulty vo n = Ok (dom, rep) -> (forall a, dict_get dom n = Some a -> no_bolder act apply P F a real) ->
  accepted d stem init -> run act apply dom init plan fs -> no_fault act apply model dom d stem plan.
Proof. exact repaired_no_fault. Qed.
Print Assumptions C97_repaired_no_fault.
