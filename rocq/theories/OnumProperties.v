(** * Properties of semi-online learning of numeric actions *)
From Verif Require Import OnumSpec OnumFinal OnumOptim.
Open Scope string_scope. Open Scope list_scope. Open Scope nat_scope.

(** ** C70 *)
Theorem C70_safe_exact : forall le unit fine fit hull schmidt rank V degree ts o conditions effects, exact_libraries unit fit hull schmidt -> onum_input unit fit le V degree ts ->
  onum_run le unit fit hull schmidt V degree ts = Ok o -> successes ts <> [] -> numeric_safe_model unit fine fit rank o = Ok (conditions, effects) ->
  exists l, conditions = Some l /\ forall st, (forall t, In t l -> satisfied st t) <-> mean_state V degree (map fluents_state (successes ts)) st.
Proof. exact one_safe_exact. Qed.
Theorem C70_total : forall le unit fit hull schmidt V degree ts, exact_libraries unit fit hull schmidt -> onum_input unit fit le V degree ts ->
  done hull (onum_run le unit fit hull schmidt V degree ts).
Proof. exact one_total. Qed.
Theorem C70_inside_complete : forall le unit fit hull schmidt V degree ts o fs, exact_libraries unit fit hull schmidt -> onum_input unit fit le V degree ts ->
  onum_run le unit fit hull schmidt V degree ts = Ok o -> V <> [] -> gives_values V fs ->
  exists b, numeric_in_safe_model unit schmidt o fs = Ok b /\ (mean_state V degree (map fluents_state (successes ts)) (fluents_state fs) -> b = true).
Proof. exact one_inside. Qed.
Theorem C70_inside_partial : forall le unit fine fit hull schmidt rank V degree ts o fs conditions effects, exact_libraries unit fit hull schmidt -> onum_input unit fit le V degree ts ->
  onum_run le unit fit hull schmidt V degree ts = Ok o -> successes ts <> [] -> V <> [] -> gives_values V fs ->
  numeric_safe_model unit fine fit rank o = Ok (Some conditions, effects) -> numeric_in_safe_model unit schmidt o fs = Ok true ->
  forall t, In t conditions -> roughly (fluents_state fs) (EPSILON unit) t.
Proof. exact one_roughly. Qed.
Theorem C70_optimistic_separates : forall le unit fine fit hull schmidt rank svm limit V degree ts o conditions effects, exact_libraries unit fit hull schmidt -> onum_input unit fit le V degree ts ->
  onum_run le unit fit hull schmidt V degree ts = Ok o -> V <> [] -> successes ts <> [] -> separating unit svm (length (columns_of le V degree)) (labelled le V degree ts) ->
  length (filter (fun t => match snd t with Some _ => false | None => true end) ts) <= limit ->
  numeric_optimistic_model unit fine fit rank svm limit o = Ok (conditions, effects) ->
  forall t, In t ts -> ((forall c, In c conditions -> satisfied (fluents_state (fst t)) c) <-> snd t <> None).
Proof. exact one_optimistic. Qed.
Theorem C70_effects_agree : forall unit fine fit rank svm limit o c e c' e', numeric_safe_model unit fine fit rank o = Ok (c, e) ->
  numeric_optimistic_model unit fine fit rank svm limit o = Ok (c', e') -> e' = e.
Proof. exact one_effects. Qed.
Theorem C70_failures_irrelevant : forall le unit fine fit hull schmidt rank V degree ts ts' o, observed_pairs ts = observed_pairs ts' -> onum_run le unit fit hull schmidt V degree ts = Ok o ->
  exists o', onum_run le unit fit hull schmidt V degree ts' = Ok o' /\ numeric_safe_model unit fine fit rank o' = numeric_safe_model unit fine fit rank o /\
    forall x, numeric_in_safe_model unit schmidt o' x = numeric_in_safe_model unit schmidt o x.
Proof. exact one_failures. Qed.

(** ** C71 *)
Theorem C71_total : forall le unit fit hull schmidt dom degree traces, exact_libraries unit fit hull schmidt -> online_input unit fit le dom degree traces ->
  done hull (numeric_train le unit fit hull schmidt dom degree traces).
Proof. exact training_done. Qed.
Theorem C71_all_actions : forall unit fine fit rank fl dom L model, construct_safe_action_model unit fine fit rank fl dom L = Ok model -> dict_keys model = dict_keys (d_actions dom).
Proof. exact model_keys. Qed.
Theorem C71_exact : forall le unit fine fit hull schmidt rank dom degree traces L fl model, exact_libraries unit fit hull schmidt -> online_input unit fit le dom degree traces ->
  numeric_train le unit fit hull schmidt dom degree traces = Ok L -> construct_safe_action_model unit fine fit rank fl dom L = Ok model ->
  forall n a e, dict_get (d_actions dom) n = Some a -> dict_get model n = Some e -> of_action n traces <> [] ->
  forall sg s g, export_applicable e sg s g <->
    (forall l, always_seen dom (a_sig a) (of_action n traces) l -> lit_true s (ground sg l)) /\
    mean_state (lifted_functions_vocabulary dom (a_sig a) None) degree (map (num_before (a_sig a)) (of_action n traces)) (lifted_state sg g).
Proof. exact model_exact. Qed.
Theorem C71_observed : forall le unit fine fit hull schmidt rank dom degree traces L fl model, exact_libraries unit fit hull schmidt -> online_input unit fit le dom degree traces ->
  numeric_train le unit fit hull schmidt dom degree traces = Ok L -> construct_safe_action_model unit fine fit rank fl dom L = Ok model ->
  forall n a e, dict_get (d_actions dom) n = Some a -> dict_get model n = Some e -> of_action n traces <> [] ->
  forall cp, In cp (of_action n traces) -> export_applicable e (call_assignment (a_sig a) (cp_call (nc_comp cp))) (cp_prev (nc_comp cp)) (fluents_state (nc_prev cp)).
Proof. exact model_observed. Qed.
(** Missing for the full claim: numeric effects of the form "scale-down", whose factor is wrong (C37_scale_down_refuted). *)
Theorem C71_safe_partial : forall le unit fine fit hull schmidt rank dom degree traces L fl model, exact_libraries unit fit hull schmidt -> online_input unit fit le dom degree traces ->
  numeric_train le unit fit hull schmidt dom degree traces = Ok L -> construct_safe_action_model unit fine fit rank fl dom L = Ok model ->
  forall n a e, dict_get (d_actions dom) n = Some a -> dict_get model n = Some e -> of_action n traces <> [] ->
  forall real r np, real_numeric_actions dom degree real -> (forall cp, In cp (of_action n traces) -> real_success dom real cp) -> real n = Some (r, np) ->
  (exists k, fine = (unit * k)%positive) -> exact_regression unit fit -> safe_export dom r np e.
Proof. exact model_safe. Qed.

(** ** C73 *)
Theorem C73_all_actions : forall unit fine fit rank svm limit dom L fl model, construct_optimistic_action_model unit fine fit rank svm limit fl dom L = Ok model -> dict_keys model = dict_keys (d_actions dom).
Proof. exact optimistic_keys. Qed.
Theorem C73_includes_safe : forall le unit fine fit hull schmidt rank svm limit dom degree traces L fl fl' safe optimistic n a e e', exact_libraries unit fit hull schmidt -> online_input unit fit le dom degree traces ->
  numeric_train le unit fit hull schmidt dom degree traces = Ok L -> construct_safe_action_model unit fine fit rank fl dom L = Ok safe -> construct_optimistic_action_model unit fine fit rank svm limit fl' dom L = Ok optimistic ->
  dict_get (d_actions dom) n = Some a -> dict_get safe n = Some e -> dict_get optimistic n = Some e' -> of_action n traces <> [] ->
  trained_separably le unit svm dom degree L n a -> forall sg s g, export_applicable e sg s g -> export_applicable e' sg s g.
Proof. exact optimistic_includes. Qed.
Theorem C73_effects : forall le unit fine fit hull schmidt rank svm limit dom degree traces L fl fl' safe optimistic n a e e', exact_libraries unit fit hull schmidt -> online_input unit fit le dom degree traces ->
  numeric_train le unit fit hull schmidt dom degree traces = Ok L -> construct_safe_action_model unit fine fit rank fl dom L = Ok safe -> construct_optimistic_action_model unit fine fit rank svm limit fl' dom L = Ok optimistic ->
  dict_get (d_actions dom) n = Some a -> dict_get safe n = Some e -> dict_get optimistic n = Some e' -> of_action n traces <> [] ->
  ex_effects e' = ex_effects e /\ incl (ex_eff e) (ex_eff e').
Proof. exact optimistic_effects. Qed.
Theorem C73_failures : forall le unit fine fit hull schmidt rank svm limit dom degree traces L fl optimistic n a e, exact_libraries unit fit hull schmidt -> online_input unit fit le dom degree traces ->
  numeric_train le unit fit hull schmidt dom degree traces = Ok L -> construct_optimistic_action_model unit fine fit rank svm limit fl dom L = Ok optimistic ->
  dict_get (d_actions dom) n = Some a -> dict_get optimistic n = Some e -> of_action n traces <> [] ->
  trained_separably le unit svm dom degree L n a -> enough_planes limit L n -> lifted_functions_vocabulary dom (a_sig a) None <> [] ->
  forall before cp rest, concat traces = before ++ cp :: rest -> failed_numerically dom n a before cp ->
  ~ export_applicable e (call_assignment (a_sig a) (cp_call (nc_comp cp))) (cp_prev (nc_comp cp)) (fluents_state (nc_prev cp)).
Proof. exact optimistic_failures. Qed.

(** ** C72 *)
Theorem C72_inside : forall le unit fit hull schmidt V degree ts o, exact_libraries unit fit hull schmidt -> onum_input unit fit le V degree ts ->
  onum_run le unit fit hull schmidt V degree ts = Ok o -> V <> [] ->
  forall U data failures s x, gives_values V x -> (forall l, In l U -> (forall p q, In (s_ok p q) data -> In l p) -> In l s) ->
  mean_state V degree (map fluents_state (successes ts)) (fluents_state x) ->
  sample_applicable unit schmidt (learned U data) o s x = Ok true /\ sample_informative unit fit hull schmidt (learned U data) o failures s x = Ok false.
Proof. exact sample_inside. Qed.
Theorem C72_known_failure : forall le unit fit hull schmidt V degree ts o, exact_libraries unit fit hull schmidt -> onum_input unit fit le V degree ts ->
  onum_run le unit fit hull schmidt V degree ts = Ok o -> V <> [] ->
  forall U data xs y s x, (forall z, In z xs -> gives_values V z) -> gives_values V x -> numeric_input unit fit le V degree (map fluents_state (successes ts) ++ [fluents_state x]) ->
  (exists u v t, In u (successes ts) /\ In v (successes ts) /\ In t V /\ ~ (term_value (fluents_state u) t == term_value (fluents_state v) t)%Q) ->
  In y xs -> mean_state V degree (map fluents_state (successes ts) ++ [fluents_state x]) (fluents_state y) ->
  let r := sample_informative unit fit hull schmidt (learned U data) o (failure_table o (columns_of le V degree) xs) s x in r = Ok false \/ (r = Err RuntimeError /\ hull_failure hull).
Proof. exact sample_failed. Qed.
Theorem C72_not_applicable_partial : forall le unit fit hull schmidt V degree ts o, exact_libraries unit fit hull schmidt -> onum_input unit fit le V degree ts ->
  onum_run le unit fit hull schmidt V degree ts = Ok o -> V <> [] ->
  forall xs x o' conditions effects fine rank, (forall z, In z xs -> gives_values V z) -> gives_values V x -> numeric_input unit fit le V degree (map fluents_state (successes ts) ++ [fluents_state x]) ->
  (exists u v t, In u (successes ts) /\ In v (successes ts) /\ In t V /\ ~ (term_value (fluents_state u) t == term_value (fluents_state v) t)%Q) ->
  numeric_not_applicable unit fit hull schmidt o (failure_table o (columns_of le V degree) xs) x = Ok true ->
  onum_run le unit fit hull schmidt V degree (ts ++ [(x, Some x)]) = Ok o' -> numeric_safe_model unit fine fit rank o' = Ok (Some conditions, effects) ->
  exists y, In y xs /\ forall t, In t conditions -> roughly (fluents_state y) (EPSILON unit) t.
Proof. exact sample_bad. Qed.

Print Assumptions C70_safe_exact. Print Assumptions C70_total. Print Assumptions C70_inside_complete. Print Assumptions C70_inside_partial. Print Assumptions C70_optimistic_separates.
Print Assumptions C70_effects_agree. Print Assumptions C70_failures_irrelevant.
Print Assumptions C71_total. Print Assumptions C71_all_actions. Print Assumptions C71_exact. Print Assumptions C71_observed. Print Assumptions C71_safe_partial.
Print Assumptions C72_inside. Print Assumptions C72_known_failure. Print Assumptions C72_not_applicable_partial.
Print Assumptions C73_all_actions. Print Assumptions C73_includes_safe. Print Assumptions C73_effects. Print Assumptions C73_failures.
