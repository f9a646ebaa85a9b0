{
 "claims": [
  {
   "property": "C01",
   "status": "proved",
   "theorems": [
    "C01_sam_safe",
    "C01_sam_safe_default",
    "C01_sam_total",
    "C01_constant_arguments_refuted",
    "C01_non_injective_binding_refuted",
    "C01_hard_policy_refuted",
    "C01_soft_policy_refuted"
   ],
   "note": "Injective bindings that avoid constants, training calls without constants; policies soft/hard under policy_ok. The four _refuted theorems show that each restriction is needed."
  },
  {
   "property": "C02",
   "status": "proved",
   "theorems": [
    "C02_real_preconditions_kept",
    "C01_constant_arguments_refuted",
    "C01_soft_policy_refuted"
   ],
   "note": "Refuted without the restrictions on constants and policy."
  },
  {
   "property": "C03",
   "status": "proved",
   "theorems": [
    "C03_preconditions_exact"
   ],
   "note": ""
  },
  {
   "property": "C04",
   "status": "proved",
   "theorems": [
    "C04_effects_are_observed_changes",
    "C04_effects_are_real"
   ],
   "note": ""
  },
  {
   "property": "C05",
   "status": "proved",
   "theorems": [
    "C05_monotone"
   ],
   "note": "Every learner state, not only reachable ones."
  },
  {
   "property": "C06",
   "status": "proved",
   "theorems": [
    "C06_order_independent",
    "C06_order_independent_real",
    "C06_inconsistent_data_with_constants_refuted",
    "C06_same_components"
   ],
   "note": "Also with constants when the data comes from a real domain."
  },
  {
   "property": "C07",
   "status": "proved",
   "theorems": [
    "C07_failed_components_ignored",
    "C07_duplicate_calls_keep_literals",
    "C07_duplicate_calls_inequalities"
   ],
   "note": ""
  },
  {
   "property": "C08",
   "status": "proved",
   "theorems": [
    "C08_transitions_explained"
   ],
   "note": "Holds on all atoms, not only those over the call's objects."
  },
  {
   "property": "C09",
   "status": "proved",
   "theorems": [
    "C09_unobserved_not_executable",
    "C09_hard_policy_refuted"
   ],
   "note": "Default policy; refuted for policy hard."
  },
  {
   "property": "C10",
   "status": "proved",
   "theorems": [
    "C10_policy_exact",
    "C10_policy_same_actions",
    "C10_policy_idempotent"
   ],
   "note": ""
  },
  {
   "property": "C11",
   "status": "proved",
   "theorems": [
    "C11_inequalities_exact"
   ],
   "note": ""
  },
  {
   "property": "C12",
   "status": "partial",
   "theorems": [
    "C12_batches_never_weaker",
    "C12_batches_equal_refuted"
   ],
   "note": "The equality is false of the code (C12_batches_equal_refuted); the never-weaker half is proved."
  },
  {
   "property": "C13",
   "status": "proved",
   "theorems": [
    "C13_report",
    "C13_observed_reported_safe_refuted"
   ],
   "note": "Observed actions are always reported NOT SAFE by this learner."
  },
  {
   "property": "C14",
   "status": "proved",
   "theorems": [
    "C14_state_snapshot_exact",
    "C14_triplet_snapshot_exact"
   ],
   "note": ""
  },
  {
   "property": "C15",
   "status": "proved",
   "theorems": [
    "C15_grounded_vocabulary_exact"
   ],
   "note": ""
  },
  {
   "property": "C16",
   "status": "proved",
   "theorems": [
    "C16_lifted_vocabulary_exact",
    "C16_lifted_vocabulary_negation",
    "C16_lifted_functions_exact"
   ],
   "note": ""
  },
  {
   "property": "C17",
   "status": "proved",
   "theorems": [
    "C17_grounded_actions_exact"
   ],
   "note": ""
  },
  {
   "property": "C18",
   "status": "proved",
   "theorems": [
    "C18_matching_exact",
    "C18_at_most_one_match",
    "C18_injective_match_exact",
    "C18_injective_match_unique",
    "C18_repeated_constant_refuted"
   ],
   "note": "Ground literals that do not repeat a constant."
  },
  {
   "property": "C19",
   "status": "proved",
   "theorems": [
    "C19_effects_exact",
    "C19_not_effects_exact"
   ],
   "note": ""
  },
  {
   "property": "C20",
   "status": "proved",
   "theorems": [
    "C20_clauses_exact",
    "C20_clauses_total",
    "C20_learned_clauses_true"
   ],
   "note": "The clause object is exact for every history of truthful observations; whole learner runs for domains with at most one constant."
  },
  {
   "property": "C21",
   "status": "partial",
   "theorems": [
    "C21_extracted_effects_certain",
    "C21_safe_action_complete_partial",
    "C21_decided_action_safe",
    "C21_safe_action_complete_refuted"
   ],
   "note": "Certainty of extracted effects is proved without restriction. The second half holds when no clause mentions the action with two literals and is false otherwise (C21_safe_action_complete_refuted)."
  },
  {
   "property": "C22",
   "status": "partial",
   "theorems": [
    "C22_ma_safe_partial",
    "C22_one_agent_at_a_time_safe",
    "C22_effects_real",
    "C22_preconditions_kept",
    "C22_ma_total",
    "C22_model_is_safe_actions",
    "C22_effects_of_other_calls_lost_refuted",
    "C22_same_action_twice_refuted",
    "C22_two_constants_total_refuted"
   ],
   "note": "The unrestricted claim is false of the code: effects of all but the last call of a joint action can be lost, and two calls of one action in a joint action defeat the safety test. Proved when each change is stated over the objects of the last call and a joint action has no two calls of one action, in particular when one agent acts at a time; at most one domain constant, default policy."
  },
  {
   "property": "C23",
   "status": "proved",
   "theorems": [
    "C23_macro_expansion",
    "C23_groups_share_objects",
    "C23_mapping_covers",
    "C23_other_lines_unchanged",
    "C23_every_micro_action_expanded_refuted",
    "C23_separate_groups_kept_apart_refuted"
   ],
   "note": "Micro actions without parameters disappear from the expansion, and separate groups can share a macro parameter (both refuted)."
  },
  {
   "property": "C24",
   "status": "proved",
   "theorems": [
    "C24_groups_merged",
    "C24_merge_fails_on_empty_group"
   ],
   "note": "An empty group makes the merge raise StopIteration."
  },
  {
   "property": "C25",
   "status": "proved",
   "theorems": [
    "C25_combinations_complete"
   ],
   "note": ""
  },
  {
   "property": "C26",
   "status": "proved",
   "theorems": [
    "C26_minimize_preserves_meaning",
    "C26_negation_to_cnf",
    "C26_complementary_exact",
    "C26_empty_clause_refuted",
    "C26_hyphenated_argument_refuted",
    "C26_not_prefixed_name_refuted"
   ],
   "note": "Proved for texts of the form the library prints, with names that do not start with 'not' and arguments the regular expression accepts; outside that form the claim is false (the _refuted theorems). sympy-based minimize_dnf_clauses is not modelled."
  },
  {
   "property": "C27",
   "status": "proved",
   "theorems": [
    "C27_dependencies_exact",
    "C27_real_antecedents_kept",
    "C27_disjunctive_antecedents_refuted",
    "C27_repeated_object_refuted"
   ],
   "note": "For every history of calls with pairwise distinct objects, none a constant. One antecedent set per literal is part of 'conjunctive antecedents'; without it, or with a repeated object, the claim is false (the _refuted theorems)."
  },
  {
   "property": "C28",
   "status": "proved",
   "theorems": [
    "C28_restrictive_precondition",
    "C28_restrictive_precondition_of_effect",
    "C28_not_prefixed_name_refuted"
   ],
   "note": "For the string literals the code works on; names that start with 'not' break the claim (C28_not_prefixed_name_refuted)."
  },
  {
   "property": "C29",
   "status": "proved",
   "theorems": [
    "C29_fresh_parameter_name",
    "C29_iterate_objects"
   ],
   "note": "The type name must not be empty."
  },
  {
   "property": "C30",
   "status": "proved",
   "theorems": [
    "C30_behaves_like_a_bag",
    "C30_nothing_lost",
    "C30_len",
    "C30_rounding",
    "C30_best_within_a_hundredth",
    "C30_choice_proportional",
    "C30_exact_maximum_refuted",
    "C30_extractors_agree_refuted"
   ],
   "note": "Random numbers are universally quantified; float arithmetic exact. Maximality is of the rounded priority (C30_exact_maximum_refuted for the raw one); the second extractor raises on a lone item of weight zero (C30_extractors_agree_refuted)."
  },
  {
   "property": "C31",
   "status": "proved",
   "theorems": [
    "C31_safe_precondition",
    "C31_safe_includes_real",
    "C31_optimistic_precondition_exact",
    "C31_optimistic_implied_by_real",
    "C31_safe_effects_exact",
    "C31_optimistic_effects_exact",
    "C31_real_effects_not_excluded",
    "C31_optimistic_effects_before_success_refuted",
    "C31_inconsistent_executions_refuted"
   ],
   "note": "Stronger than stated: both models are exactly the ends of the version space. The optimistic effects are only complete after a success."
  },
  {
   "property": "C32",
   "status": "proved",
   "theorems": [
    "C32_applicable_exact",
    "C32_not_applicable_exact",
    "C32_verdicts_correct"
   ],
   "note": ""
  },
  {
   "property": "C33",
   "status": "proved",
   "theorems": [
    "C33_interval",
    "C33_widens",
    "C33_stored",
    "C33_missing_column_refuted",
    "C33_unknown_fluent_refuted"
   ],
   "note": "Without rounding: exact minimum and maximum. For observations over the same columns; an observation that lacks a column may be dropped (C33_missing_column_refuted)."
  },
  {
   "property": "C34",
   "status": "proved",
   "theorems": [
    "C34_value",
    "C34_empty",
    "C34_total",
    "C34_exact"
   ],
   "note": "Strings are token lists that the specification parses and evaluates; when nothing is kept the string is empty."
  },
  {
   "property": "C35",
   "status": "partial",
   "theorems": [
    "C35_effect_partial",
    "C35_lost_coefficient_refuted",
    "C35_identity_refuted"
   ],
   "note": "For coefficients that need no rounding and equations other than x' = x; both exceptions are false of the code (refuted theorems)."
  },
  {
   "property": "C36",
   "status": "partial",
   "theorems": [
    "C36_complete_partial",
    "C36_sound_partial",
    "C36_linear",
    "C36_one_complete",
    "C36_one_sound",
    "C36_value",
    "C36_names",
    "C36_grounded",
    "C36_degree_one_refuted"
   ],
   "note": "For degrees of at least 2. Degree 0 gives the functions; degree 1 gives the functions and the products of two different ones, so the claim is false there (C36_degree_one_refuted)."
  },
  {
   "property": "C37",
   "status": "partial",
   "theorems": [
    "C37_effects_partial",
    "C37_scale_down_refuted",
    "C37_forgets_refuted"
   ],
   "note": "All statements other than scale-down, for exact regression; scale-down statements are wrong (C37_scale_down_refuted). scikit-learn's regression is an oracle that is exact whenever it reports the score 1."
  },
  {
   "property": "C38",
   "status": "proved",
   "theorems": [
    "C38_keeps",
    "C38_selects"
   ],
   "note": ""
  },
  {
   "property": "C39",
   "status": "partial",
   "theorems": [
    "C39_hypotheses",
    "C39_proposal_partial",
    "C39_second",
    "C39_uninitialised",
    "C39_third_refuted",
    "C39_not_refuted_refuted"
   ],
   "note": "The enumeration is proved for the code; the sequence of proposals for a comparison of every stored row. The code compares frames of different length, so every call after two different observations raises ValueError (C39_third_refuted). A selection is given up without being refuted (C39_not_refuted_refuted)."
  },
  {
   "property": "C40",
   "status": "proved",
   "theorems": [
    "C40_action_precision",
    "C40_action_recall",
    "C40_domain_precision_recall",
    "C40_f1",
    "C40_exported_row",
    "C40_set_recall",
    "C40_set_precision",
    "C40_semantic_preconditions",
    "C40_report_extremes",
    "C40_identical_effects",
    "C40_empty_set_precision_refuted",
    "C40_recall_without_positives_refuted"
   ],
   "note": "Per action and per domain as stated, over exact rationals. Over one set of literals precision is 0 when nothing was learned although something could be (C40_empty_set_precision_refuted)."
  },
  {
   "property": "C41",
   "status": "proved",
   "theorems": [
    "C41_accounting",
    "C41_totals",
    "C41_clashing_names_refuted"
   ],
   "note": "For action names that do not begin with failed_due_to_ or unknown_failed_; without that two actions can share a counter (C41_clashing_names_refuted)."
  },
  {
   "property": "C42",
   "status": "proved",
   "theorems": [
    "C42_files",
    "C42_partition",
    "C42_file_number_refuted",
    "C42_uncleared_refuted"
   ],
   "note": "Every export is a partition into non-empty files of at most M steps (M arbitrary, 5000 in the code) and reads back if consecutive steps share a state. File names carry the number of the next episode, and an uncleared trajectory is repeated in the next file (refuted variants)."
  },
  {
   "property": "C43",
   "status": "proved",
   "theorems": [
    "C43_indices",
    "C43_refused",
    "C43_train_test",
    "C43_folds",
    "C43_leftover_refuted",
    "C43_resave_refuted",
    "C43_stop_early_refuted"
   ],
   "note": "For a working directory without left-over train and test directories and a consumer that asks for all folds; otherwise see the refuted variants. The shuffled indices and the sample are arbitrary."
  },
  {
   "property": "C44",
   "status": "proved",
   "theorems": [
    "C44_trace",
    "C44_goal",
    "C44_goal_unchanged",
    "C44_every_plan_executes",
    "C44_stale_value_refuted",
    "C44_negative_goal_refuted"
   ],
   "note": "The goal report is exact when the last state gives a value to every function of the goal; otherwise old values are used (C44_stale_value_refuted). Negative goal literals are compared as text and never hold (C44_negative_goal_refuted)."
  },
  {
   "property": "C45",
   "status": "partial",
   "theorems": [
    "C45_plain_partial",
    "C45_goal_partial",
    "C45_kept_partial",
    "C45_dropped_refuted",
    "C45_busy_dropped_refuted"
   ],
   "note": "What is kept is kept in order with only a no-op replaced; but joint actions that get no dummy are dropped, so the full claim is false of the code (C45_dropped_refuted, C45_busy_dropped_refuted)."
  },
  {
   "property": "C46",
   "status": "partial",
   "theorems": [
    "C46_row",
    "C46_counters_add_up",
    "C46_percentages_sum",
    "C46_row_written",
    "C46_unanswered_problem_raises",
    "C46_every_problem_counted_refuted",
    "C46_problem_names_refuted"
   ],
   "note": "Every problem is in at most one class and the counters and percentages are exact for problems with an answer; a plan whose validation text has no known marker is counted in no class (refuted), and a problem without an answer aborts the run."
  },
  {
   "property": "C47",
   "status": "proved",
   "theorems": [
    "C47_text_round_trip",
    "C47_text_injective",
    "C47_repeated_argument_refuted",
    "C47_predicate_named_not_refuted"
   ],
   "note": "Literals with pairwise distinct arguments; repeated arguments are collapsed by the code (C47_repeated_argument_refuted)."
  },
  {
   "property": "C48",
   "status": "partial",
   "theorems": [
    "C48_learned_actions",
    "C48_real_preconditions_kept",
    "C48_effects_are_real",
    "C48_safe_partial",
    "C48_unseen_effect_refuted",
    "C48_restrictive_effect_lost_refuted",
    "C48_nested_preconditions_refuted",
    "C48_unsuccessful_component_refuted"
   ],
   "note": "The unrestricted claim is false of the code (the _refuted theorems give real domains, histories and states). Proved without restriction: learning is total, the learned actions are determined by the observations (learned_conditional), real preconditions are kept, every learned effect is real. Equal successor states are proved when neither of the two refuting situations occurs and iteration does not visit nested literals."
  },
  {
   "property": "C49",
   "status": "proved",
   "theorems": [
    "C49_failures_attributed",
    "C49_applicable_sound",
    "C49_review_complete",
    "C49_single_function_sound",
    "C49_one_reason_per_failure_refuted"
   ],
   "note": "For any numeric learner that is sound (numeric_sound), which is proved for actions with one function and convex conditions; with several functions the hull is not modelled."
  },
  {
   "property": "C50",
   "status": "proved",
   "theorems": [
    "C50_uninformative_exact",
    "C50_single_function_exact",
    "C50_single_function_uninformative",
    "C50_one_success_refuted"
   ],
   "note": "For any numeric learner whose verdicts are exact; proved exact for actions with one function after two different successes. With one success it is false (C50_one_success_refuted)."
  },
  {
   "property": "C51",
   "status": "proved",
   "theorems": [
    "C51_training_faithful",
    "C51_safe_model_sound",
    "C51_training_reviewed"
   ],
   "note": "Numeric matching of function values to parameters is not modelled."
  },
  {
   "property": "C52",
   "status": "proved",
   "theorems": [
    "C52_supersets_are_unions",
    "C52_every_union_is_a_superset",
    "C52_superset_count"
   ],
   "note": ""
  },
  {
   "property": "C53",
   "status": "proved",
   "theorems": [
    "C53_macro_actions_safe",
    "C53_macro_plan_lines",
    "C53_other_actions_safe",
    "C53_learning_succeeds",
    "C53_macros_constructed",
    "C53_shared_parameter_names_refuted",
    "C53_learning_succeeds_with_constants_refuted",
    "C53_actions_keep_their_names_refuted"
   ],
   "note": "For the default policy no_remove. False with parameter names shared between actions, with constants and with clashing names (refuted)."
  },
  {
   "property": "C54",
   "status": "proved",
   "theorems": [
    "C54_macro_parameter_types",
    "C54_incomparable_types_refuted"
   ],
   "note": ""
  },
  {
   "property": "C55",
   "status": "partial",
   "theorems": [
    "C55_precision_blind",
    "C55_spurious_effect_exposed_refuted",
    "C55_inapplicable_after_learned_refuted"
   ],
   "note": "False of the code. What holds is the opposite: precision is 1 whenever the two operators do not contradict each other (C55_precision_blind)."
  },
  {
   "property": "C56",
   "status": "partial",
   "theorems": [
    "C56_semantic_report_written",
    "C56_numeric_report_written",
    "C56_numeric_rows_own_error",
    "C56_multi_agent_report_refuted",
    "C56_repeated_request_refuted"
   ],
   "note": "Proved for the single-agent and numeric calculators (the numeric rows when no policy and number of trajectories is evaluated twice). The multi-agent calculator never writes its report (refuted)."
  },
  {
   "property": "C57",
   "status": "proved",
   "theorems": [
    "C57_numeric_error",
    "C57_never_applicable_refuted",
    "C57_no_functions_refuted"
   ],
   "note": "For states with at least one function; otherwise it raises ValueError (C57_no_functions_refuted). Exact rationals instead of floats."
  },
  {
   "property": "C58",
   "status": "partial",
   "theorems": [
    "C58_ma_precision",
    "C58_idle_agents_refuted"
   ],
   "note": "Holds for the joint actions all of whose members are learned actions; steps with an idle agent are skipped, so the unrestricted claim is false (C58_idle_agents_refuted)."
  },
  {
   "property": "C59",
   "status": "proved",
   "theorems": [
    "C59_reduce",
    "C59_divide",
    "C59_divide_zero"
   ],
   "note": ""
  },
  {
   "property": "C60",
   "status": "proved",
   "theorems": [
    "C60_observed",
    "C60_means",
    "C60_tolerance",
    "C60_rounding_refuted"
   ],
   "note": "Regression, qhull and Gram-Schmidt are oracles assumed exact; with rounding an observation can violate its condition (C60_rounding_refuted), by at most the tolerance of C60_tolerance per plane."
  },
  {
   "property": "C61",
   "status": "proved",
   "theorems": [
    "C61_conditions"
   ],
   "note": ""
  },
  {
   "property": "C62",
   "status": "proved",
   "theorems": [
    "C62_safe",
    "C62_rounding_refuted",
    "C62_unobserved_refuted"
   ],
   "note": "For at least one observation. The hull oracle must be complete and the basis must span the space (C62_case gives such oracles). With rounding the conditions can hold outside the hull (C62_rounding_refuted)."
  },
  {
   "property": "C63",
   "status": "proved",
   "theorems": [
    "C63_separates",
    "C63_count",
    "C63_table",
    "C63_closest",
    "C63_missing_column_refuted",
    "C63_on_plane_refuted",
    "C63_limit_refuted",
    "C63_only_failures_refuted"
   ],
   "note": "scikit-learn's classifier is an oracle. Without the hypotheses the claim is false of the code: see the refuted variants."
  },
  {
   "property": "C64",
   "status": "proved",
   "theorems": [
    "C64_functions_matched"
   ],
   "note": ""
  },
  {
   "property": "C65",
   "status": "proved",
   "theorems": [
    "C65_numeric_action_safe",
    "C65_observed_states_allowed",
    "C65_no_functions_refuted",
    "C65_exact"
   ],
   "note": "Regression, hull and basis procedures are oracles assumed exact. An observed action that can mention no function makes the whole run raise AttributeError (C65_no_functions_refuted)."
  },
  {
   "property": "C66",
   "status": "partial",
   "theorems": [
    "C66_numeric_effects_partial"
   ],
   "note": "All statements other than scale-down, which are wrong (C37_scale_down_refuted); without allow_unsafe."
  },
  {
   "property": "C67",
   "status": "proved",
   "theorems": [
    "C67_report",
    "C67_discrete_part",
    "C67_own_observations",
    "C67_no_functions",
    "C67_inequalities_lost_refuted"
   ],
   "note": "The discrete part lacks SAM's inequality preconditions (C67_inequalities_lost_refuted)."
  },
  {
   "property": "C68",
   "status": "proved",
   "theorems": [
    "C68_exact",
    "C68_observed",
    "C68_order",
    "C68_total",
    "C68_reset",
    "C68_relevant_refuted",
    "C68_early_reset_refuted",
    "C68_unobserved_refuted"
   ],
   "note": "Regression, qhull and Gram-Schmidt are oracles assumed exact (C68_case gives such oracles). Without the hypothesis on the relevant fluents the claim is false (C68_relevant_refuted)."
  },
  {
   "property": "C69",
   "status": "partial",
   "theorems": [
    "C69_safe_partial",
    "C69_complete",
    "C69_copy",
    "C69_equation_refuted",
    "C69_reset_refuted"
   ],
   "note": "A yes guarantees the inequalities up to the tolerance but not the equations of constant and dependent fluents, which the code does not test (C69_equation_refuted)."
  },
  {
   "property": "C70",
   "status": "partial",
   "theorems": [
    "C70_safe_exact",
    "C70_total",
    "C70_inside_complete",
    "C70_inside_partial",
    "C70_optimistic_separates",
    "C70_effects_agree",
    "C70_failures_irrelevant",
    "C70_unobserved_refuted",
    "C70_no_functions_refuted"
   ],
   "note": "A yes of the membership test guarantees the inequalities up to the tolerance, not the equations (C69_equation_refuted). The numeric libraries are oracles assumed exact."
  },
  {
   "property": "C71",
   "status": "partial",
   "theorems": [
    "C71_total",
    "C71_all_actions",
    "C71_exact",
    "C71_observed",
    "C71_safe_partial",
    "C71_unobserved_refuted",
    "C71_unfit_refuted",
    "C71_blame_refuted"
   ],
   "note": "For actions with a success. Numeric effects of the form scale-down are left out of the comparison, since their factor is wrong (C37_scale_down_refuted). Without a success, the exported action can have no precondition (C71_unobserved_refuted). The discrete evidence of failures is not covered: it can be wrong (C71_blame_refuted)."
  },
  {
   "property": "C72",
   "status": "partial",
   "theorems": [
    "C72_inside",
    "C72_known_failure",
    "C72_not_applicable_partial",
    "C72_equation_refuted"
   ],
   "note": "A sample called not applicable has a failure that roughly satisfies the inequalities; the equations are not tested, so the verdict can be wrong (C72_equation_refuted)."
  },
  {
   "property": "C73",
   "status": "proved",
   "theorems": [
    "C73_all_actions",
    "C73_includes_safe",
    "C73_effects",
    "C73_failures"
   ],
   "note": "For actions with a success, and classifiers that separate the successes of the action from each of its failures (trained_separably). Failures blamed on literals are not covered: that blame can be wrong (C71_blame_refuted)."
  },
  {
   "property": "C74",
   "status": "partial",
   "theorems": [
    "C74_exact",
    "C74_nothing_listed",
    "C74_observed_states_allowed",
    "C74_action_safe",
    "C74_effects_partial",
    "C74_report",
    "C74_processed",
    "C74_no_functions",
    "C74_batch",
    "C74_relevant_refuted"
   ],
   "note": "Numeric effects of the form scale-down are left out of the comparison, since their factor is wrong (C37_scale_down_refuted). The list of relevant fluents is not used for preconditions (C74_relevant_refuted), so the comparison of conditions with the batch learner is for runs without such a list. The numeric libraries are oracles assumed exact."
  },
  {
   "property": "C75",
   "status": "partial",
   "theorems": [
    "C75_learning_raises",
    "C75_learning_nothing"
   ],
   "note": "The first half of the claim is false: learning from any component raises TypeError (C75_learning_raises), since the component handler passes an argument that the snapshot does not accept. The second half is proved."
  },
  {
   "property": "C76",
   "status": "proved",
   "theorems": [
    "C76_recorded_effects",
    "C76_clause_contains_effect",
    "C76_formula_meaning",
    "C76_false_literals_stay_candidates_refuted"
   ],
   "note": "For a client that takes the snapshot of each transition and calls handle_effects. The excluded literals are ground while clauses are lifted, so they hardly ever exclude anything (C76_false_literals_stay_candidates_refuted). The nnf package is modelled for clauses of positive variables."
  },
  {
   "property": "C77",
   "status": "partial",
   "theorems": [
    "C77_merged_parameters",
    "C77_proxy_meaning_partial",
    "C77_proxy_loses_arguments_refuted",
    "C77_constant_raises_refuted"
   ],
   "note": "The meaning of proxies is proved when merging joins no two arguments of one literal and no literal mentions a constant. Otherwise the proxy has a literal with too few arguments (C77_proxy_loses_arguments_refuted), or construction raises KeyError (C77_constant_raises_refuted)."
  },
  {
   "property": "C78",
   "status": "proved",
   "theorems": [
    "C78_unique_choice",
    "C78_other_choices_raise"
   ],
   "note": "More than one choice raises KeyError since the table of encoders is never filled; so no proxy action is ever installed."
  },
  {
   "property": "C79",
   "status": "partial",
   "theorems": [
    "C79_injective_effects_partial",
    "C79_repeated_objects_unsafe_refuted"
   ],
   "note": "Proved for calls with different objects, without constants, and whose objects are not named like parameters. With repeated objects the only choice left can contain effects that the real action does not have (C79_repeated_objects_unsafe_refuted). Domains declare each predicate once."
  },
  {
   "property": "C80",
   "status": "proved",
   "theorems": [
    "C80_quantified_dependencies_exact",
    "C80_missing_entry_raises"
   ],
   "note": "Executions succeed, use different objects that are not constants, and each change involves at most one further object, of a type listed for the action; other changes raise (examples in UcExamples.v). Types are matched by name as in the code: objects of a subtype are not objects of the type."
  },
  {
   "property": "C81",
   "status": "proved",
   "theorems": [
    "C81_learned_actions"
   ],
   "note": "Same assumptions as C80. What is learned is stated by learned_quantified in UcSpec.v."
  },
  {
   "property": "C82",
   "status": "partial",
   "theorems": [
    "C82_real_preconditions_kept",
    "C82_effects_are_real",
    "C82_safe_partial",
    "C82_unseen_quantified_refuted",
    "C82_nested_preconditions_refuted"
   ],
   "note": "Same successor state proved when no literal that never became true has a single explanation left, no restrictive effect stands next to a certain one, and iteration over preconditions does not visit nested literals. Without these the claim is false of the code: C82_unseen_quantified_refuted, C48_restrictive_effect_lost_refuted, C82_nested_preconditions_refuted."
  },
  {
   "property": "C83",
   "status": "proved",
   "theorems": [
    "C83_explores",
    "C83_retries_end",
    "C83_initial_goal_refuted"
   ],
   "note": "Random choices are fair (a shuffle is a permutation, a choice without replacement takes positions of the list), the ground actions of each environment are different. Explorations that raise (environment errors, regression failures) are outside. The goal of the first state is never tested: C83_initial_goal_refuted."
  },
  {
   "property": "C84",
   "status": "partial",
   "theorems": [
    "C84_learns",
    "C84_safe_partial",
    "C84_stopped_refuted",
    "C84_empty_plan_refuted"
   ],
   "note": "What is learned and the results are proved in full; safety of the exported actions has the assumptions of C71 (exact libraries, clean values, observed actions). An inapplicable plan counts as a success if the goal holds where it stopped; an empty plan that does not reach the goal raises IndexError."
  },
  {
   "property": "C85",
   "status": "proved",
   "theorems": [
    "C85_choice",
    "C85_starvation_wins",
    "C85_informative_refuted"
   ],
   "note": "The last execution of an action is stored as the step of its episode but compared with the number of executions in all episodes, so in the end every action starves."
  },
  {
   "property": "C86",
   "status": "proved",
   "theorems": [
    "C86_solved",
    "C86_repeated_refuted"
   ],
   "note": "Assumes exact libraries and clean values as C71, and that every action was observed or can mention a predicate. The exported domain does not say that the parameters differ: a plan that repeats an object can raise ValueError (C86_repeated_refuted)."
  },
  {
   "property": "C87",
   "status": "proved",
   "theorems": [
    "C87_solve",
    "C87_directory",
    "C87_relative_refuted",
    "C87_declared_refuted"
   ],
   "note": "A process with exit code 0 is assumed to have left its solution file. With a relative planner directory, as is the default, the second problem of a directory raises (C87_relative_refuted); exit code 0 with any other text counts as no solution (C87_declared_refuted)."
  },
  {
   "property": "C88",
   "status": "proved",
   "theorems": [
    "C88_solve",
    "C88_directory",
    "C88_stale_refuted"
   ],
   "note": "An old plan stays in place after a failure (C88_stale_refuted)."
  },
  {
   "property": "C89",
   "status": "partial",
   "theorems": [
    "C89_solve_partial",
    "C89_directory",
    "C89_cwd_refuted",
    "C89_relative_refuted",
    "C89_stale_refuted"
   ],
   "note": "The working directory is not restored after a negative answer (C89_cwd_refuted); everything else is proved. The directory theorem is for a planner directory given from the root (C89_relative_refuted)."
  },
  {
   "property": "C90",
   "status": "partial",
   "theorems": [
    "C90_walk",
    "C90_truthful_partial",
    "C90_truthful_refuted",
    "C90_no_actions_refuted"
   ],
   "note": "The walk is proved in full; that every step is one the domain shows needs an inapplicable ground action in every state, since otherwise an applicable one is recorded without its effect (C90_truthful_refuted)."
  },
  {
   "property": "C91",
   "status": "partial",
   "theorems": [
    "C91_actions",
    "C91_files",
    "C91_in_place_partial",
    "C91_again_refuted"
   ],
   "note": "In full with a separate output directory. In the directory of the problems the first run is proved if no problem is named like the walk of another; a second run walks the copies (C91_again_refuted)."
  },
  {
   "property": "C92",
   "status": "proved",
   "theorems": [
    "C92_folds",
    "C92_triplets_refuted",
    "C92_zero_folds_refuted",
    "C92_no_iterations_refuted",
    "C92_resave_refuted",
    "C92_leftover_refuted"
   ],
   "note": "The directory that experiments with triplets read exists only after loading the settings (C92_triplets_refuted). Zero folds, an empty list of iterations, fewer folds than recorded and directories left from before are the refuted cases."
  },
  {
   "property": "C93",
   "status": "proved",
   "theorems": [
    "C93_statistics",
    "C93_no_report_refuted",
    "C93_unlearned_recall_refuted"
   ],
   "note": "The optional report is needed (C93_no_report_refuted); the column num_discrete_effects and the file of numeric statistics are always empty (in C93_statistics); an action that was not learned gets recall 1 (C93_unlearned_recall_refuted)."
  },
  {
   "property": "C94",
   "status": "partial",
   "theorems": [
    "C94_collected",
    "C94_each_run_once",
    "C94_missing_run",
    "C94_numeric_collection",
    "C94_triplets_repeated",
    "C94_triplets_refuted",
    "C94_semantic_triplets_refuted",
    "C94_multi_agent_refuted"
   ],
   "note": "Proved for the statistics with iterations. With triplets the code violates the property: rows are repeated, and the semantic statistics are never found, so that collecting multi-agent results always raises."
  },
  {
   "property": "C95",
   "status": "partial",
   "theorems": [
    "C95_pieces",
    "C95_baseline_trajectory",
    "C95_baseline_trajectory_idle",
    "C95_experiment",
    "C95_baseline_finishes",
    "C95_ma_sam_finishes",
    "C95_baseline_alone_refuted",
    "C95_ma_sam_constant_refuted",
    "C95_ma_sam_constant_last_refuted"
   ],
   "note": "Proved for the SAM baseline and, in domains without constants, for MA-SAM and MA-SAM+. With a constant MA-SAM violates the property (C95_ma_sam_constant_refuted); the baseline raises when no two agents act together (C95_baseline_alone_refuted)."
  },
  {
   "property": "C96",
   "status": "partial",
   "theorems": [
    "C96_comparison",
    "C96_comparison_exact",
    "C96_single_plan",
    "C96_statuses",
    "C96_observations",
    "C96_no_fault",
    "C96_localised_partial",
    "C96_ok_means_same",
    "C96_complaint",
    "C96_not_applicable_refuted",
    "C96_small_difference_refuted",
    "C96_new_predicate_refuted",
    "C96_blame_refuted",
    "C96_hyphen_refuted"
   ],
   "note": "Proved for plans that the model can execute, integral values and states that list all predicates. Otherwise another action can be named (C96_blame_refuted, C96_small_difference_refuted, C96_new_predicate_refuted). No plan is ever reported as not applicable (C96_not_applicable_refuted). Operators and the validator are oracles."
  },
  {
   "property": "C97",
   "status": "proved",
   "theorems": [
    "C97_repair",
    "C97_not_learned",
    "C97_repaired_plans",
    "C97_repaired_no_fault"
   ],
   "note": "Numeric SAM is a variable that returns actions and a report; its safety is the hypothesis no_bolder (C65, C66 are about the learner itself)."
  },
  {
   "property": "C98",
   "status": "partial",
   "theorems": [
    "C98_cross_validation_partial",
    "C98_joint_reports_refuted",
    "C98_single_fold_refuted",
    "C98_fold_done",
    "C98_fold_frame",
    "C98_frame",
    "C98_honest"
   ],
   "note": "Proved but for the joint reports: the combined semantic performance has the last fold only and the joint learning statistics are empty (C98_joint_reports_refuted). A numeric fold that is run by itself measures the semantic performance on another directory than its test set (C98_single_fold_refuted). Parsers, learner, validator and measures are variables that succeed in C98_cross_validation_partial; C98_honest and C98_fold_done say that a run and a fold without an error had their answers, whatever the tools are, and C98_fold_frame and C98_frame what no run changes, whatever they answer."
  },
  {
   "property": "C99",
   "status": "partial",
   "theorems": [
    "C99_visits_partial",
    "C99_safe_partial",
    "C99_names",
    "C99_exhausted",
    "C99_plan",
    "C99_hyphen_refuted",
    "C99_failures_per_episode_refuted",
    "C99_waiting_refuted",
    "C99_plans_not_counted_refuted"
   ],
   "note": "Proved for every run that ends: the visits, what is learned from and in which order, what waits in which files, the rows, and the safety of the safe domain. Missing: the explorations after the last planned problem are never learned from (C99_waiting_refuted), the failed steps are counted over all problems instead of per episode (C99_exhausted, C99_failures_per_episode_refuted), and a run with a problem whose name has a hyphen raises when its trajectories are read (C99_hyphen_refuted; C99_names for other names). Runs that raise are not characterised."
  },
  {
   "property": "C100",
   "status": "partial",
   "theorems": [
    "C100_recorded",
    "C100_semi",
    "C100_unified",
    "C100_no_files",
    "C100_folds_partial",
    "C100_labels",
    "C100_stack",
    "C100_solver_column",
    "C100_table",
    "C100_semantic",
    "C100_solving",
    "C100_main",
    "C100_labels_refuted",
    "C100_missing_refuted",
    "C100_categories_refuted",
    "C100_solver_refuted",
    "C100_main_refuted"
   ],
   "note": "Proved: which episodes are collected, in which order, all added columns, the table of all algorithms, the files of the evaluation. Missing because it is false: the label is the position of the file in the order of names, which is the fold exactly for at most ten folds numbered from 0 (C100_labels, C100_labels_refuted, C100_missing_refuted); an episode whose optimistic plan was not applicable but whose goal was reached is in two categories (C100_stack, C100_categories_refuted); the script raises without evaluation files of noam_learning (C100_main_refuted)."
  },
  {
   "property": "C101",
   "status": "partial",
   "theorems": [
    "C101_prepared",
    "C101_separate",
    "C101_no_first_iteration",
    "C101_more_folds_refuted",
    "C101_later_iterations_refuted",
    "C101_stale_refuted",
    "C101_prefix_refuted"
   ],
   "note": "Proved for a directory without settings whose files are complete, for no or any list of numbers of trajectories that has 1, and for a second run with the same number of folds and the same list. Missing because it is false: a list without 1 (C101_no_first_iteration), a second run with more folds (C101_more_folds_refuted) or with a list where the first run had none (C101_later_iterations_refuted), evaluation directories of an earlier run whose settings were removed (C101_stale_refuted), a prefix that the domain's name has (C101_prefix_refuted). The random walks are an oracle that only writes files of walks."
  },
  {
   "property": "C102",
   "status": "partial",
   "theorems": [
    "C102_fold",
    "C102_semi",
    "C102_evaluated",
    "C102_collected",
    "C102_safe_partial",
    "C102_unreadable",
    "C102_order",
    "C102_own_file",
    "C102_hull_refuted"
   ],
   "note": "Trials, lessons, rows, files and evaluated domains are proved for all runs that end without an exception. Partial: safety and plans are proved within the input condition of C84 (online_input, exact libraries). Missing because it is false: the order of the numbers for more than ten problems (C102_order), a result despite a problem file that cannot be read (C102_unreadable) or a convex hull that fails (C102_hull_refuted). The evaluation of the two domains itself is not modelled here."
  },
  {
   "property": "C103",
   "status": "proved",
   "theorems": [
    "C103_idle",
    "C103_file",
    "C103_rate",
    "C103_noop_refuted",
    "C103_capital_refuted"
   ],
   "note": "For ASCII text with lines separated by newlines; the number of printed decimals is not modelled. The refuted theorems say what is not recognised: noop and no-op with arguments count as acting, and lines with a capital letter in operators are not counted."
  },
  {
   "property": "C104",
   "status": "partial",
   "theorems": [
    "C104_plan",
    "C104_files",
    "C104_stem",
    "C104_combined",
    "C104_missing_refuted",
    "C104_bad_folder_refuted",
    "C104_dots_refuted",
    "C104_goal_refuted"
   ],
   "note": "Proved for an exporter that executes the dummy actions as the enhanced domain defines them and for plans without dummy actions of their own; a plan that only the enhanced domain accepts leaves files in that directory alone (C104_files). The refuted theorems say when the claim fails: a solution without a problem file ends the run, one folder that cannot be converted ends the run, folders whose names differ after the last dot overwrite each other, and the dummy predicate may be put in the goal although no agent is ever idle, so that the trajectory does not reach it."
  },
  {
   "property": "C105",
   "status": "proved",
   "theorems": [
    "C105_trajectories",
    "C105_again",
    "C105_fix",
    "C105_enhsp",
    "C105_metric_ff",
    "C105_fast_downward",
    "C105_relative_refuted"
   ],
   "note": "On top of C87, C88 and C89; the theorems ask that problems of the directory can be parsed, that every old plan has its problem file and that the exporter raises only the two exceptions that are caught. C105_relative_refuted: with Fast Downward a directory given from the working directory is looked for in the planner's directory, so that the generation fails. Random trajectories are C91."
  },
  {
   "property": "C106",
   "status": "proved",
   "theorems": [
    "C106_state",
    "C106_literals",
    "C106_upper",
    "C106_name",
    "C106_file",
    "C106_before",
    "C106_total",
    "C106_one_bad_refuted",
    "C106_stale_refuted",
    "C106_empty_refuted"
   ],
   "note": "The reader of files and states is part of the specification (PmtSpec.v). A file is the list of its lines, so the texts of calls and states are taken to contain no line break; literals and fluents are shown in matching brackets and differ by more than case. The renaming of parameters is a variable. Refuted beyond the claim: one trajectory that cannot be read prevents the file, an old file hides new trajectories, and a trajectory without steps shows no state."
  },
  {
   "property": "C107",
   "status": "proved",
   "theorems": [
    "C107_result",
    "C107_relative_refuted",
    "C107_late_refuted",
    "C107_report_refuted"
   ],
   "note": "With directories given from the root and a fresh output name. The preparation of the evaluation and of the statistics is not modelled. Refuted beyond the claim: with a relative directory the call fails, the output of a killed PlanMiner is taken as learned, and an unreadable output is reported with a learning time."
  },
  {
   "property": "C108",
   "status": "partial",
   "theorems": [
    "C108_iterations",
    "C108_numeric",
    "C108_once",
    "C108_multi_agent",
    "C108_directories",
    "C108_online_refuted",
    "C108_too_large_refuted",
    "C108_whole_refuted",
    "C108_twice_refuted",
    "C108_folds_refuted",
    "C108_unlisted_refuted"
   ],
   "note": "Proved for the numeric and the multi-agent program (exactly once and directories: numeric). Refuted: the job of the folds of every online experiment ends with an error (an argument its parser does not know), so that their jobs have no directories. Also refuted beyond the claim: numbers of trajectories above the size of the training set, the whole training set is left out, a short job is submitted twice, folds above five have no directories, and an algorithm that the experiments can run is refused after the folds were made. Arguments contain no spaces."
  },
  {
   "property": "C109",
   "status": "partial",
   "theorems": [
    "C109_multi_agent",
    "C109_nsam",
    "C109_nsam_possible",
    "C109_solo",
    "C109_online",
    "C109_online_possible",
    "C109_boundaries",
    "C109_filled",
    "C109_missing_refuted",
    "C109_other_refuted",
    "C109_overflow_refuted",
    "C109_times",
    "C109_times_possible",
    "C109_conditional",
    "C109_conditional_possible",
    "C109_one_domain_refuted"
   ],
   "note": "Proved for every table with results of the three algorithms and, for the online figure, for every table whose episodes are in one category each. Refuted without: there is no figure when one of the three algorithms has no results (IndexError) or when there are others (numeric: KeyError; several agents: the legend gives a line the name of another algorithm), and an episode in two categories makes the layers leave the figure. The exploration times are proved for every table with the two columns, the figure of conditional effects for every table with at least two domains; a single domain has no figure (TypeError, C109_one_domain_refuted). The deviation is a variable; colours, axes and files are not modelled."
  },
  {
   "property": "C110",
   "status": "partial",
   "theorems": [
    "C110_jobs",
    "C110_collected",
    "C110_missing_algorithm_refuted",
    "C110_unknown_option_refuted"
   ],
   "note": "Proved for every experiment that compares the three numeric algorithms and has only options of their program. Refuted without: an experiment that leaves one of the three out has its solving results collected, then the first figure raises and the other two files are never written; and with an option that the program does not have every job ends with an error. That jobs of the cluster run and export is a hypothesis (ran, reportable, reports_itself); C111 shows that the program at this commit meets it for two of the three algorithms only."
  },
  {
   "property": "C111",
   "status": "partial",
   "theorems": [
    "C111_job",
    "C111_honest",
    "C111_own_files",
    "C111_jobs",
    "C111_no_learner_refuted",
    "C111_never_collected_refuted"
   ],
   "note": "Proved for every job for which the external tools give an answer, in any order and number, and for the frame of every job. Refuted: naive_nsam, which the submission offers and the figures require, has no learner in NUMERIC_SAM_ALGORITHM_VERSIONS, so its jobs end with KeyError; as a consequence no results of jobs of this program can ever be collected completely. Learners, PlanMiner, validator and measures are functions here (modelled in other properties); what PlanMiner leaves in the training directory is not tracked."
  },
  {
   "property": "C112",
   "status": "partial",
   "theorems": [
    "C112_evaluation",
    "C112_honest",
    "C112_own_files",
    "C112_script",
    "C112_files",
    "C112_collected",
    "C112_triplets_refuted",
    "C112_goal_oriented_refuted"
   ],
   "note": "Proved for every fold for which the tools answer, the frame for every fold, and the collection for every number of folds of noam_learning. Refuted: the reported number of triplets is that of one trajectory in a format the project does not write (0 for its own trajectories), and goal_oriented_explorer gets the measures without numeric effects in a file that the collection does not look for. Solvers and measures are functions of the texts (modelled in other properties); the three collections are proved one by one on what the scripts leave, their sequence is C100_main and C100_table."
  },
  {
   "property": "C113",
   "status": "partial",
   "theorems": [
    "C113_submitted",
    "C113_honest",
    "C113_enhsp",
    "C113_metric_ff",
    "C113_fast_downward",
    "C113_number_refuted",
    "C113_relative_refuted",
    "C113_trajectories_refuted"
   ],
   "note": "Proved for timeouts and tolerances that are texts in the configuration, and for Metric-FF with a working directory given from the root. Refuted: a timeout that is a number ends the submission with a TypeError before anything is submitted; with a relative working directory no plan of Metric-FF gets there; the creation of trajectories is never submitted."
  },
  {
   "property": "C114",
   "status": "partial",
   "theorems": [
    "C114_cancelled",
    "C114_honest",
    "C114_refused_refuted",
    "C114_exchanged_refuted",
    "C114_quit_refuted"
   ],
   "note": "Proved: what is asked of the cluster and what a run that ends by itself leaves, for every answer of the cluster and the user. Refuted: a job that is refused ends the run and the later ones go on; quitting with Ctrl-C removes the temp.sbatch of a submission in the same directory, or raises when there is none. Beyond the claim: exchanged numbers cancel nothing without an error. Interrupts while scancel runs are not modelled."
  }
 ]
}