{"id": "C01", "title": "SAM action models are safe", "statement": "For every action that SAMLearner.learn_action_model returned with preconditions and effects learned from trajectories of some deterministic STRIPS domain: whenever the learned action is applicable in a state under an assignment of pairwise distinct non-constant objects to its parameters, the real action is applicable in that state under the same assignment, and both produce the same successor state.", "quantifier": "all real domains (typed STRIPS with constants, negative preconditions), all finite sets of trajectories of any length produced by that domain, all states (also never observed ones), all injective bindings", "why_tests_cant": "safety quantifies over states and bindings that were never observed and over every possible hidden real domain; tests compare a handful of learned domains with one reference", "anchors": ["sam_learning/learners/sam_learning.py:SAMLearner.learn_action_model", "sam_learning/learners/sam_learning.py:SAMLearner.add_new_action", "sam_learning/learners/sam_learning.py:SAMLearner.update_action"]}
{"id": "C02", "title": "SAM never loses a real precondition", "statement": "After any sequence of successful trajectory components generated by a real domain, the learned preconditions of every observed action contain every precondition of the real action.", "quantifier": "all real domains, all component sequences, all actions", "why_tests_cant": "a lost precondition shows only after a particular combination of pre-states", "anchors": ["sam_learning/learners/sam_learning.py:SAMLearner._add_new_action_preconditions", "sam_learning/learners/sam_learning.py:SAMLearner._update_action_preconditions"]}
{"id": "C03", "title": "Learned preconditions are exactly the common part of all observed pre-states", "statement": "A literal is a learned precondition of an observed action iff it is a well-typed literal over the action's parameters and constants whose grounding held in the pre-state of every learned component of that action.", "quantifier": "all component sequences, all literals", "why_tests_cant": "exactness for every sequence is an induction over histories", "anchors": ["sam_learning/learners/sam_learning.py:SAMLearner._add_new_action_preconditions", "sam_learning/learners/sam_learning.py:SAMLearner._update_action_preconditions", "sam_learning/core/predicates_matcher.py:PredicatesMatcher.get_possible_literal_matches"]}
{"id": "C04", "title": "Learned effects are exactly the observed changes and are real effects", "statement": "A literal is a learned effect of an observed action iff some learned component of that action changed the value of its grounding to that polarity; every learned effect is an effect of the real action.", "quantifier": "all real domains, all component sequences, all literals (calls with pairwise distinct non-constant objects)", "why_tests_cant": "spurious effects need particular bindings; completeness quantifies over all histories", "anchors": ["sam_learning/learners/sam_learning.py:SAMLearner._handle_action_effects", "sam_learning/core/matching_utils.py:extract_discrete_effects"]}
{"id": "C05", "title": "Learning is monotone", "statement": "Feeding one more component never adds a precondition to an already observed action, never removes an effect (in domains without constants), and never touches any other action.", "quantifier": "all learner states reachable by any history, all components", "why_tests_cant": "must hold at every point of every history", "anchors": ["sam_learning/learners/sam_learning.py:SAMLearner.handle_single_trajectory_component"]}
{"id": "C06", "title": "Learning is independent of the order of the observations", "statement": "Learning from the same successful components in any order gives the same sets of preconditions, effects and inequality preconditions for every action.", "quantifier": "all permutations of all component lists (domains without constants)", "why_tests_cant": "n! orders for each history", "anchors": ["sam_learning/learners/sam_learning.py:SAMLearner.learn_action_model"]}
{"id": "C07", "title": "Failed and duplicate-argument components teach nothing about literals", "statement": "A component that is marked unsuccessful leaves the learner state unchanged; a component whose call repeats an object leaves preconditions and effects of every action unchanged and only deletes inequality preconditions between parameters bound to the same object.", "quantifier": "all learner states, all such components", "why_tests_cant": "must hold in any learner state", "anchors": ["sam_learning/learners/sam_learning.py:SAMLearner.learn_action_model", "sam_learning/learners/sam_learning.py:SAMLearner._verify_parameter_duplication"]}
{"id": "C08", "title": "Every learned-from transition is explained by the learned model", "statement": "After learning, for each component that was learned from, the learned action under the observed binding is applicable in the observed pre-state, and applying the learned effects gives exactly the observed post-state on all atoms over the call's objects and constants.", "quantifier": "all histories, all their components", "why_tests_cant": "later components could break the explanation of earlier ones", "anchors": ["sam_learning/learners/sam_learning.py:SAMLearner.learn_action_model"]}
{"id": "C09", "title": "Unobserved actions are not executable in the learned domain", "statement": "With the default policy, an action that was never learned from gets a precondition set that no state satisfies under any assignment, whenever at least one well-typed literal over its parameters exists.", "quantifier": "all domains, all histories, all states", "why_tests_cant": "quantifies over all states", "anchors": ["sam_learning/learners/sam_learning.py:SAMLearner._handle_unobserved_actions", "sam_learning/core/vocabulary_creator.py:VocabularyCreator.create_lifted_vocabulary"]}
{"id": "C10", "title": "Negative-precondition policies remove only what they say", "statement": "no_remove changes nothing; hard removes exactly the negative literals; soft removes exactly the negative literals whose positive form is a learned add effect; effects, positive and inequality preconditions are never changed; applying a policy twice equals applying it once.", "quantifier": "all domains and all precondition/effect sets", "why_tests_cant": "all combinations of literals and policies", "anchors": ["sam_learning/learners/sam_learning.py:SAMLearner.remove_negative_preconditions", "sam_learning/learners/sam_learning.py:SAMLearner.handle_negative_preconditions_policy"]}
{"id": "C11", "title": "Inequality preconditions are exactly the never-violated same-type pairs", "statement": "After learning, an ordered pair of distinct parameters is an inequality precondition iff both have the same type, injective binding is enforced and no successful observed call bound both to the same object.", "quantifier": "all histories and all pairs of parameters", "why_tests_cant": "set of pairs after any history", "anchors": ["sam_learning/learners/sam_learning.py:SAMLearner.deduce_initial_inequality_preconditions", "sam_learning/learners/sam_learning.py:SAMLearner._verify_parameter_duplication"]}
{"id": "C12", "title": "Repeated calls to learn_action_model", "statement": "Calling learn_action_model on the trajectories in several batches gives the same model as one call with all trajectories; in any case the resulting preconditions are never weaker than those of the single call.", "quantifier": "all splits of all histories into batches", "why_tests_cant": "all splits", "anchors": ["sam_learning/learners/sam_learning.py:SAMLearner.learn_action_model", "sam_learning/learners/sam_learning.py:SAMLearner._complete_possibly_missing_actions", "sam_learning/learners/sam_learning.py:SAMLearner._handle_unobserved_actions"]}
{"id": "C13", "title": "Learning report classifies every action exactly once", "statement": "The report returned with the model has exactly one entry for each action of the returned domain, and it says UNOBSERVED iff the action was never learned from.", "quantifier": "all histories, all actions", "why_tests_cant": "all observed/unobserved/safe combinations", "anchors": ["sam_learning/learners/sam_learning.py:SAMLearner._construct_learning_report"]}
{"id": "C14", "title": "State snapshots are complete and consistent", "statement": "The snapshot of a state for a call contains, for each well-typed atom over pairwise distinct objects among the call's objects and the constants, exactly one of the positive and negative literal, the positive one iff the atom is in the state; and it contains nothing else.", "quantifier": "all domains, states, calls", "why_tests_cant": "all typed combinations of objects of any number", "anchors": ["sam_learning/core/environment_snapshot.py:EnvironmentSnapshot.create_discrete_state_snapshot", "sam_learning/core/environment_snapshot.py:EnvironmentSnapshot.create_triplet_snapshot"]}
{"id": "C15", "title": "Grounded predicate vocabulary is exact", "statement": "create_grounded_predicate_vocabulary returns exactly the atoms of domain predicates whose arguments are distinct objects or constants with matching (sub)types in each position.", "quantifier": "all domains, object lists", "why_tests_cant": "all sizes", "anchors": ["sam_learning/core/vocabulary_creator.py:VocabularyCreator.create_grounded_predicate_vocabulary", "sam_learning/core/vocabulary_creator.py:VocabularyCreator._validate_type_matching"]}
{"id": "C16", "title": "Lifted vocabulary is exact and closed under negation", "statement": "create_lifted_vocabulary returns exactly the positive and negative literals of domain predicates whose arguments are distinct parameters or constants of matching (sub)types, restricted to those mentioning the required parameter when one is given.", "quantifier": "all domains, signatures, required parameters", "why_tests_cant": "all sizes", "anchors": ["sam_learning/core/vocabulary_creator.py:VocabularyCreator.create_lifted_vocabulary"]}
{"id": "C17", "title": "Grounded action vocabulary is exact", "statement": "create_grounded_actions_vocabulary returns exactly the calls of domain actions whose arguments are objects or constants of the parameter's (sub)type, including calls that repeat an object.", "quantifier": "all domains, object sets", "why_tests_cant": "all sizes", "anchors": ["sam_learning/core/vocabulary_creator.py:VocabularyCreator.create_grounded_actions_vocabulary"]}
{"id": "C18", "title": "Literal matching is sound, complete and unique for injective calls", "statement": "Each literal returned by match_predicate_to_action_literals grounds back, under the call's binding, to the given ground literal with the same polarity; each literal over distinct parameters/constants that grounds to it is returned; with pairwise distinct non-constant objects there is at most one match, and get_injective_match returns it.", "quantifier": "all calls, all ground literals", "why_tests_cant": "permutation based search over all arities", "anchors": ["sam_learning/core/predicates_matcher.py:PredicatesMatcher.match_predicate_to_action_literals", "sam_learning/core/predicates_matcher.py:PredicatesMatcher.get_injective_match", "sam_learning/core/matching_utils.py:create_signature_permutations"]}
{"id": "C19", "title": "Effect extraction is exact", "statement": "extract_discrete_effects returns exactly the positive literals that became true and the negations of the positive literals that are no longer true; extract_not_effects returns exactly the complement literals of the next state.", "quantifier": "all pairs of literal sets", "why_tests_cant": "all sets", "anchors": ["sam_learning/core/matching_utils.py:extract_discrete_effects", "sam_learning/core/matching_utils.py:extract_not_effects"]}
{"id": "C20", "title": "Multi-agent effect clauses stay true of the real domain", "statement": "For joint actions of a real domain, each clause (set of action/effect pairs) kept for a literal contains at least one pair that is a real effect, and nothing recorded as a non-effect is a real effect, after any history of observations.", "quantifier": "all real domains, all histories of clause additions and non-effects", "why_tests_cant": "all interleavings of additions and removals", "anchors": ["sam_learning/core/propositional_operations/literals_cnf.py:LiteralCNF.add_possible_effect", "sam_learning/core/propositional_operations/literals_cnf.py:LiteralCNF.add_not_effect"]}
{"id": "C21", "title": "Effects extracted from clauses are certain", "statement": "If the clauses are true of the real domain, every effect that extract_action_effects returns for an action is a real effect of it, and if is_action_safe holds then each real effect of the action mentioned in some clause is either returned or already guaranteed by the preconditions.", "quantifier": "all clause sets, all real domains consistent with them", "why_tests_cant": "all assignments satisfying the clauses", "anchors": ["sam_learning/core/propositional_operations/literals_cnf.py:LiteralCNF.is_action_safe", "sam_learning/core/propositional_operations/literals_cnf.py:LiteralCNF.extract_action_effects"]}
{"id": "C22", "title": "MA-SAM safe actions are safe", "statement": "For trajectories of joint actions of a real domain, any action that the multi-agent learner reports as safe is applicable only where the real one is, and has the same outcome when executed alone.", "quantifier": "all real multi-agent domains, joint trajectories, states, bindings", "why_tests_cant": "quantifies over unobserved states and hidden domains", "anchors": ["sam_learning/learners/multi_agent_sam.py:MultiAgentSAM.learn_combined_action_model", "sam_learning/learners/multi_agent_sam.py:MultiAgentSAM.update_multiple_executed_actions", "sam_learning/learners/multi_agent_sam.py:MultiAgentSAM.construct_safe_actions"]}
{"id": "C23", "title": "Macro actions expand to the micro actions they were built from", "statement": "Expanding a grounded macro action line gives, for each micro action, its name followed by the objects bound to the macro parameters its own parameters were mapped to, in the micro action's parameter order; lines that are not macro actions are returned unchanged.", "quantifier": "all mappings produced from all action groups and groupings, all objects", "why_tests_cant": "all groups, arities, names", "anchors": ["utilities/macro_actions_parser.py:MacroActionParser.generate_macro_mappings", "utilities/macro_actions_parser.py:MacroActionParser.extract_actions_from_macro_action", "utilities/macro_actions_parser.py:MacroActionParser.generate_macro_action_signature"]}
{"id": "C24", "title": "Parameter groups are merged transitively", "statement": "combine_groupings returns a partition of all mentioned action parameters in which two parameters share a class iff they are linked by a chain of overlapping input groups.", "quantifier": "all lists of groups", "why_tests_cant": "all graphs", "anchors": ["sam_learning/learners/ma_sam_plus.py:combine_groupings"]}
{"id": "C25", "title": "Antecedent combinations are complete", "statement": "create_cnf_combination returns each non-empty subset of the (non-excluded) literals of at most the given size, exactly once.", "quantifier": "all literal sets, all sizes", "why_tests_cant": "exponentially many subsets of unbounded sets", "anchors": ["sam_learning/core/propositional_operations/logical_expression_operations.py:create_cnf_combination"]}
{"id": "C26", "title": "CNF minimisation preserves meaning", "statement": "For any valuation satisfying the assumptions, the minimised clauses hold iff the input clauses hold; when minimisation raises ValueError no valuation satisfies both the assumptions and the clauses.", "quantifier": "all clause lists, all consistent assumption sets, all valuations", "why_tests_cant": "all formulas and valuations", "anchors": ["sam_learning/core/propositional_operations/logical_expression_operations.py:minimize_cnf_clauses", "sam_learning/core/propositional_operations/logical_expression_operations.py:check_complementary_literals", "sam_learning/core/propositional_operations/logical_expression_operations.py:negate_and_convert_to_cnf"]}
{"id": "C27", "title": "Conditional-effect learning never discards the real antecedents", "statement": "In a domain whose conditional effects have conjunctive antecedents of at most the configured size, the dependency set of each literal still contains the real antecedents after any history of removals caused by real transitions.", "quantifier": "all real conditional domains, all histories", "why_tests_cant": "all histories", "anchors": ["sam_learning/core/propositional_operations/dependency_set.py:DependencySet.remove_dependencies", "sam_learning/learners/conditional_sam.py:ConditionalSAM._remove_existing_previous_state_dependencies", "sam_learning/learners/conditional_sam.py:ConditionalSAM._remove_non_existing_previous_state_dependencies"]}
{"id": "C28", "title": "Restrictive preconditions exclude every unsafe triggering", "statement": "The restrictive precondition built for a literal that is not a known effect holds only in states where the literal already holds or none of its remaining candidate antecedents holds.", "quantifier": "all dependency sets, preconditions, states", "why_tests_cant": "all states and all candidate sets", "anchors": ["sam_learning/core/propositional_operations/dependency_set.py:DependencySet.construct_restrictive_preconditions"]}
{"id": "C29", "title": "Additional parameter names are fresh", "statement": "create_additional_parameter_name terminates for every action and returns a name that starts with '?' and the first letter of the type and is not a parameter of the action.", "quantifier": "all signatures and types", "why_tests_cant": "all signatures; termination", "anchors": ["sam_learning/core/propositional_operations/discrete_utilities.py:create_additional_parameter_name"]}
{"id": "C30", "title": "Priority queue returns the best items and loses nothing", "statement": "get_item always returns an item of maximal (rounded) priority; inserting and extracting conserve the multiset of items; len equals insertions minus extractions; extracting from an empty queue raises.", "quantifier": "all sequences of inserts, extractions and clears, all random choices", "why_tests_cant": "all operation sequences and all random outcomes", "anchors": ["sam_learning/core/online_learning/priority_queue.py:PriorityQueue"]}
{"id": "C31", "title": "Online discrete models bracket the real action", "statement": "After any sequence of successful and failed executions consistent with a real action, the safe model's preconditions include the real ones, the optimistic model's preconditions are implied by the real ones, the must-effects are real effects and no real effect is in the cannot-be-effects.", "quantifier": "all real actions, all histories of successes and failures", "why_tests_cant": "version spaces over all histories", "anchors": ["sam_learning/core/online_learning/online_discrete_models_learner.py:OnlineDiscreteModelLearner.add_transition_data", "sam_learning/core/online_learning/online_discrete_models_learner.py:OnlineDiscreteModelLearner.get_safe_model", "sam_learning/core/online_learning/online_discrete_models_learner.py:OnlineDiscreteModelLearner.get_optimistic_model"]}
{"id": "C32", "title": "Online applicability verdicts are correct", "statement": "A state classified as applicable by the safe discrete model is applicable for the real action; a state classified as not applicable is not applicable for the real action; no state gets both verdicts when the data comes from a real action.", "quantifier": "all real actions, histories, states", "why_tests_cant": "all states", "anchors": ["sam_learning/core/online_learning/online_discrete_models_learner.py:OnlineDiscreteModelLearner.is_state_in_safe_model", "sam_learning/core/online_learning/online_discrete_models_learner.py:OnlineDiscreteModelLearner.is_state_not_applicable_in_safe_discrete_model"]}
{"id": "C33", "title": "One-dimensional numeric preconditions are the interval hull of the observations", "statement": "For a single numeric feature the learned inequalities hold for a value iff it lies between the smallest and the largest observed value (up to the documented rounding to 4 digits), and adding observations only widens them.", "quantifier": "all non-empty lists of observed rational values", "why_tests_cant": "all lists of values", "anchors": ["sam_learning/core/numeric_learning/convex_hull_learner.py:ConvexHullLearner._construct_single_dimension_inequalities"]}
{"id": "C34", "title": "Linear equation strings denote the intended expression", "statement": "The string built from coefficients and functions evaluates, in every numeric state, to the sum of coefficient times function over exactly the terms whose rounded coefficient is not negligible, plus the constant when there is one.", "quantifier": "all coefficient and function lists, all valuations", "why_tests_cant": "all lengths and valuations", "anchors": ["sam_learning/core/numeric_learning/numeric_utils.py:construct_linear_equation_string", "sam_learning/core/numeric_learning/numeric_utils.py:construct_multiplication_strings"]}
{"id": "C35", "title": "Non-circular assignments have the effect of the circular equation", "statement": "Executing the increase/decrease statement produced for an equation of the form x' = a1*f1 + ... + x ... changes x to the value that the original equation prescribes.", "quantifier": "all coefficient maps, all numeric states", "why_tests_cant": "all valuations", "anchors": ["sam_learning/core/numeric_learning/numeric_utils.py:construct_non_circular_assignment"]}
{"id": "C36", "title": "Monomial vocabulary is complete", "statement": "create_monomials returns each product of the given functions of degree at least one and at most the given degree exactly once (up to order of factors), and create_polynomial_string evaluates to that product.", "quantifier": "all function lists, all degrees", "why_tests_cant": "all sizes and degrees", "anchors": ["sam_learning/core/numeric_learning/numeric_utils.py:create_monomials", "sam_learning/core/numeric_learning/numeric_utils.py:create_polynomial_string"]}
{"id": "C37", "title": "Linear effects learned as scale or shift reproduce the observations", "statement": "Whenever the regression learner emits an increase, decrease, assign or scale statement for an exactly fitting equation, executing that statement on each observed pre-value gives the observed post-value.", "quantifier": "all exact equations", "why_tests_cant": "all coefficients", "anchors": ["sam_learning/core/numeric_learning/linear_regression_learner.py:LinearRegressionLearner._solve_linear_equations", "sam_learning/core/numeric_learning/linear_regression_learner.py:LinearRegressionLearner._calculate_scale_factor"]}
{"id": "C38", "title": "SVM plane filtering keeps every negative example excluded", "statement": "After the redundant-plane filter each negative sample excluded by some candidate plane is still excluded by some kept plane.", "quantifier": "all plane/negative-sample incidence lists", "why_tests_cant": "all incidence structures", "anchors": ["sam_learning/core/online_learning/incremental_svm_learner.py:IncrementalSVMLearner._incremental_create_svm_linear_conditions"]}
{"id": "C39", "title": "BFS feature selection explores hypotheses in order and never skips", "statement": "The current hypothesis is always the first subset, in order of increasing size, not yet refuted by an observation; every subset of the features is eventually proposed; exhausting the list raises.", "quantifier": "all feature sets, all observation sequences", "why_tests_cant": "all sequences", "anchors": ["sam_learning/core/online_learning/bfs_feature_selection.py:BFSFeatureSelector"]}
{"id": "C40", "title": "Precision and recall are well defined ratios", "statement": "Syntactic precision and recall of any learned domain against any reference lie in [0,1], equal 1 for identical models, precision is 1 iff no learned literal is spurious and recall is 1 iff no reference literal is missing; true positives plus false positives equal the number of learned literals.", "quantifier": "all pairs of literal sets", "why_tests_cant": "all pairs", "anchors": ["statistics/discrete_precision_recall_calculator.py:PrecisionRecallCalculator", "statistics/semantic_performance_calculator.py:_calculate_precision_recall"]}
{"id": "C41", "title": "Episode accounting adds up", "statement": "At every moment the number of recorded steps of an episode equals its successes plus failures, ending an episode resets exactly the per-episode counters, and cumulative success history equals the sum over episodes.", "quantifier": "all sequences of recorded steps and episode ends", "why_tests_cant": "all sequences", "anchors": ["sam_learning/core/online_learning/episode_info_recorder.py:EpisodeInfoRecord"]}
{"id": "C42", "title": "Exported trajectory files partition the episode trajectory", "statement": "Concatenating the exported chunks in order gives back the recorded trajectory, and each chunk has at most 5000 steps.", "quantifier": "all trajectory lengths", "why_tests_cant": "all lengths", "anchors": ["sam_learning/core/online_learning/episode_info_recorder.py:EpisodeInfoRecord.export_episode_trajectory"]}
{"id": "C43", "title": "K-fold splits are partitions", "statement": "For every number of items and folds, each fold's train and test sets are disjoint and cover all items, every item is in the test set of exactly one fold, and the recorded fold can be reloaded to the same sets.", "quantifier": "all numbers of items and folds", "why_tests_cant": "all sizes", "anchors": ["utilities/k_fold_split.py:create_test_set_indices", "utilities/k_fold_split.py:KFoldSplit.create_k_fold"]}
{"id": "C44", "title": "Executed plans produce chained traces", "statement": "The observation returned by executing a plan is a chain: each component starts in the state where the previous one ended, it stops after the first failed action, and the goal is reported reached only if it holds in the last state.", "quantifier": "all plans, all simulators", "why_tests_cant": "all plans", "anchors": ["sam_learning/core/online_learning_agents/ipc_agent.py:IPCAgent.execute_plan", "sam_learning/core/online_learning_agents/ipc_agent.py:IPCAgent.observe"]}
{"id": "C45", "title": "Dummy-action insertion keeps the plan", "statement": "Inserting dummy actions into a multi-agent plan keeps every joint action in order, only replacing no-ops of idle agents.", "quantifier": "all plans and agent sets", "why_tests_cant": "all plans", "anchors": ["trajectory_creators/ma_common_functions.py:insert_dummy_actions_to_plan"]}
{"id": "C46", "title": "Solver portfolio statistics account for each problem once", "statement": "For each test problem exactly one solving outcome counter is increased, and percentages over the outcome classes sum to 100 when at least one problem was classified.", "quantifier": "all sequences of solver outcomes", "why_tests_cant": "all sequences of outcomes", "anchors": ["validators/safe_domain_validator.py:DomainValidator.validate_domain"]}
{"id": "C47", "title": "Literals survive their text form", "statement": "Reading back the text of a literal whose arguments are parameters of the action or constants gives the same literal, and two different literals never have the same text.", "quantifier": "all literals with distinct arguments", "why_tests_cant": "all names and arguments", "anchors": ["sam_learning/core/propositional_operations/discrete_utilities.py:extract_predicate_data"]}
{"id": "C48", "title": "Conditional SAM models are safe", "statement": "If every observed transition is one of a real domain whose conditional effects have conjunctive antecedents of at most the configured size, then in every state where a learned action is applicable the real action is applicable and both lead to the same state.", "quantifier": "all real conditional domains, all observation sequences, all states and injective calls", "why_tests_cant": "all domains, histories and states", "anchors": ["sam_learning/learners/conditional_sam.py:ConditionalSAM.learn_action_model"]}
{"id": "C49", "title": "Failures are attributed correctly", "statement": "During online learning every failed execution is blamed on the discrete condition, blamed on the numeric condition, or kept as undecided, exactly once; blame is only assigned when the real action justifies it, and a state declared applicable by both safe models is applicable for the real action.", "quantifier": "all real actions with a conjunctive discrete condition and any numeric condition the numeric learner is sound for; all interleavings of successes, failures and reviews", "why_tests_cant": "all interleavings; blame depends on everything seen before", "anchors": ["sam_learning/learners/semi_online_learning_algorithm.py:SemiOnlineNumericAMLearner._handle_execution_failure", "sam_learning/learners/semi_online_learning_algorithm.py:SemiOnlineNumericAMLearner._eliminate_undecided_observations"]}
{"id": "C50", "title": "Uninformative samples are exactly the determined ones", "statement": "A sample is reported as not informative exactly if the executions seen so far already determine whether the action can be executed in it.", "quantifier": "all histories, states and values", "why_tests_cant": "quantifies over all actions consistent with a history", "anchors": ["sam_learning/core/online_learning/informative_states_learner.py:InformationStatesLearner.is_sample_informative", "sam_learning/core/online_learning/informative_states_learner.py:InformationStatesLearner.is_applicable"]}
{"id": "C51", "title": "Training from traces tells every learner the truth", "statement": "Training the online learners from traces of real executions never raises and keeps one learner per action; the exported safe precondition implies the real one, the exported optimistic precondition is implied by it, the safe effects are real effects and, after a success, the optimistic effects include all of them.", "quantifier": "all domains, real actions, traces with successes and failures", "why_tests_cant": "all traces and states", "anchors": ["sam_learning/learners/semi_online_learning_algorithm.py:SemiOnlineNumericAMLearner.train_models_using_trace", "sam_learning/learners/semi_online_learning_algorithm.py:SemiOnlineNumericAMLearner._add_transition_data"]}
{"id": "C52", "title": "Candidate macro groups are all unions of action groups", "statement": "The candidate action sets for macro actions are exactly the unions of the non-empty selections of the action groups that contain an unsafe action; n groups give 2^n - 1 candidates.", "quantifier": "all lists of groups", "why_tests_cant": "all selections; exponential", "anchors": ["sam_learning/learners/ma_sam_plus.py:generate_supersets_of_actions"]}
{"id": "C53", "title": "Macro actions are safe", "statement": "If every observed joint action is one of a real domain, then wherever a learned macro action is applicable every real micro action it stands for is applicable to the objects it receives, and the macro action leads to the state that executing the micro actions together leads to; the plan line of the macro call expands to exactly the lines of those calls, and the other actions are safe by themselves.", "quantifier": "all real domains without constants and with separate parameter names, all observation sequences whose effects concern the last call, all states, all injective and conflict-free calls", "why_tests_cant": "all domains, histories and states", "anchors": ["sam_learning/learners/ma_sam_plus.py:MASAMPlus.learn_combined_action_model_with_macro_actions", "sam_learning/learners/ma_sam_plus.py:MASAMPlus.construct_safe_macro_actions"]}
{"id": "C54", "title": "Macro parameters have the most specific type", "statement": "The type of a macro parameter is one of the types of the micro parameters it stands for and a subtype of all of them, whenever those types are comparable.", "quantifier": "all action groups, groupings and type hierarchies", "why_tests_cant": "all orders of the parameters and all type hierarchies", "anchors": ["utilities/macro_actions_parser.py:MacroActionParser.generate_macro_action_signature"]}
{"id": "C55", "title": "Semantic precision of effects exposes spurious effects", "statement": "The precision of effects reported for a learned action is below 1 when, in some executed step, the learned action makes true a fact that the reference action neither has before nor produces.", "quantifier": "all learned and reference operators, all executed steps", "why_tests_cant": "the comparison applies the reference action to the state the learned action produced; tests compare only identical or contradicting effects", "anchors": ["statistics/semantic_performance_calculator.py:SemanticPerformanceCalculator._calculate_effects_difference_rate"]}
{"id": "C56", "title": "Performance reports are complete", "statement": "Whatever sequence of learned domains is evaluated, exporting writes one line per reference action and learned domain, with every column of the calculator, and a line carries the values of its own domain.", "quantifier": "all sequences of evaluations, all three calculators", "why_tests_cant": "tests export one evaluation of one domain", "anchors": ["statistics/semantic_performance_calculator.py:SemanticPerformanceCalculator.calculate_performance", "statistics/numeric_performance_calculator.py:NumericPerformanceCalculator.calculate_performance", "statistics/ma_performance_calculator.py:MASamPerformanceCalculator.export_combined_semantic_performance"]}
{"id": "C57", "title": "The numeric error is zero exactly for equal predictions", "statement": "The squared error reported for a learned action is non-negative and 0 iff in every executed call applicable in both domains every function gets the value the reference gives; undefined divisions never give 0.", "quantifier": "all calls, states and numeric effects", "why_tests_cant": "all values", "anchors": ["statistics/numeric_performance_calculator.py:NumericPerformanceCalculator.calculate_effects_mse"]}
{"id": "C58", "title": "Multi-agent effect statistics look at the observed joint actions", "statement": "The precision of effects reported for an action is 1 iff no predicted next state of a joint action with that action contains a fact that was not observed.", "quantifier": "all joint actions and predicted states", "why_tests_cant": "tests look at the fixed numbers of one observation", "anchors": ["statistics/ma_performance_calculator.py:MASamPerformanceCalculator.calculate_effects_semantic_performance"]}
{"id": "C59", "title": "Plane reduction keeps the half-spaces on the observed subspace", "statement": "Eliminating the directions that are constant on the observations from the planes of the hull does not change the value of a plane at any point of the observed subspace; dividing an equation by its first non-zero coefficient does not change its solutions, and an equation without such a coefficient is refused.", "quantifier": "all matrices, all points orthogonal to the complementary basis", "why_tests_cant": "all dimensions and all real points", "anchors": ["sam_learning/core/numeric_learning/numeric_utils.py:reduce_complementary_conditions_from_convex_hull", "sam_learning/core/numeric_learning/numeric_utils.py:divide_span_by_common_denominator"]}
{"id": "C60", "title": "Learned numeric preconditions hold in every observed state", "statement": "Every state in which the action was observed, and every weighted mean of such states, satisfies all the inequalities and equations the hull learner emits when the geometry libraries are exact and no number needs rounding; in general rounding a plane lets it be violated by at most one and a half units per unit of the coordinates plus one unit.", "quantifier": "all tables of observations, all sets of relevant fluents, all dimensions, all exact regression, hull and basis procedures", "why_tests_cant": "all data sets, dimensions and degenerate configurations", "anchors": ["sam_learning/core/numeric_learning/convex_hull_learner.py:ConvexHullLearner.construct_safe_linear_inequalities", "sam_learning/core/numeric_learning/numeric_utils.py:construct_pddl_inequality_scheme"]}
{"id": "C61", "title": "Additional preconditions of numeric effects hold in every observed state", "statement": "The conditions that accompany learned numeric effects (constant features, features that are multiples of each other) hold in every state in which the action was observed, when the factors need no rounding.", "quantifier": "all tables of observations, all sets of relevant fluents, all regression and rank procedures", "why_tests_cant": "all data sets", "anchors": ["sam_learning/core/numeric_learning/linear_regression_learner.py:LinearRegressionLearner.construct_assignment_equations", "sam_learning/core/numeric_learning/numeric_utils.py:detect_linear_dependent_features", "sam_learning/core/numeric_learning/numeric_utils.py:filter_constant_features"]}
{"id": "C62", "title": "Learned numeric preconditions are safe", "statement": "A state that satisfies the learned numeric preconditions has values in the convex hull of the observed ones (on the relevant fluents), when the geometry libraries are exact and no number needs rounding.", "quantifier": "all tables of observations, all sets of relevant fluents, all dimensions, all states", "why_tests_cant": "all data sets, degenerate configurations and states", "anchors": ["sam_learning/core/numeric_learning/convex_hull_learner.py:ConvexHullLearner.construct_safe_linear_inequalities", "sam_learning/core/numeric_learning/numeric_utils.py:remove_complex_linear_dependencies"]}
{"id": "C63", "title": "The optimistic numeric precondition separates the observed successes and failures", "statement": "Every state in which the action was observed to be applicable satisfies all the learned inequalities and every state in which it failed violates one of them; no inequality is made redundant by a later one; there are at most as many inequalities as failures and as the allowed maximum.", "quantifier": "all sequences of observations over the same functions with at least one success, all classifiers that separate the successes from one failure with numbers that need no rounding, any maximum", "why_tests_cant": "all point sets and all classifiers; tests use one or two data sets", "anchors": ["sam_learning/core/online_learning/incremental_svm_learner.py:IncrementalSVMLearner.construct_linear_inequalities", "sam_learning/core/online_learning/incremental_svm_learner.py:IncrementalSVMLearner.add_new_point"]}
{"id": "C64", "title": "Numeric functions of an observation are matched to exactly the lifted terms they instantiate", "statement": "For an action call with different objects, the matcher gives each function term over parameters and constants the value that the instantiated function has in the state, and gives no other value; it fails only if a function without parameters has no value.", "quantifier": "all well-formed domains with constants, all calls of the right arity without repeated or constant arguments, all numeric states", "why_tests_cant": "all arities, all permutations of arguments, all constants", "anchors": ["sam_learning/core/numeric_learning/numeric_function_matcher.py:NumericFunctionMatcher.match_state_functions", "sam_learning/core/environment_snapshot.py:EnvironmentSnapshot.create_numeric_state_snapshot"]}
{"id": "C65", "title": "Numeric SAM: learned preconditions are safe and admit every observed state", "statement": "Whenever the learned discrete and numeric preconditions of an action hold, the real action is applicable and the discrete effects agree; every observed state satisfies the learned numeric preconditions, and without a list of relevant fluents they allow exactly the weighted means of the observed states. This needs exact geometry libraries, numbers that need no rounding and a real numeric part made of polynomials within the chosen degree over the relevant fluents.", "quantifier": "all domains with functions, all observations of real executions, all degrees, all selections of relevant fluents, all discrete and numeric states and all injective bindings", "why_tests_cant": "all data sets, polynomial preconditions, states and bindings", "anchors": ["sam_learning/learners/numeric_sam.py:NumericSAMLearner.learn_action_model", "sam_learning/learners/numeric_sam.py:NumericSAMLearner._construct_safe_numeric_preconditions"]}
{"id": "C66", "title": "Numeric SAM: learned numeric effects are those of the real action", "statement": "In every state that satisfies the learned numeric preconditions of an action, also an unobserved one, the learned numeric effects give each function term the value that the real polynomial effects give it, and leave the others unchanged.", "quantifier": "all domains with functions, all observations of real executions, all degrees, all selections of relevant fluents, all numeric states", "why_tests_cant": "all data sets and all unobserved states in the hull", "anchors": ["sam_learning/learners/numeric_sam.py:NumericSAMLearner._construct_safe_numeric_effects", "sam_learning/learners/numeric_sam.py:NumericSAMLearner.learn_action_model"]}
{"id": "C67", "title": "Numeric SAM: report, discrete part and independence of actions", "statement": "The report lists in the order of the domain the actions with usable observations; the returned model has exactly those reported as safe. The discrete part of a returned action is SAM's. The verdict and the numeric part of an action depend on the observations of this action only. Without numeric functions the result is SAM's.", "quantifier": "all domains, all observations, all regression, hull, basis and rank procedures", "why_tests_cant": "all interleavings with observations of other actions", "anchors": ["sam_learning/learners/numeric_sam.py:NumericSAMLearner._create_safe_action_model", "sam_learning/learners/numeric_sam.py:NumericSAMLearner.learn_action_model"]}
{"id": "C68", "title": "Incremental hull learner: conditions are exactly the hull of the points so far", "statement": "After any sequence of added points and resets of the relevant fluents, the learned conditions hold in a state exactly when its values of the relevant fluents are a weighted mean of the added points. So the order and repetition of points do not matter, every added point is allowed, and more points never forbid more. Adding points raises nothing but an error of the geometry library.", "quantifier": "all sequences of points over the same fluents and resets, all states, all exact regression, hull and basis procedures; at least one point, and not exactly one relevant fluent out of several", "why_tests_cant": "all sequences of operations, in which the basis grows, the dependencies change and the hull is recomputed only in some steps", "anchors": ["sam_learning/core/online_learning/incremental_convex_hull_learner.py:IncrementalConvexHullLearner.add_new_point", "sam_learning/core/online_learning/incremental_convex_hull_learner.py:IncrementalConvexHullLearner.construct_safe_linear_inequalities", "sam_learning/core/online_learning/incremental_convex_hull_learner.py:IncrementalConvexHullLearner.reset"]}
{"id": "C69", "title": "Incremental hull learner: membership test and copy", "statement": "The membership test answers yes for every weighted mean of the added points, and a yes means that the learned conditions hold up to the tolerance. A copy has the state of the original.", "quantifier": "all sequences of added points (and resets for the second and third part), all points over the same fluents", "why_tests_cant": "all sequences of operations and all points", "anchors": ["sam_learning/core/online_learning/incremental_convex_hull_learner.py:IncrementalConvexHullLearner.is_point_in_convex_hull", "sam_learning/core/online_learning/incremental_convex_hull_learner.py:IncrementalConvexHullLearner.copy"]}
{"id": "C70", "title": "Online numeric learner: safe and optimistic numeric models", "statement": "After any sequence of successful and failed executions of an action, the safe numeric precondition holds in a state exactly when its values are a weighted mean of those of the successful executions; the optimistic numeric precondition holds in every state of a success and in no state of a failure. Both models have the same numeric effects. Failures do not change the safe model. The membership test says yes for every state the safe model allows, and a yes means that the safe precondition holds (up to the tolerance).", "quantifier": "all sequences of transitions over the functions of the action, all states, all degrees, all exact numeric libraries and separating classifiers; at least one success", "why_tests_cant": "all sequences of executions and all states", "anchors": ["sam_learning/core/online_learning/online_numeric_models_learner.py:OnlineNumericModelLearner.add_transition_data", "sam_learning/core/online_learning/online_numeric_models_learner.py:OnlineNumericModelLearner.get_safe_model", "sam_learning/core/online_learning/online_numeric_models_learner.py:OnlineNumericModelLearner.get_optimistic_model", "sam_learning/core/online_learning/online_numeric_models_learner.py:OnlineNumericModelLearner.is_state_in_safe_model"]}
{"id": "C71", "title": "Semi-online learning of numeric domains: the exported safe domain is safe", "statement": "After training on any traces with successes and failures, the exported safe domain has every action of the domain; a successful action is allowed exactly when every literal that held in all its successes holds and the numeric values are a weighted mean of those of its successes. Every success is allowed, and if the traces come from a real domain then whenever an exported action is allowed the real one is applicable and has the same discrete and numeric effects.", "quantifier": "all domains with functions, all traces with successes and failures, all degrees, all discrete and numeric states and bindings, all exact numeric libraries", "why_tests_cant": "all interleavings of successes, failures and undecided failures, all states", "anchors": ["sam_learning/core/online_learning/online_utilities.py:construct_safe_action_model", "sam_learning/learners/semi_online_learning_algorithm.py:SemiOnlineNumericAMLearner.train_models_using_trace"]}
{"id": "C72", "title": "Informative samples with numeric states", "statement": "A sample that the safe model allows is called applicable and not worth an execution. A sample is not worth an execution if some known failure would lie in the hull of the successes and the sample. A sample that is called not applicable for numeric reasons has such a failure.", "quantifier": "all sequences of successes and failures, all samples, all exact numeric libraries; successes that differ in some value", "why_tests_cant": "all sequences of executions and all samples", "anchors": ["sam_learning/core/online_learning/informative_states_learner.py:InformationStatesLearner.is_sample_informative", "sam_learning/core/online_learning/informative_states_learner.py:InformationStatesLearner.is_applicable", "sam_learning/core/online_learning/informative_states_learner.py:InformationStatesLearner._is_state_not_applicable_in_safe_numeric_model"]}
{"id": "C73", "title": "Semi-online learning of numeric domains: the exported optimistic domain is between the safe domain and the failures", "statement": "The exported optimistic domain has every action. For an action with a success, wherever the safe domain allows it the optimistic one does too, both have the same numeric effects, and the optimistic one has at least the discrete effects of the safe one. A call that failed although every literal that held in all earlier successes of its action held is not allowed by the optimistic domain in the state in which it failed.", "quantifier": "all domains with functions, all traces with successes and failures, all degrees, all states and bindings, all exact numeric libraries, all classifiers that separate the successes from each failure", "why_tests_cant": "all interleavings of successes and failures, all states between the observed ones", "anchors": ["sam_learning/core/online_learning/online_utilities.py:construct_optimistic_action_model", "sam_learning/core/online_learning/online_numeric_models_learner.py:OnlineNumericModelLearner.get_optimistic_model", "sam_learning/learners/semi_online_learning_algorithm.py:SemiOnlineNumericAMLearner.train_models_using_trace"]}
{"id": "C74", "title": "Incremental Numeric SAM: exact preconditions, safety, and agreement with the batch learner", "statement": "Learning with the incremental hull learner gives, for each returned action, numeric preconditions that allow exactly the states whose values (and tracked products) are a weighted mean of the observed ones; so every observed state is allowed, and whenever the learned discrete and numeric preconditions hold the real action is applicable with the same discrete and numeric effects. All observations are processed unless the hull library fails. The result agrees with batch Numeric SAM on the same input: same discrete actions, same numeric effects and, without a list of relevant fluents, numeric preconditions with the same meaning. The report lists exactly the actions with evidence and the model has exactly those reported as safe.", "quantifier": "all domains with functions, all sequences of observations whose products need no rounding, all degrees, policies and lists of relevant fluents, all states", "why_tests_cant": "equivalence of two learners and exactness of a hull over all sequences of observations and all states", "anchors": ["sam_learning/learners/incremental_numeric_sam.py:IncrementalNumericSAMLearner", "sam_learning/learners/numeric_sam.py:NumericSAMLearner.learn_action_model", "sam_learning/core/online_learning/incremental_convex_hull_learner.py:IncrementalConvexHullLearner"]}
{"id": "C75", "title": "ESAM: learning from observations", "statement": "Learning with the extended learner (ESAM) returns a model for every observation. Without observations every action is reported as unobserved and is allowed nowhere, under every policy for negative preconditions.", "quantifier": "all learners, all observations, all policies, all domains", "why_tests_cant": "tests run one domain; the claim is about every observation and every learner state", "anchors": ["sam_learning/learners/esam.py:ExtendedSamLearner.learn_action_model", "sam_learning/learners/esam.py:ExtendedSamLearner.handle_single_trajectory_component"]}
{"id": "C76", "title": "ESAM: recorded effect clauses", "statement": "Recording the effects of a transition adds one clause per ground literal that became true, made of exactly the literals over parameters and constants that the call turns into it; nothing else is recorded. For executions of a real action every clause contains a real effect. The formula built from the clauses is satisfied by exactly those choices of effects that satisfy every clause when the excluded literals may be chosen freely.", "quantifier": "all domains, all sequences of transitions, also with repeated objects and constants", "why_tests_cant": "all bindings of repeated objects to parameters, all sequences of transitions", "anchors": ["sam_learning/learners/esam.py:ExtendedSamLearner.handle_effects", "sam_learning/learners/esam.py:ExtendedSamLearner.build_cnf_formulas"]}
{"id": "C77", "title": "ESAM: merging parameters and proxy actions", "statement": "Two parameters get the same representative exactly when they are connected by positions shared by literals of one predicate, none of them mentioned by a literal that was not chosen. The proxy action has the representatives as parameters with their types, and behaves exactly like the original action with the extra preconditions and the chosen effects, called with equal arguments for merged parameters.", "quantifier": "all models of a formula, all signatures, all states and bindings", "why_tests_cant": "the closure is over arbitrary chains of parameters; equality of behaviour is over all states", "anchors": ["sam_learning/learners/esam.py:minimize_parameters_equality_dict", "sam_learning/learners/esam.py:modify_predicate_signature", "sam_learning/learners/esam.py:ExtendedSamLearner.construct_proxy_action"]}
{"id": "C78", "title": "ESAM: construction of an action from the choices of effects", "statement": "If exactly one choice of effects satisfies the formula and is consistent with the preconditions, the action gets the chosen literals as effects and the literals that were not chosen as additional preconditions. If no choice is left, or more than one, construction stops with an error.", "quantifier": "all formulas, all preconditions, all actions", "why_tests_cant": "the number of choices is exponential in the number of literals", "anchors": ["sam_learning/learners/esam.py:ExtendedSamLearner.construct_safe_actions", "sam_learning/learners/esam.py:ExtendedSamLearner.handle_lifted_action_instances"]}
{"id": "C79", "title": "ESAM: effects from transitions without repeated objects", "statement": "From executions of a real domain, recording, building and constructing give each action effects that the real action has, and exactly those that were observed to become true.", "quantifier": "all domains, all sequences of real transitions, all policies", "why_tests_cant": "all sequences of transitions and all bindings", "anchors": ["sam_learning/learners/esam.py:ExtendedSamLearner.handle_effects", "sam_learning/learners/esam.py:ExtendedSamLearner.build_cnf_formulas", "sam_learning/learners/esam.py:ExtendedSamLearner.construct_safe_actions"]}
{"id": "C80", "title": "Quantified conditional effects: the explanations kept are exactly those that fit", "statement": "After observing any executions, the learner of quantified conditional effects keeps, for each action, each quantified type and each literal about the quantified parameter, exactly the sets of antecedents that agree with every execution at every further object of that type. Observing never raises. An execution of an action without an entry in the map of quantified types raises KeyError.", "quantifier": "all domains, all maps, all histories of executions with any objects whose changes involve at most one further object", "why_tests_cant": "all histories, all numbers of objects, and exponentially many antecedent sets", "anchors": ["sam_learning/learners/universaly_conditional_sam.py:UniversallyConditionalSAM._initialize_universal_dependencies", "sam_learning/learners/universaly_conditional_sam.py:UniversallyConditionalSAM._remove_existing_previous_state_quantified_dependencies", "sam_learning/learners/universaly_conditional_sam.py:UniversallyConditionalSAM._remove_non_existing_previous_state_quantified_dependencies", "sam_learning/core/propositional_operations/dependency_set.py:DependencySet"]}
{"id": "C81", "title": "Quantified conditional effects: the learned actions", "statement": "Learning never raises and returns exactly the observed actions. The quantified preconditions and effects of a learned action are determined by the observations: a literal whose explanation is certain becomes an effect under that condition; an observed literal with several explanations becomes an effect under all their literals together with a precondition that excludes the states in which the explanations disagree; an unobserved one only gives the precondition; one without explanations gives nothing.", "quantifier": "all domains, maps and histories as above, all states, bindings and sets of objects", "why_tests_cant": "the meaning of the constructed conditions is over all states and all sets of objects", "anchors": ["sam_learning/learners/universaly_conditional_sam.py:UniversallyConditionalSAM.construct_safe_actions", "sam_learning/learners/universaly_conditional_sam.py:UniversallyConditionalSAM._construct_universal_effects_from_dependency_set", "sam_learning/learners/universaly_conditional_sam.py:UniversallyConditionalSAM._construct_restrictive_preconditions", "sam_learning/learners/universaly_conditional_sam.py:UniversallyConditionalSAM.learn_action_model"]}
{"id": "C82", "title": "Quantified conditional effects: safety", "statement": "If the executions come from a real domain with quantified conditional effects, then whenever a learned action is applicable, with any objects, the preconditions of the real action hold, and both actions lead to the same state.", "quantifier": "all real domains, all maps that name the quantified types, all histories, all states, bindings and sets of objects", "why_tests_cant": "all unseen states and all numbers of objects", "anchors": ["sam_learning/learners/universaly_conditional_sam.py:UniversallyConditionalSAM.learn_action_model", "sam_learning/learners/conditional_sam.py:ConditionalSAM.learn_action_model"]}
{"id": "C83", "title": "Exploration of a problem: a real run with the right result", "statement": "When an explorer explores a problem, everything it records was executed in the environment, in the order recorded: in each step it tries ground actions with different objects in the current state until one succeeds, and moves to the state that this one gave. It reports success with the number of successful steps exactly when the last state reached satisfies the goal, and no state reached before did; it reports failure with the number of allowed steps only if no state reached satisfied the goal and the steps or the allowed failures were used up, no ground action has different objects, or every one of them failed in the last state. The failed executions exceed the limit by at most twice the number of ground actions, the steps never exceed the allowed number, and the retries end. What was learned is what training on the tried actions gives.", "quantifier": "all domains, environments, states, step limits, random choices, and all earlier training and solving", "why_tests_cant": "the number of steps, the environment and the random choices are unbounded", "anchors": ["sam_learning/learners/noam_algorithm.py:NumericOnlineActionModelLearner.explore_to_refine_models", "sam_learning/learners/noam_algorithm.py:NumericOnlineActionModelLearner._select_action_and_execute", "sam_learning/learners/semi_online_learning_algorithm.py:SemiOnlineNumericAMLearner._execute_selected_action", "sam_learning/learners/semi_online_learning_algorithm.py:SemiOnlineNumericAMLearner._select_action_and_execute"]}
{"id": "C84", "title": "Solving problems online: only real executions are learned from, and results are right", "statement": "After any sequence of training on traces and attempts to solve problems, with any solvers, the learners are those that numeric training alone would give on the given traces, on the executions of at most two plans for each problem, and on the actions tried in at most one exploration of it, from the initial state or from where a plan ended. A reported success means that the goal was reached by the executed plan or exploration, and the reported number is its length; a failure reports the allowed steps. If the environments follow a real domain, the exported safe actions are safe.", "quantifier": "all domains, solvers, problems, random choices and sequences of operations", "why_tests_cant": "all sequences of episodes and all behaviours of the solvers", "anchors": ["sam_learning/learners/noam_algorithm.py:NumericOnlineActionModelLearner.try_to_solve_problem", "sam_learning/learners/noam_algorithm.py:NumericOnlineActionModelLearner.apply_exploration_policy", "sam_learning/learners/noam_algorithm.py:NumericOnlineActionModelLearner._explore_and_terminate_episode", "sam_learning/learners/semi_online_learning_algorithm.py:SemiOnlineNumericAMLearner.train_models_using_trace", "sam_learning/learners/semi_online_learning_algorithm.py:SemiOnlineNumericAMLearner._use_solvers_to_solve_problem"]}
{"id": "C85", "title": "Selecting an action: starving actions first, then informative ones", "statement": "The action selected for execution is one whose name starves, that is, was not executed in the last steps; or, if no name starves, the first one in the frontier that is informative, and the last one if none is. Once the number of executions in all episodes exceeds the starvation limit and the longest episode, every name starves and the selection depends neither on what was learned nor on the state.", "quantifier": "all learners, states, frontiers and random choices, and all runs", "why_tests_cant": "all runs; the effect only shows after many episodes", "anchors": ["sam_learning/learners/noam_algorithm.py:NumericOnlineActionModelLearner._select_action_and_execute", "sam_learning/learners/noam_algorithm.py:NumericOnlineActionModelLearner._calculate_state_action_informative"]}
{"id": "C86", "title": "Plans for the safe domain succeed", "statement": "If the environment follows the real domain and the first solver that returns a plan returns one that solves the problem in the exported safe domain, then executing it reaches the goal, and the explorers that use the safe domain report success with the length of the plan.", "quantifier": "all real domains, environments, earlier runs, problems and plans in which no call repeats an object", "why_tests_cant": "all problems and plans", "anchors": ["sam_learning/learners/noam_algorithm.py:NumericOnlineActionModelLearner.try_to_solve_problem", "sam_learning/learners/semi_online_learning_algorithm.py:SemiOnlineNumericAMLearner._construct_model_and_solve_problem", "sam_learning/learners/semi_online_learning_algorithm.py:SemiOnlineNumericAMLearner._use_solvers_to_solve_problem"]}
{"id": "C87", "title": "Metric-FF: the answer follows from the planner, one entry per problem", "statement": "Solving a problem runs the planner once, for this domain and problem, and answers by how the process ended, its exit code and the status of the file it left: a timeout when it was late, a plan when the file holds one, no solution when it was declared or the exit code is 0 without a plan, an error otherwise. The solution file holds the plan exactly after a positive answer, is absent after every other, and no other file changes. Solving a directory runs the planner once for each problem in order and reports for each problem the answer of its own run.", "quantifier": "all behaviours of the planner, files, directories, problems and limits", "why_tests_cant": "the planner's behaviour and the number of problems are unbounded", "anchors": ["solvers/metric_ff_solver.py:MetricFFSolver.solve_problem", "solvers/metric_ff_solver.py:MetricFFSolver.execute_solver", "solvers/metric_ff_solver.py:MetricFFSolver._run_metric_ff_process"]}
{"id": "C88", "title": "ENHSP: repeated only while the output is not understood", "statement": "Solving a problem runs the planner at most four times with the same command, again exactly while its output says neither that the problem is solved nor that it has no solution; the answer is that of the last run. Only the solution file changes, and only by the planner. Solving a directory reports for each problem the answer of its own runs and leaves all other files alone.", "quantifier": "all behaviours of the planner, outputs, files, directories, problems and limits", "why_tests_cant": "all outputs of the planner and all sequences of runs", "anchors": ["solvers/enhsp_solver.py:ENHSPSolver.solve_problem", "solvers/enhsp_solver.py:ENHSPSolver.execute_solver", "solvers/enhsp_solver.py:ENHSPSolver._run_enhsp_process"]}
{"id": "C89", "title": "Fast Downward: the answer is that of the exit code, and plans lose only their cost line", "statement": "Solving a problem runs the planner in its own directory and answers by its exit code. After a positive answer the solution file is the planner's without its last line, and the temporary file is gone. The working directory of the caller is the same as before. Solving a directory repeats a run at most three times, exactly while the exit code is not understood, and reports for each problem the answer of its last run; no other file changes but the temporary ones.", "quantifier": "all behaviours of the planner, exit codes, files, directories and problems", "why_tests_cant": "all exit codes and all sequences of runs", "anchors": ["solvers/fast_downward_solver.py:FastDownwardSolver.solve_problem", "solvers/fast_downward_solver.py:FastDownwardSolver.execute_solver", "solvers/fast_downward_solver.py:FastDownwardSolver._remove_cost_from_file"]}
{"id": "C90", "title": "A random walk is a run of the domain", "statement": "A random walk starts in the initial state of the problem, every step starts where the one before ended, and uses one of the ground actions. Where an applicable action is wanted the step is that of an applicable action with its effect; otherwise it is an inapplicable action without a change. The walk has the wanted number of steps unless an applicable action is wanted where there is none, and the plan lists its actions in order. So every step is one that the domain shows.", "quantifier": "all domains, states, sets of ground actions, limits and random choices", "why_tests_cant": "all random choices and walks of any length", "anchors": ["trajectory_creators/random_walk_trajectories_creator.py:RandomWalkTrajectoriesCreator.create_random_plan", "trajectory_creators/random_walk_trajectories_creator.py:RandomWalkTrajectoriesCreator._select_applicable_action", "trajectory_creators/random_walk_trajectories_creator.py:RandomWalkTrajectoriesCreator._select_inapplicable_action"]}
{"id": "C91", "title": "Random walks for a directory of problems", "statement": "The actions of a walk are exactly the type-correct calls whose numeric fluents all have a value in the problem. For each problem whose walk is not there yet, its walk, the plan of it and a copy of the problem are written; a walk that is there and all other files are kept. Running again changes nothing.", "quantifier": "all domains, directories of problems, prefixes and random choices", "why_tests_cant": "all directories and sequences of runs", "anchors": ["trajectory_creators/random_walk_trajectories_creator.py:RandomWalkTrajectoriesCreator.create_domain_trajectories", "trajectory_creators/random_walk_trajectories_creator.py:RandomWalkTrajectoriesCreator.create_all_grounded_actions"]}
{"id": "C92", "title": "The directories of a distributed experiment", "statement": "For each fold, algorithm and number of trajectories there is one pair of directories, named after the three: the test directory holds exactly the problems of the fold's test items, the train directory the domain and exactly the problems and trajectories of the first items outside the test set, as many as the number says. Every item is tested in exactly one fold, and no other directories are created except those for the triplets. After the directories are removed, loading the recorded settings creates the same ones again for any algorithms and parameters.", "quantifier": "all numbers of items, folds and iterations, algorithms, random choices and later parameters", "why_tests_cant": "unbounded numbers of folds, algorithms and iterations; all random permutations", "anchors": ["utilities/distributed_k_fold_split.py:DistributedKFoldSplit.create_k_fold", "utilities/distributed_k_fold_split.py:DistributedKFoldSplit.create_fold_from_scratch", "utilities/distributed_k_fold_split.py:DistributedKFoldSplit.create_directories_content", "utilities/k_fold_split.py:load_distributed_fold_settings"]}
{"id": "C93", "title": "Statistics of the learned actions", "statement": "However additions, clearings and exports follow each other: every addition gives one row for each action of the reference domain, in its order, with the exact counts of trajectories, triplets, appearances (all members of joint actions) and literals, and with the precision and recall of the literals that were learned; every row is kept exactly once, in the current statistics until they are cleared and in the merged ones afterwards; an exported file has a line for each row since the last clearing and changes no other file.", "quantifier": "all observations, reference and learned domains, and sequences of operations", "why_tests_cant": "unbounded sequences of operations and observations; the state is shared between all of them", "anchors": ["statistics/learning_statistics_manager.py:LearningStatisticsManager.add_to_action_stats", "statistics/learning_statistics_manager.py:LearningStatisticsManager.clear_statistics", "statistics/learning_statistics_manager.py:LearningStatisticsManager.export_action_learning_statistics", "statistics/learning_statistics_manager.py:LearningStatisticsManager.export_all_folds_action_stats"]}
{"id": "C94", "title": "Collected results of distributed runs", "statement": "When every run has exported its statistics, in any order, the collected file has exactly the rows of all the runs, each with the number of its fold, ordered by fold, iteration and algorithm: no run overwrites or hides the file of another one, of whatever kind. When a run is missing, collecting raises and no file changes.", "quantifier": "all algorithm and domain names, numbers of folds, iterations, orders of the runs and rows", "why_tests_cant": "names of files depend on arbitrary strings and numbers, and the order of distributed runs is arbitrary", "anchors": ["experiments/concurrent_execution/distributed_results_collector.py:DistributedResultsCollector", "experiments/concurrent_execution/numeric_distributed_results_collector.py:NumericResultsCollector.collect_numeric_statistics", "experiments/concurrent_execution/multi_agent_distributed_results_collector.py:MultiAgentExperimentsResultsCollector.collect_multi_agent_statistics", "validators/safe_domain_validator.py:DomainValidator.write_statistics"]}
{"id": "C95", "title": "Experiments on transitions", "statement": "Trajectories are cut into pieces of a fixed number of consecutive transitions, only an incomplete rest of each trajectory is lost. The i-th experiment learns exactly from the first i pieces, the backup named after a number of transitions holds the model learned from that many first transitions, and every evaluation gets each of these models once. The single agent baseline learns exactly the model of the transitions in which one agent acts; the exported numbers count these and the others.", "quantifier": "all trajectories, domains, agents, folds, algorithms (SAM baseline, MA-SAM, MA-SAM+) and domain names", "why_tests_cant": "learners that change their observations show only over several iterations; lengths, numbers of trajectories and orders of joint actions are unbounded", "anchors": ["experiments/concurrent_execution/parallel_basic_experiment_runner.py:ParallelExperimentRunner.create_transitions_based_training_set", "experiments/concurrent_execution/parallel_multi_agent_experiment_runner.py:SingleIterationMultiAgentExperimentRunner._filter_baseline_single_agent_trajectory", "experiments/concurrent_execution/parallel_multi_agent_experiment_runner.py:SingleIterationMultiAgentExperimentRunner._learn_model_offline", "experiments/concurrent_execution/parallel_multi_agent_experiment_runner_with_triplets.py"]}
{"id": "C96", "title": "Finding the faulty action", "statement": "Executing plans on the model and on a domain with one altered action, the returned observations are those of the altered action: the valid ones are its transitions in the model, the faulty ones those with another result. A plan is ok exactly when both domains give the same states, a plan that the model cannot execute is reported as not applicable, and a run without any difference is an error unless the domain is a repaired one.", "quantifier": "all domains, altered actions, plans, states, solved problems and validator texts", "why_tests_cant": "differences can be caused in one step and seen in a later one; the order of files and the length of plans are unbounded", "anchors": ["fault_detection/fault_repair.py:FaultRepair.execute_plans_on_agent", "fault_detection/fault_repair.py:FaultRepair._observe_single_plan", "fault_detection/fault_repair.py:FaultRepair._validate_applied_action", "fault_detection/fault_repair.py:FaultRepair._is_plan_applicable"]}
{"id": "C97", "title": "Repairing the faulty action", "statement": "Repair replaces exactly the named action by the learned one. If the learned action is safe, every plan of the repaired domain is a plan of the model that visits the same states, and executing the plans again finds no fault.", "quantifier": "all domains, altered actions, observations, plans and states; any safe learner", "why_tests_cant": "plans are unbounded and the claim is about states that were never observed", "anchors": ["fault_detection/fault_repair.py:FaultRepair.repair_model"]}
{"id": "C98", "title": "Cross validation", "statement": "Running a cross validation in a fresh working directory tests every trajectory in exactly one fold, with a model that was learned from all the other trajectories, in sorted order, and from none of the tested ones. The reports of a fold (actions, semantic performance, solved problems) and the backup of its model are about this fold only, the joint reports cover all the folds, no other file changes, and a second run uses the same folds.", "quantifier": "all sets of files, numbers of folds, shuffles, samples, parsers, learners, validators and measures that succeed", "why_tests_cant": "leaks between train and test sets, or between folds, show only in runs of many folds and for particular splits", "anchors": ["experiments/basic_experiment_runner.py:OfflineBasicExperimentRunner.run_cross_validation", "experiments/basic_experiment_runner.py:OfflineBasicExperimentRunner.learn_model_offline", "experiments/basic_experiment_runner.py:OfflineBasicExperimentRunner.validate_learned_domain", "experiments/numeric_experiment_runner.py:OfflineNumericExperimentRunner.run_fold"]}
{"id": "C99", "title": "Semi-online learning", "statement": "try_to_solve_problems of the semi-online learner works on the problems in order. A problem is first given to the solvers with the safe and then with the optimistic domain if enough problems came before or every action was executed often enough in explorations; otherwise, or if no plan reaches the goal, the environment is explored: each round tries actions in the current state until one succeeds, no round starts once the allowed number of steps failed, and the exploration ends at the goal or after the allowed number of rounds. The explorations wait in files; each is learned from exactly once, in order, when solvers are used the next time, and the executed plans after them. Each problem gets one row of the statistics with what happened. The safe domain learned in this way is safe where states were observed.", "quantifier": "all domains, environments, problems, solvers, random choices, thresholds and numbers of problems", "why_tests_cant": "which transitions are learned depends on the sequence of all problems and on the files left by earlier ones; losses show only after many episodes", "anchors": ["sam_learning/learners/semi_online_learning_algorithm.py:SemiOnlineNumericAMLearner.try_to_solve_problems", "sam_learning/learners/semi_online_learning_algorithm.py:SemiOnlineNumericAMLearner.explore_to_refine_models", "sam_learning/learners/semi_online_learning_algorithm.py:SemiOnlineNumericAMLearner.train_models_using_trace"]}
{"id": "C100", "title": "Collecting the results of online learning", "statement": "The results collector reads every statistics file that the recorders of an algorithm left, one per fold, and writes all their episodes, unchanged but for added columns: the fold, the categories (solved with the safe domain, solved with the optimistic domain, optimistic plan not applicable, not solved) and whether the episode was a success. Every episode is in exactly one category and is labelled with its fold. The table of all algorithms has one row per episode number and, per algorithm, the share of successes among the folds that have this episode. The files of the evaluation are collected in the same way. Other files are unchanged.", "quantifier": "all directories, algorithms, folds, numbers of episodes and endings of episodes", "why_tests_cant": "the labels depend on the order of the names of all files in the directory, and tests use few folds", "anchors": ["experiments/concurrent_execution/online_learning_results_collector.py:export_unified_statistics_to_csv", "experiments/concurrent_execution/online_learning_results_collector.py:collect_results_for_all_algorithms", "experiments/concurrent_execution/online_learning_results_collector.py:collect_sematic_performance_statistics", "experiments/concurrent_execution/online_learning_results_collector.py:collect_test_set_solving_statistics", "sam_learning/core/online_learning/episode_info_recorder.py:EpisodeInfoRecord.export_statistics"]}
{"id": "C101", "title": "Preparing a distributed experiment", "statement": "The script that prepares a distributed experiment removes the earlier folds and creates, for every fold and algorithm, the directories of the split. For every fold it fills a directory for evaluation: the problem, plan and trajectory of every test item with the given prefix, unchanged, and the files of random walks; the evaluation directory holds nothing of an item that the fold is trained on. Test directories and the working directory are afterwards as the split left them. Running the script again gives the same folds, whatever is drawn and whichever algorithms are given.", "quantifier": "all working directories, numbers of folds, algorithms, lists of numbers of trajectories, draws and walks", "why_tests_cant": "the script works on directories that an earlier run left; tests use a fresh directory", "anchors": ["experiments/concurrent_execution/folder_creation_for_parallel_execution.py:FoldsCreator.create_folds_from_cross_validation", "experiments/concurrent_execution/folder_creation_for_parallel_execution.py:FoldsCreator.create_random_performance_evaluation_trajectories", "utilities/distributed_k_fold_split.py:DistributedKFoldSplit.create_k_fold"]}
{"id": "C102", "title": "One fold of online learning", "statement": "Running online learning on a fold tries every problem file of the train directory once, in the order of the file names. A problem is tried with plans of the domains learned so far and, unless a plan reaches the goal, by exploring within the budgets of steps and failures of this problem. What is learned is exactly what was executed and observed; the statistics have one row per problem with what happened in it, in one file of the results, and all other files stay. A plan that solves a problem in the safe domain of its time is executed successfully and ends the problem. The domains that are evaluated are those of all lessons together, and the results are those that the collection of results reads.", "quantifier": "all domains, train directories, learners, solvers, draws, budgets and earlier results", "why_tests_cant": "which domain a plan comes from depends on everything learned in the earlier problems of the fold; tests run single problems with fixed draws", "anchors": ["experiments/concurrent_execution/planning_with_online_learning.py:PIL.learn_model_online", "experiments/concurrent_execution/planning_with_online_learning.py:PIL.construct_domains_for_evaluation", "experiments/concurrent_execution/planning_with_online_learning.py:main", "sam_learning/learners/noam_algorithm.py:NumericOnlineActionModelLearner.try_to_solve_problem"]}
{"id": "C103", "title": "The rate of joint actions with one acting agent", "statement": "The joint action counter reports, for the files of a directory that match the pattern, the share of joint actions in which exactly one agent acts, over all files together: a line counts as a joint action exactly if it starts with (operators: up to white space, and as one with a single acting agent exactly if all but one of its actions in brackets are nop, alone or with arguments, or noop or no-op alone, whatever their white space and capital letters. Other lines, directories and files that do not match have no influence, the result does not depend on the order in which the files are found, and it is between 0 and 1, and 0 without joint actions. The lines of the verbose output are those of the files in the order of their names.", "quantifier": "all directories, patterns, files, lines and actions without brackets in them", "why_tests_cant": "lines, words, brackets and files can be arbitrary in number and text; a test sees a few lines", "anchors": ["utilities/joint_action_counter.py:is_nop_token", "utilities/joint_action_counter.py:analyze_file", "utilities/joint_action_counter.py:main"]}
{"id": "C104", "title": "Multi-agent data sets with and without dummy actions", "statement": "Creating the multi-agent data sets turns every solution file of the working directory into a problem, a plan and a trajectory in each of the two output directories. Without dummy actions they are the problem, the converted plan and its execution. With dummy actions no step is lost or moved: some no-ops become a dummy action of the same agent, the states differ at most in the dummy predicate, the goal gains the dummy predicate exactly if that was drawn, and then the last joint action with an idle agent adds it, so that it holds in the end. If both trajectories exist already they are kept, a problem that cannot be converted is skipped, and no other file but the two domains changes. The creator for folders of agent problems does the same for each folder if the folder names differ before their last dot.", "quantifier": "all working directories, problems, plans, numbers of agents, random choices, existing output files and real effects of actions", "why_tests_cant": "plans, agents, random choices and files can be arbitrary; a test sees one draw", "anchors": ["trajectory_creators/ma_shorted_experiments_trajectories_creator.py:MATrajectoriesCreator.create_domain_trajectories", "trajectory_creators/ma_experiments_trajectories_creator.py:MAExperimentTrajectoriesCreator.create_domain_trajectories", "trajectory_creators/ma_common_functions.py:insert_dummy_actions_to_plan"]}
{"id": "C105", "title": "Generating a data set", "statement": "Generating a data set runs the chosen planner on exactly the problem files of the directory whose names start with the prefix, and then makes a trajectory next to every solution file: the execution of that plan from that problem. An existing trajectory is kept, a plan that cannot be executed gets none, no other file changes, and making the trajectories a second time changes nothing. This holds for ENHSP with any path, and for Metric-FF and Fast Downward with a directory given from the root. Fixing the solution files replaces each by what the planner's parser makes of it and touches nothing else.", "quantifier": "all directories, problems, plans, old files, prefixes, planner processes and their results", "why_tests_cant": "the behaviour of planners, old files and directories is arbitrary; tests run one planner in one place", "anchors": ["experiments/experiments_dataset_generator.py:DatasetGenerator.generate_dataset", "trajectory_creators/experiments_trajectories_creator.py:ExperimentTrajectoriesCreator.create_domain_trajectories", "trajectory_creators/experiments_trajectories_creator.py:ExperimentTrajectoriesCreator.fix_solution_files"]}
{"id": "C106", "title": "Trajectories for PlanMiner", "statement": "The file of trajectories made for PlanMiner can be read again, and it describes exactly the trajectory files of the directory, each once: the tasks are the typed calls in their order, numbered from 0, the state 0 is the state before the first task and the state k+1 is the state after task k. In the text of a state a literal is listed as true or as negated exactly if it is in the snapshot of the state with that sign, and the fluents are listed as they are. The domain with renamed parameters is exported next to it; no other file changes. An existing file of trajectories is kept.", "quantifier": "all directories, trajectories, states, calls and old files", "why_tests_cant": "the file is a text format whose readability depends on every state and on the numbering; tests look at a few lines of one file", "anchors": ["trajectory_creators/plan_miner_trajectories_creator.py:PlanMinerTrajectoriesCreator.create_plan_miner_trajectories", "trajectory_creators/plan_miner_trajectories_creator.py:PlanMinerTrajectoriesCreator.create_complete_state"]}
{"id": "C107", "title": "Running PlanMiner", "statement": "What PlanMiner leaves decides the result: a readable domain is returned with its actions and with the name and requirements of the reference domain, and its text becomes the domain of the test set; an unreadable one or none gives the reference domain without actions; a learning time of -1 is reported exactly if there is no output, and then the test set is left as it is. PlanMiner's output file does not stay behind and no other file changes.", "quantifier": "all outputs and ends of PlanMiner, reference domains, directories and old files", "why_tests_cant": "the result depends on an external program that may fail, be killed or leave garbage", "anchors": ["experiments/concurrent_execution/parallel_numeric_experiment_runner.py:SingleIterationNSAMExperimentRunner._apply_plan_miner", "experiments/concurrent_execution/parallel_numeric_experiment_runner.py:SingleIterationNSAMExperimentRunner._run_plan_miner_process", "experiments/concurrent_execution/parallel_numeric_experiment_runner.py:SingleIterationNSAMExperimentRunner._create_learned_domain_for_evaluation"]}
{"id": "C108", "title": "Submitting experiments to a cluster", "statement": "The program that submits the experiments of a configuration file first submits the job of the folds of each experiment and then, in order, every combination of experiment, fold, compared algorithm and number of trajectories with all options of the experiment; every combination is submitted at least once, nothing else is, and if the cluster accepts every job and shows it in time, exactly once. The numbers of trajectories are in increasing order: 1 to 9 and then 10 and each hop up to four fifths of the size (for a hop of 100: 1, the tens and the hundreds). The job of the folds makes the train and test directory that each submitted job of the first five folds reads, with as many trajectories as the job says.", "quantifier": "all configuration files, answers of the cluster, numbers of folds and working directories", "why_tests_cant": "the submissions depend on the answers of the cluster, and the names of directories pass through two command lines; no test runs the scripts", "anchors": ["experiments/cluster_scripts/common.py:create_internal_iterations_list", "experiments/cluster_scripts/common.py:create_experiment_folders", "experiments/cluster_scripts/common.py:submit_job_and_validate_execution", "experiments/cluster_scripts/numeric_experiments_sbatch_runner.py:main", "experiments/cluster_scripts/multi_agent_experiments_sbatch_runner.py:main", "experiments/cluster_scripts/online_experiment_sbatch_runner.py:main"]}
{"id": "C109", "title": "The figures of the results", "statement": "The figure of the multi-agent experiments has, for each of SAM, MA-SAM and MA-SAM+, under that name in the legend, a line with one point for each number of trajectories it has results for, in increasing order, at the average of the percentages of the experiments in which nothing was removed, and the shaded area lies one deviation below and above it within 0 and 100. The figure of the numeric experiments has such a line for each of its three algorithms under its title. The figure of the online experiments has the four categories of episodes on top of each other, each at the share of its episodes averaged over the episodes at most two positions away, and the layers together fill the figure; the lines between them lie on their boundaries. The figure of the exploration times has a point for each episode at the average time, averaged in the same way. The figure of the experiments with conditional effects has a panel for each domain with a line for each outcome through the results of that domain.", "quantifier": "all tables of results, deviations, numbers of trajectories and episodes", "why_tests_cant": "a figure is looked at, not compared; whether the legend names the right line depends on which algorithms and rows the table has", "anchors": ["experiments/plotting/plot_masam_results.py:plot_solving_results", "experiments/plotting/plot_nsam_results.py:plot_results", "experiments/plotting/plot_nsam_solo_results.py:plot_solo_results", "experiments/plotting/plot_online_learning_results.py:plot_online_learning_statistics", "experiments/plotting/plot_online_learning_results.py:plot_exploration_time_statistics", "experiments/plotting/plot_conditional_sam_results.py:9-48"]}
{"id": "C110", "title": "Collecting the results of a cluster", "statement": "The script that collects submits, for each experiment in order, a job that reads the directory, the domain, all algorithms, the number of folds and the numbers of trajectories of that experiment, and no other job. When the experiments were submitted for the same configuration and their jobs ran, that job finds every file it looks for, draws both figures, and leaves three files that hold the results of exactly the combinations that were submitted, each once and with its fold; it changes no other file.", "quantifier": "all configurations, numbers of folds, behaviours of the cluster and results of the runs", "why_tests_cant": "the submission, the runs, the collection and the figures are separate programs that only agree through command lines and names of files; the tests run none of them on the output of another", "anchors": ["experiments/cluster_scripts/sbatching_collect_results.py:main", "experiments/cluster_scripts/sbatching_collect_results.py:execute_statistics_collection_job", "experiments/concurrent_execution/numeric_distributed_results_collector.py:NumericResultsCollector.collect_numeric_statistics", "experiments/concurrent_execution/numeric_distributed_results_collector.py:parse_arguments"]}
{"id": "C111", "title": "A job of the numeric experiments", "statement": "A job of the numeric experiments learns from the trajectories of its own training directory, puts the learned domain in its own test directory and in the backup, validates it there, measures it on the trajectories of its fold, and writes three files of results with its algorithm, fold and number of trajectories in their names; a job that fails changes no files of other jobs. Jobs can run in any order and more than once with the same outcome, every algorithm that the submission offers can be run, and when all jobs of an experiment have run their results can be collected.", "quantifier": "all jobs, working directories, answers of the learners, validators and measures, and orders of execution", "why_tests_cant": "the tests of the runner do not exist; the jobs run on a cluster and only meet in a shared directory", "anchors": ["experiments/concurrent_execution/parallel_basic_experiment_runner.py:ParallelExperimentRunner.run_fold_iteration", "experiments/concurrent_execution/parallel_basic_experiment_runner.py:ParallelExperimentRunner.learn_model_offline", "experiments/concurrent_execution/parallel_basic_experiment_runner.py:ParallelExperimentRunner._export_domain_and_backup", "experiments/concurrent_execution/parallel_numeric_experiment_runner.py:SingleIterationNSAMExperimentRunner._apply_learning_algorithm", "experiments/concurrent_execution/parallel_numeric_experiment_runner.py:main"]}
{"id": "C112", "title": "The evaluation of a fold of online learning", "statement": "When a fold of online learning with noam_learning or goal_oriented_explorer has ended, the safe and the optimistic domain are in the train directory; both are measured on the trajectories of the fold and tried on the test set, the second one without plans of the first, and one file with the measures and one with a row per domain about the solvers are written, named after the algorithm, the fold and the number of problems; nothing else changes, whatever the tools do. The row says how many trajectories and how many triplets were used. The files of several folds are found by the collection, for both algorithms.", "quantifier": "all files in the directories of the folds, answers of the solvers and of the measures, numbers of folds and earlier results", "why_tests_cant": "the tests of the validator give it observations, not paths, and no test runs the script or the collection on what it writes", "anchors": ["experiments/concurrent_execution/planning_with_online_learning.py:PIL.validate_online_model", "experiments/concurrent_execution/planning_with_online_learning.py:PIL.validate_test_set_solving_rates", "validators/safe_domain_validator.py:DomainValidator.validate_domain", "validators/safe_domain_validator.py:DomainValidator._extract_num_triplets", "statistics/utils.py:init_semantic_performance_calculator"]}
{"id": "C113", "title": "Planners on the cluster", "statement": "Submitting a working directory to the cluster for a planner gives exactly one accepted job for each problem file with the prefix. When the jobs are run, in any order, each problem is asked of the planner with the domain, the timeout and the tolerance of the configuration, its plan is beside it in the working directory, and no other file changes.", "quantifier": "all configurations, files, answers of sbatch and of the planners, and orders of the jobs", "why_tests_cant": "no test runs the scripts of the cluster, and neither sbatch nor the planners are there when the tests run", "anchors": ["experiments/cluster_scripts/sbatching_solver.py:main", "experiments/cluster_scripts/sbatching_solver_metric_ff.py:main", "experiments/cluster_scripts/sbatching_fast_downward_solver.py:main", "experiments/cluster_scripts/sbatching_trajectory_creation.py:main", "experiments/cluster_scripts/common.py:submit_job", "solvers/enhsp_solver.py:157-169", "solvers/metric_ff_solver.py:136-146", "solvers/fast_downward_solver.py:146-157"]}
{"id": "C114", "title": "Cancelling jobs of the cluster", "statement": "Cancelling the jobs from a first to a last number asks the cluster for each job of the range once, in increasing order, and for no other; a run that ends by itself leaves none of them active; jobs outside the range are never changed. A job that cannot be cancelled does not keep the others from being cancelled, and quitting with Ctrl-C changes no files.", "quantifier": "all numbers, states of the cluster, answers of scancel and of the user", "why_tests_cant": "no test runs the scripts of the cluster, and there is no scancel when the tests run", "anchors": ["experiments/cluster_scripts/scanceling.py:main", "experiments/cluster_scripts/common.py:sigint_handler"]}
