# Formal model of argaman-aloni/sam_learning in Rocq

The model is an executable transcription of the Python code into Gallina. The properties of `properties.jsonl` are theorems
about it, listed per property in `MANIFEST.json`.

## Layout

* `rocq/theories/Prelude.v` – Python built-ins: dictionaries, sets, itertools, exceptions. `PreludeProofs.v` – lemmas about them.
* `rocq/theories/Pddl.v` – the data types of pddl_plus_parser that the code uses: types, signatures, literals, states, calls, domains.
* `rocq/theories/*Model.v` – the code, function by function, each definition citing file and lines. No proofs.
* `rocq/theories/*Spec.v` – specifications that do not use the helpers of the model: STRIPS semantics, valuations, version spaces.
* `rocq/theories/*Properties.v` – the property theorems only, each closed by `exact`, each followed by `Print Assumptions`.
* `rocq/theories/*Examples.v` – for each property a concrete non-trivial case that meets the hypotheses (`Example`), and the
  `_refuted` theorems: concrete inputs on which the unrestricted claim is false of the code.
* all other files – lemmas.

Conventions:

* Python exceptions are values (`Err KeyError`, ...).
* Sets are duplicate-free lists, observed through membership.
* Dictionaries are association lists in insertion order.
* A theorem whose name ends in `_partial` proves less than the property says; the manifest note says what is missing.
* A theorem whose name ends in `_refuted` is an existence statement: the faithful model violates the claim in its name.

## Files and what they model

| files | code |
|-------|------|
| `VocabModel` | core/vocabulary_creator.py |
| `SnapshotModel` | core/environment_snapshot.py, core/matching_utils.py |
| `MatcherModel` | core/predicates_matcher.py |
| `SamModel` | learners/sam_learning.py |
| `CnfModel` | core/propositional_operations/literals_cnf.py |
| `MaModel` | learners/multi_agent_sam.py |
| `MacroModel` | learners/ma_sam_plus.py, utilities/macro_actions_parser.py, the macro functions of literals_cnf.py |
| `LogicModel` | core/propositional_operations/logical_expression_operations.py |
| `TextModel` | core/propositional_operations/discrete_utilities.py, text form of literals |
| `DepModel` | core/propositional_operations/dependency_set.py |
| `CondModel` | learners/conditional_sam.py |
| `QueueModel` | core/online_learning/priority_queue.py |
| `OnlineModel` | core/online_learning/online_discrete_models_learner.py, informative_states_learner.py |
| `IntervalModel` | incremental convex hull with one data column |
| `TrainModel` | training and failure attribution of learners/semi_online_learning_algorithm.py |
| `StatsModel` | statistics/discrete_precision_recall_calculator.py, semantic_performance_calculator.py |
| `PerfModel` | statistics/numeric_performance_calculator.py, ma_performance_calculator.py, report rows |
| `ValidateModel` | counters and percentages of validators/safe_domain_validator.py |
| `EpisodeModel` | sam_learning/core/online_learning/episode_info_recorder.py |
| `AgentModel` | sam_learning/core/online_learning_agents/ipc_agent.py |
| FoldModel, FoldSpec, FoldProofs, FoldProperties, FoldExamples | utilities/k_fold_split.py |
| DummyModel, DummySpec, DummyProofs | trajectory_creators/ma_common_functions.py 43-107 |
| NumModel, NumSpec, NumProofs, MonoProofs | sam_learning/core/numeric_learning/numeric_utils.py 39-165, 257-498 (strings, monomials, plane reduction) |
| HullModel, HullSpec, HullProofs, HullObserved, HullSafe | sam_learning/core/numeric_learning/convex_hull_learner.py, numeric_utils.py 500-542 |
| RegModel, RegSpec, RegProofs | sam_learning/core/numeric_learning/linear_regression_learner.py, numeric_utils.py 26-36, 167-254 |
| SvmModel, SvmSpec, SvmProofs | sam_learning/core/online_learning/incremental_svm_learner.py (without the plots) |
| BfsModel, BfsSpec, BfsProofs | sam_learning/core/online_learning/bfs_feature_selection.py |
| NumProperties, NumExamples | C33-C37, C59-C62 |
| NsamModel, NsamSpec, RegAffine, NsamMatch, NsamStore, NsamHull, NsamSafe, NsamLoop, NsamProofs, NsamOwn, NsamFinal | sam_learning/learners/numeric_sam.py, core/numeric_learning/numeric_function_matcher.py, numeric_fluent_learner_algorithm.py, environment_snapshot.py 65-79 |
| IncModel, IncSpec, IncRemove, IncState, IncProofs, IncSafe, IncClaims (HullMean: converse of HullSafe) | sam_learning/core/online_learning/incremental_convex_hull_learner.py |
| OnumModel, OnumSpec, OnumProofs, OnumTrain, OnumClaims, OnumInform, OnumFinal, OnumOptim | core/online_learning/online_numeric_models_learner.py, online_utilities.py 13-65, numeric part of informative_states_learner.py, learners/semi_online_learning_algorithm.py 110-181, 204-246, 312-331, 420-449 |
| InsamModel, InsamSpec, InsamLoop, InsamProofs, InsamFinal (NsamExact: exactness of the batch learner) | sam_learning/learners/incremental_numeric_sam.py with numeric_sam.py, core/numeric_learning/numeric_fluent_learner_algorithm.py |
| EsamModel, EsamSpec, EsamMerge, EsamProofs, EsamRun, EsamFinal | sam_learning/learners/esam.py (without the encoder and decoder functions, which are never reached) |
| UcModel, UcSpec, UcLift, UcStep, UcProofs, UcInv, UcForm, UcGranted, UcFinal, UcLearn, UcSafety, UcWhole, UcChecks, UcProperties, UcExamples | sam_learning/learners/universaly_conditional_sam.py (on top of CondModel); universal quantification ranges over the objects whose type has exactly the given name |
| NoamModel, NoamSpec, NoamLearn, NoamRun, NoamSolve, NoamPlan, NoamFinal, NoamProperties, NoamExamples | sam_learning/learners/noam_algorithm.py with the inherited methods of semi_online_learning_algorithm.py (execution, frontier, selection, exploration, solvers, solving), on top of OnumModel and EpisodeModel; solvers, environment and random numbers are parameters |
| SolverModel, SolverSpec, SolverProofs, SolverProperties, SolverExamples | solvers/metric_ff_solver.py, enhsp_solver.py, fast_downward_solver.py; the planner processes, the parser of Metric-FF's output and the existing directories are parameters; files, the working directory and the number of processes are the state |
| WalkModel, WalkSpec, WalkProofs, WalkProperties, WalkExamples | trajectory_creators/random_walk_trajectories_creator.py, on top of VocabModel; operators and random numbers are parameters |
| DfoldModel, DfoldSpec, DfoldProofs, DfoldFinal, DfoldProperties, DfoldExamples | utilities/distributed_k_fold_split.py and load_distributed_fold_settings of utilities/k_fold_split.py, on top of FoldModel; the numbers of trajectories that json turns into strings stay numbers |
| LstatModel, LstatSpec, LstatProofs | statistics/learning_statistics_manager.py on top of StatsModel; csv files as header and lines of cells (the csv format is trusted), the sizes of the vocabularies and `float` are parameters |
| CollectModel, CollectSpec, CollectProofs, CollectFinal, LstatProperties, LstatExamples | experiments/concurrent_execution/distributed_results_collector.py, numeric_ and multi_agent_distributed_results_collector.py (without the plots), and the functions that export the files they read |
| TripletModel, TripletSpec | experiments/concurrent_execution/parallel_basic_experiment_runner.py 126-188, parallel_multi_agent_experiment_runner.py 50-95 and 134-212, parallel_multi_agent_experiment_runner_with_triplets.py 47-102; MA-SAM with the calls it changes in place; collecting, solving and scoring are not modelled, the world keeps what they are given |
| TripletProofs, TripletLoop, TripletInert, TripletFinal, TripletProperties, TripletExamples | proofs, theorems and cases for C95 and C06_same_components |
| FaultModel, FaultSpec | fault_detection/fault_repair.py (all); operators, the validator's text and the learner are variables; the regular expression that reads the text is modelled for ASCII. fault_detection/fault_generator.py is not modelled: it uses attributes of actions (`positive_preconditions`, `numeric_preconditions`) that the rest of the repository does not use with the pinned parser |
| FaultProofs, FaultFinal, FaultProperties, FaultExamples | proofs, theorems and cases for C96 and C97 |
| CrossModel, CrossSpec | experiments/basic_experiment_runner.py (class OfflineBasicExperimentRunner), `run_fold` of numeric_experiment_runner.py, with the folds of FoldModel, the manager of LstatModel and the writers of CollectModel; parsers, learner, solvers and measures are variables. What is in the train and test directories after an exception is not tracked |
| CrossProofs, CrossFinal, CrossFrame, CrossProperties, CrossExamples | proofs, theorems and cases for C98 |
| SemiModel, SemiSpec | sam_learning/learners/semi_online_learning_algorithm.py: the rest of the class (selection of actions, exploration, trajectory files, planning, the loop over problems), on top of OnumModel, NoamModel and EpisodeModel; the text of trajectory files belongs to the parser, the counters of failure reasons are left out |
| SemiProofs, SemiFinal, SemiProperties, SemiExamples | proofs, theorems and cases for C99 |
| OcolModel, OcolSpec | experiments/concurrent_execution/online_learning_results_collector.py and export_statistics of episode_info_recorder.py: glob, sorting of names, the added columns, groupby/mean/pivot; a table is the list of its rows, csv text and plots are left out, the doubled columns of the recorder are one column |
| OcolProofs, OcolTable, OcolFinal, OcolProperties, OcolExamples | proofs, theorems and cases for C100 |
| PrepModel, PrepSpec | experiments/concurrent_execution/folder_creation_for_parallel_execution.py: the class and its script on the distributed split of C92; the walks of random_walk_trajectories_creator.py are an oracle, the directories results_directory and logs are left out |
| PrepProofs, PrepFinal, PrepProperties, PrepExamples | proofs, theorems and cases for C101 |
| PilModel, PilSpec | experiments/concurrent_execution/planning_with_online_learning.py: reading the problems, the loop over them, the statistics files and the domains that are evaluated; on the learners of NoamModel and SemiModel.  A file that can be parsed is its initial state and agent; the evaluation itself (117-180) is in OevModel; logging and parsing of arguments are left out |
| PilProofs, PilFinal, PilProperties, PilExamples | proofs, theorems and cases for C102, and C99_plan |
| JacModel, JacSpec | utilities/joint_action_counter.py (all but the command line and the number of decimals); the regular expression is modelled as a scan for brackets, text is ASCII |
| JacProofs, JacFinal, JacProperties, JacExamples | proofs, theorems and cases for C103 |
| DmaModel, DmaSpec | trajectory_creators/ma_shorted_experiments_trajectories_creator.py, ma_experiments_trajectories_creator.py and ma_common_functions.py 30-107 as the two creators use it (the plan is changed in place); parsers, converters and the execution of one joint action are variables, exported files are read back as written, the exported domains of the folder creator are left out |
| DmaProofs, DmaFinal, DmaProperties, DmaExamples | proofs, theorems and cases for C104 |
| GenModel, GenSpec | trajectory_creators/experiments_trajectories_creator.py, experiments/experiments_dataset_generator.py with regular trajectories, on top of SolverModel; parsers and the exporter are variables |
| GenProofs, GenProperties, GenExamples | proofs, theorems and cases for C105 |
| PmtModel, PmtSpec | trajectory_creators/plan_miner_trajectories_creator.py (without the renaming of parameters) and _run_plan_miner_process, _create_learned_domain_for_evaluation, _handle_plan_miner_failure, _apply_plan_miner of experiments/concurrent_execution/parallel_numeric_experiment_runner.py; readers of the format |
| PmtProofs, PmtFinal, PmtProperties, PmtExamples | proofs, theorems and cases for C106 and C107 |
| CluModel, CluSpec | experiments/cluster_scripts/common.py and the numeric, multi-agent and online sbatch runners (without the template, the waiting and the interrupts), and the command lines of folder_creation_for_parallel_execution.py and parallel_numeric_experiment_runner.py |
| CluProofs, CluFinal, CluProperties, CluExamples | proofs, theorems and cases for C108 |
| PlotModel, PlotSpec | experiments/plotting/plot_masam_results.py, plot_nsam_results.py, plot_nsam_solo_results.py and the solving rates of plot_online_learning_results.py: the lines, the shaded areas, the layers and the legends (no colours, axes, marks, annotations or files) |
| PlotProofs, PlotProperties, PlotExamples | proofs, theorems and cases for C109 |
| CresModel, CresSpec | experiments/cluster_scripts/sbatching_collect_results.py; the command line and the collection with figures of experiments/concurrent_execution/numeric_distributed_results_collector.py; utilities/util_types.py (names of the algorithms) |
| CresProofs, CresProperties, CresExamples | proofs, theorems and cases for C110 |
| JobModel, JobSpec | experiments/concurrent_execution/parallel_basic_experiment_runner.py (run_fold_iteration and what it calls); experiments/concurrent_execution/parallel_numeric_experiment_runner.py (_apply_learning_algorithm, main); experiments/experiments_consts.py |
| JobProofs, JobFinal, JobProperties, JobExamples | proofs, theorems and cases for C111 |
| OevModel, OevSpec | experiments/concurrent_execution/planning_with_online_learning.py 83-180, 293-318; statistics/utils.py (choice of the calculator); validators/safe_domain_validator.py around the solvers, when it is given paths (78, 114-120, 186-206, 280, 332-358); the names and columns of the exported measures |
| OevProofs, OevFinal, OevProperties, OevExamples | proofs, theorems and cases for C112 |
| CsolModel, CsolSpec | experiments/cluster_scripts/sbatching_solver.py, sbatching_solver_metric_ff.py, sbatching_fast_downward_solver.py, sbatching_trajectory_creation.py (main; nothing calls their other functions), submit_job of common.py for these jobs, the command lines of the three planners, on the planners of SolverModel. Paths have no spaces; jobs run one after the other, each in the directory of the submission; the rest of the template is left out |
| CsolProofs, CsolFinal, CsolProperties, CsolExamples | proofs, theorems and cases for C113 |
| CancelModel, CancelSpec | experiments/cluster_scripts/scanceling.py (all), sigint_handler of common.py; scancel and the user are variables, interrupts come between the jobs, numbers are digits |
| CancelProofs, CancelProperties, CancelExamples | proofs, theorems and cases for C114 |
| MplotModel, MplotSpec | plot_exploration_time_statistics of experiments/plotting/plot_online_learning_results.py; experiments/plotting/plot_conditional_sam_results.py. Tables are complete and have the column of domains |
| MplotProofs, MplotProperties, MplotExamples | proofs, theorems and cases for these figures of C109 |

## Properties: what is modelled and how it is proved

| id | what is modelled | how it is proved |
|----|------------------|------------------|
| C01 | vocabulary, snapshot, matcher, SAM learner; a real STRIPS domain as specification | preconditions superset and effect exactness, then equality of successor states |
| C02 | same | invariant over the list of components |
| C03 | same | invariant: membership iff it held before every learned component |
| C04 | same | invariant: membership iff some learned component changed it |
| C05 | one component | one-step lemma for every learner state |
| C06 | learn loop | corollary of the exact characterisations under `Permutation` |
| C07 | learn loop | one-step lemma |
| C08 | learn loop and STRIPS application | from C03 and C04 |
| C09 | unobserved actions | the vocabulary contains both polarities of a literal |
| C10 | negative-precondition policies | membership characterisation |
| C11 | inequality preconditions | invariant over the list of components |
| C12 | several calls of learn on one learner | equality refuted; the inclusion is proved |
| C13 | learning report | membership characterisation |
| C14-C17 | vocabularies and snapshots | membership iff, by induction on permutations |
| C18 | literal matching | membership iff |
| C19 | effect extraction | membership iff |
| C20, C21 | LiteralCNF as a state machine | invariant over all operation lists; satisfying relations |
| C22 | MultiAgentSAM, whole runs | invariant over joint actions; simulation against joint execution |
| C23 | mapping, signature and expansion of macro actions | induction over the mapping and the plan line |
| C24 | combine_groupings with networkx components | breadth-first search closure, fuel = number of nodes |
| C25, C26 | logical_expression_operations | induction over clauses; meaning as valuations |
| C27, C28 | DependencySet, ConditionalSAM update rules | invariant; valuations |
| C29 | fresh parameter names | pigeonhole for termination |
| C30 | PriorityQueue | refinement of a bag |
| C31, C32 | online discrete learner | both models are the ends of the version space |
| C47 | text form of literals | scanning lemmas over characters |
| C48 | ConditionalSAM, whole runs | exact characterisation of the learned action, then safety |
| C49, C50 | failure attribution and informativeness | invariant over interleavings; version spaces of pairs |
| C51 | training loop | invariant over traces |
| C52 | candidate groups | induction on combinations |
| C53 | MA-SAM+, whole runs | shape invariant of the clauses, then simulation of the joint execution by the macro action |
| C54 | macro parameter types | invariant of the signature loop |
| C40 | precision and recall over literals and over calls | counting lemmas; rationals |
| C46 | validate_domain over all sequences of solver answers | invariant over the problems |
| C55 | semantic effect rates with STRIPS operators | set algebra; refuted |
| C56 | rows and report files of the three calculators | invariant over evaluations |
| C57 | mean squared error of the effects | sums of squares |
| C58 | multi-agent effect rates | reduction to the single-agent fold |
| C41 | the recorder under every sequence of calls | invariant by induction over the calls, column names told apart as text |
| C42 | exported files of every run | cutting lemma, injectivity of file names, invariant over the calls |
| C44 | execute_plan, observe, goal_reached with the simulator and the arithmetic as parameters | refinement to an inductive execution relation |
| C43 | fold indices, the two directories of every fold, saved and reloaded settings; shuffle and sample are parameters | counting lemmas, invariant over the folds |
| C45 | insert_dummy_actions_to_plan for every sequence of random choices | induction over the plan; the full claim is refuted |
| C33 | column tables of rationals, one fluent | the stored rows are exactly the observations; induction over them |
| C34 | strings as token lists, with a parser and an evaluator in the specification | induction over the coefficients |
| C35 | as C34, construct_non_circular_assignment | sums over maps, case analysis; partial |
| C36 | monomials as lists of functions | induction over the degree, up to permutation; partial for degree 1 |
| C37 | the whole of construct_assignment_equations; regression and rank are oracles | every branch of the statement construction; scale-down refuted |
| C59 | row operations over the rationals | induction over the basis |
| C60 | the whole of construct_safe_linear_inequalities; regression, qhull and Gram-Schmidt are oracles | the four paths, for observations and for all weighted means of them; rounding bound by triangle inequality |
| C62 | as C60, with complete oracles | weighted means; elimination of constants, dependencies and projections backwards |
| C61 | as C37 | constant columns and proportional columns |
| C38 | planes with their predictions for the samples | induction over the planes |
| C39 | the selector under every sequence of calls, with two comparisons | invariant over the calls; partial |
| C63 | add_new_point and the whole of construct_linear_inequalities; the classifier is an oracle | invariant of the loop: what is left, what is excluded; strings as in C34 |
| C64 | function matching and numeric snapshots | the permutations and the inverse mapping enumerate exactly the bindings |
| C65, C66 | the whole run of Numeric SAM with a polynomial real action | invariant over the observations; a state that satisfies the conditions is a weighted mean of observed rows, on which affine conditions and effects are kept |
| C67 | report, discrete part, storage of each action | simulation of SAM; the storage of an action is a fold over its own observations |
| C68 | the incremental hull learner as a state machine (add_new_point, reset, construct_safe_linear_inequalities); regression, qhull and Gram-Schmidt are oracles | invariant over operation lists (stored table, basis of full dimension, hull of the stored points); exactness by weighted means |
| C69 | is_point_in_convex_hull and copy in the states that operations reach | case distinction on the invariant; equations are left out because the code does not test them |
| C70 | the online numeric learner of one action under every list of transitions; the numeric libraries are oracles | reuse of the invariants of C63 and C68; membership is only approximate (partial) |
| C71 | training on traces with failure attribution, and the exported safe domain | invariant over components and reviews; the numeric learner of an action has exactly its successes |
| C72 | applicability and informativeness of a new sample | adding the sample to a copy of the hull, then the membership test for every failure; partial |
| C73 | the exported optimistic domain | every separating plane keeps the hull of the successes on its side; each numeric failure is recorded and excluded by one plane |
| C74 | the whole run of incremental Numeric SAM | the invariants of C67 and C68 together; the storage of an action is the online numeric learner fed with successes only; simulation against the batch learner |
| C75 | learn_action_model of ESAM | immediate failure for any component; vocabulary of the actions otherwise |
| C76 | handle_effects and build_cnf_formulas; formulas are lists of clauses of positive literals | invariant over the transitions; prime implicates and forgetting characterised by satisfying choices |
| C77 | minimize_parameters_equality_dict with scipy's disjoint sets; construct_proxy_action | invariant of the merges: classes are the closure of the merged pairs; renaming commutes with grounding |
| C78 | construct_safe_actions for one action | models of a formula and choices of effects correspond |
| C79 | recording, building and constructing from real transitions | every clause is one real effect; partial |
| C80 | universally conditional SAM: initialisation and removal of quantified candidates | refinement: the candidates for one type are those of the conditional learner on the executions viewed at one further object |
| C81 | its construction of quantified preconditions and effects | meaning of the DNF/CNF conditions under an assignment of the quantified parameter; induction over the literals |
| C82 | the whole learner against real quantified actions | case analysis over what the explanations allow at each object; partial |
| C83 | NOAM: frontier, selection, retries, fallback, the exploration loop | invariant of the loop: the recorded steps are the rounds of a walk in the environment; induction over the steps and the fuel of the retries |
| C84 | NOAM: training, plan execution, exploration policies, attempts | simulation: the learners are those of numeric training (C71) on the traces of the run; induction over the operations |
| C85 | NOAM: starvation and informativeness | case analysis; invariant over runs: a stored step is less than the longest episode |
| C86 | NOAM with solvers and the safe domain | induction over the plan with C71's safety of each exported action |
| C87 | Metric-FF: one problem, a directory | case analysis of a run; induction over the problems with an invariant on the files and the report |
| C88 | ENHSP: one problem with retries, a directory | induction over the retries and over the problems |
| C89 | Fast Downward: one problem, retries, a directory | as C88; working directory as part of the state |
| C90 | random walk: selection and loop | induction over the queue of actions and over the steps |
| C91 | ground actions with fluents; files of the walks | membership of the fold; induction over the problems, frame condition on files |
| C92 | distributed folds: creation and reloading | the nested loops as one list of jobs, invariant on what each directory holds after the jobs done; names are injective |
| C93 | learning statistics, over any sequence of operations | invariant: merged and current rows are the rows of the additions before and after the last clearing |
| C94 | writers and collectors of results files | file names are injective in kind, algorithm, fold and iteration (split at the last underscores); the nested loops as one list of jobs; reading is the inverse of writing |
| C95 | cutting, the baseline filter and the loop of experiments on transitions | learners as functions to the model and the changed observations; without constants they change nothing; with one, a call seen once repeats an object and is skipped without a trace (`inert`), by the invariant of MA-SAM |
| C96 | the comparison of states, the two runs of a plan, the loop over the plans, the validator's complaint | runs and differences as inductive relations; invariant of the loop (`seen`); with integral values and listed predicates agreement is equality, so equal states stay equal until the altered action |
| C97 | repair | frame of the replaced action; simulation of the repaired domain by the model, step by step |
| C98 | the loop over the folds, the observations, the files and the three kinds of statistics of the runner | state of the runner between folds as an invariant (nothing pending); file names are injective in kind and fold; the split is C43; what no run changes by composition over the steps, for every answer of the tools |
| C99 | `try_to_solve_problems` from a new learner with all the functions it calls | a log of visits that explains the run is constructed by induction over the problems; between problems: the recorder fits the log (C41, C42), the queue lists the files on the disk, their names are distinct and they hold the waiting lessons |
| C100 | all functions of the collector on a directory of tables | the sorted file names are the names of a permutation of the runs (uniqueness of sorted lists); the label of a file is its position, and positions are folds exactly if decimal numbers sort like numbers, i.e. up to 9; groups and pivot by the set of keys |
| C101 | the script on a working directory with the directories train, test, performance_evaluation_trajectories and the settings | C92_folds for the split; induction on the folds for the evaluation directories, with the invariant that test directories, files and settings stay; the second run by C92's part on saved settings, which do not depend on what is drawn |
| C102 | one fold: a directory of problem files, a learner, the results | a specification of one trial (attempts with the safe and the optimistic domain, exploration); the solver loop and the exploration refine it, with the recorder's invariant of C41; induction on the problem files for lessons and rows; safety and plans from C84's and C86's lemmas on the lessons so far |
| C103 | the scan of lines, brackets and words, the counters and the share | relational descriptions of words, listed actions, lines and files; the string functions are proved to compute them by induction on the text; the counters by induction on the lines, the share by induction on the sorted names |
| C104 | both creators, on top of the model of inserting dummy actions | a relation between plans with and without dummy actions and one between their executions; both by induction on the plan. Files: every problem touches only its own three names (their last letters and stems differ), so what one step establishes survives the rest of the run (induction on the solution files, on the folders) |
| C105 | the creator of trajectories, the three planners and their composition | a relation between the files of a problem and its trajectory; induction on the solution files (each step changes one trajectory, so that what is known of other problems stays); the planners by C87-C89, whose frame gives the hypotheses of the second phase |
| C106 | the text of states, plans and the file; the directory | a reader that finds groups of brackets and one that follows the numbered lines; induction on balanced texts, on the numbered lines and on the plans (the reader inverts the writer); what a plan says is a relation to the steps of the trajectory |
| C107 | the process and what is made of its output | a relation between the output, the domain, the report and the file of the test set; case analysis of the run, with all files compared |
| C108 | the lists of jobs given to sbatch; the two command lines | a relation that gives each wish one or more submissions in order; induction on the nested loops with sbatch and squeue as variables; the command lines are parsed again and joined with the directories of C92 |
| C109 | the lines and legends made from the rows of a table | a line is compared with the averages of the selected rows of the table, not with the groups; the nested groupings are reduced to one selection by a lemma on flat_map; the layers by linearity of averages over Q |
| C110 | submission (C108), export and collection (C94) and figures (C109) in one directory | the submitted jobs give the runs, the runs the files, the collected file the rows of the figures: C108, C94 and C109 are composed; the file of the collected results is the only one with its ending because names of exported files never end so |
| C111 | a job as a function on the working directory; the tools are functions | step by step for one job; for many jobs the invariant that training and evaluation directories stay and test directories differ at most in the domain file; the collection fails because every file that can exist is named after one of three algorithms and its rows name that algorithm, while the first figure needs rows of naive_nsam |
| C112 | directories as dicts of texts, results as dicts of tables; the script of a fold is the learning of C102 followed by the evaluation | step by step for one fold; for many folds the invariant that the three kinds of files are exactly those of the folds so far, because no name of one kind has the pattern of another |
| C113 | the accepted jobs as a list of scripts with arguments; sbatch and the planners as variables | induction on the problems for the submission; for the jobs, the relation of C87-C89 between a list of problems and the files is extended job by job, for every permutation of the accepted jobs |
| C114 | the numbers given to scancel, the state of the cluster, the file temp.sbatch, the end of the program | induction on the length of the range, for every scancel that stops a job or leaves all as it is |

## Trusted base

* The kernel of Coq 8.16.1.
* `Print Assumptions` follows every property theorem and says "Closed under the global context" for each of them: no axioms are used.
* `vcheck` (coqchk) also lists seven constants of the standard library that are in the context because `Lia` and `ssreflect` files are
  loaded: `Coq.ssr.ssrunder.Under_rel.{Under_rel, Over_rel, Under_rel_from_rel, Under_relE, over_rel, over_rel_done, under_rel_done}`.
  No theorem depends on them.
* The reading of the Python code recorded in the comment of each definition.
* The behaviour of external libraries listed below.

### External libraries

pddl_plus_parser 3.16.3, networkx and the Python library are not available in the sandbox and are modelled from their documented behaviour:

* Literals are equal iff name, polarity and parameters are equal. `copy(is_negated=True)` flips the polarity.
* The untyped representation is "(name p1 p2)" or "(not (name p1 p2))", and "(name )" without parameters.
* The operands and the inequality preconditions of a condition are sets.
* `is_sub_type` is the reflexive-transitive closure of the declared hierarchy.
* `JointActionCall.operational_actions` returns the calls that are not no-ops, in order.
* Whether `Precondition.add_condition` dissolves nested conjunctions, and whether iteration visits nested literals, are parameters of the
  conditional learner; the theorems say for which values they hold.
* `nx.connected_components` is breadth-first search from the nodes in insertion order.
* `uuid4` and `random` are oracles: universally quantified arguments.
* Numeric strings are token lists; `scale-up`, `scale-down`, `increase`, `decrease` and `assign` have their PDDL 2.1 meaning.
* Floating-point arithmetic is exact where numbers occur (`QueueModel`, `IntervalModel`, and the numeric files).

### Parts of the code that are not modelled

* Logging, timing, file formats.
* Figures: colours, axes, annotations and files of all of them (the rest is C109).
* Command lines other than those of the scripts in C108, C110, C113 and C114; the functions of the cluster scripts that
  nothing calls.
* The numeric algorithms of scipy, numpy, sympy and sklearn themselves (qhull, Gram-Schmidt, regression, rank, support vectors): they are
  oracles, and each theorem says what it assumes of them.
* `minimize_dnf_clauses` (sympy).
* The external planners and validators; their outcomes are arguments.

`sam_learning/core/predicates_matcher.py:173` does not parse (`lifted_signature.keys()[]`), so at the pinned commit the package cannot be
imported. The statement (lines 171-173) computes a value that is never used; the model is that of the file without these lines.

## Findings

Each is a `_refuted` theorem unless marked "read".

SAM:
* A call that uses a domain constant as an object can make the learned model unsafe (C01, C02).
* The policies `soft` and `hard` drop real negative preconditions (C01); with `hard`, an unobserved action becomes executable (C09).
* A learned action called with the same object twice can behave differently from the real one (C01).
* Learning in two calls of `learn_action_model` is not the same as learning in one (C12).
* Observed actions are reported "NOT SAFE" by the learning report (C13).
* A ground literal that repeats a constant is not matched (C18).

Multi-agent SAM:
* Only the snapshot of the last call of a joint action is searched for effects; effects of the other calls are lost (C22).
* Two calls of one action in a joint action defeat the safety test (C22, C21).
* Two domain constants can make learning raise (C22).
* Failed joint actions are learned from; an empty joint action reuses the previous snapshot (read).

Macro actions:
* Micro actions without parameters vanish from the expansion (C23).
* Two separate parameter groups can be given the same macro parameter (C23).
* Parameter names shared between actions drop effects from the macro action, which is then unsafe (C53).
* A domain constant makes the construction of a macro action raise `KeyError` (C53).
* A macro action named "a-b" replaces an action of that name (C53).
* With incomparable types the type of a macro parameter is that of one micro parameter (C54).
* The inequality preconditions of the micro actions are not carried over to the macro action (read).

Logic and text:
* Empty clauses are dropped, so an unsatisfiable formula becomes satisfiable (C26).
* Arguments with a hyphen make the negation raise `AttributeError` (C26).
* Predicates whose name starts with "not" are taken for negations (C26, C28).
* Repeated arguments are collapsed when a literal is read back, and a predicate named "not" is misread (C47).
* `minimize_cnf_clauses` changes the caller's assumptions (read).

Conditional SAM:
* Disjunctive antecedents and repeated objects lose the real antecedents (C27).
* Effects never observed, effects of restrictive conditions and nested preconditions make the model unsafe; unsuccessful components are learned
  from (C48).

Online learning:
* The queue maximises the priority rounded to hundredths; the second extractor raises on a lone item of weight zero (C30).
* Before the first success the optimistic effects contain no delete effects (C31).
* Inconsistent executions drop the empty clause instead of reporting the conflict (C31).
* Reviewing undecided failures can count one failure twice (C49).
* With a single success the numeric verdicts are not exact (C50).
Statistics and validation:
* Spurious effects do not lower the semantic precision of effects: the reference action is applied to the state the learned action
  produced (C55). A call after which the reference action is inapplicable is left out (C55).
* Precision over one set of literals is 0 when nothing was learned, and semantic recall is 0 when no call is applicable (C40).
* The multi-agent calculator never writes its combined report: two columns are missing from its field names (C56).
* A second numeric evaluation with the same policy and number of trajectories overwrites the error of the first (C56).
* The numeric error is 0 for an action that is never applicable; without functions the calculator raises ValueError (C57).
* Multi-agent effect statistics skip every step with an idle agent (C58).
* A plan whose validation text has no known marker is counted nowhere; an empty portfolio raises KeyError; solved problems are listed with
  the file suffix and unsolved ones without (C46).

Recording and executing:
* Two actions can share a counter of the recorder when one name begins with `failed_due_to_discrete_condition_` (C41).
* The trajectory file of an episode carries the number of the next episode (C42).
* Ending an episode does not clear the trajectory; unless the caller does, the next file repeats the old steps and a reader sees a
  transition that never happened (C42). The semi-online learner clears it; the plan of the safe model and the exploration after it are
  still recorded in one trajectory although the exploration starts from the initial state again.
* Numeric goal conditions are evaluated with values of an earlier check when the state lacks the function (C44).
* A negative goal literal is compared as text with the listed predicates and so never holds (C44).

Folds and multi-agent plans:
* A train or test directory left from before is reused with its content, so a test item may also be trained on (C43).
* Ignoring saved settings of more folds fails at the end with TypeError and leaves a settings file that cannot be read (C43).
* Stopping before the last fold leaves the directories and saves nothing; without settings every run draws another sample, as
  `random.sample` is not seeded (C43).
* Joint actions before the last position that get no dummy, by the draw or because no agent is idle, are dropped from the plan, so
  the returned plan need not be executable (C45).

Numeric learning:
* An observation that lacks a column is dropped when the rows restricted to the common columns repeat each other (C33).
* Asking for two relevant fluents of which the data has only the second raises KeyError (C33).
* x' = 1.0001 x + 5 becomes an increase by 5: the rest of the coefficient is below the threshold (C35).
* For x' = x the increase has no operand, so the text is malformed (C35).
* Degree 1 gives products of two functions and no squares (C36).
* A factor c below 1 is written `(scale-down f c)`, which divides by c (C37).
* Learning effects for some fluents permanently removes the columns of the others (C37).
* A fluent that occurs only after the action raises KeyError with two or more rows; when no previous column varies, a changed fluent
  raises ValueError; a table whose last common column vanished counts as empty, so the next observation replaces all (read).
* Rounding the planes to four digits can exclude an observed state, for instance a largest value of 1/3 (C60).
* Rounding can also allow states outside the hull; a table without rows gives no precondition at all (C62).
* A plane all of whose coefficients are negligible gives the malformed `(<=  b)` (read). An empty list of relevant fluents means no
  numeric precondition at all (read). Multiples of a factor below 0.01 are not detected as dependent (read).

Separating planes and feature selection:
* A failure that lacks a function shifts the coefficients: they are paired with all columns, also those that were left out (C63).
* A failure that lies on a plane counts as excluded but satisfies the inequality; failures without any success, and failures beyond the
  hundredth plane, are not excluded (C63).
* The feature selector compares frames of different length: after two different observations every call raises ValueError (C39).
* It gives up the current selection at any contradiction between predicates, without looking at the numeric values (C39).

Numeric SAM:
* The inequality preconditions that SAM computes are dropped when the numeric ones are inserted, so the learned action can be called
  with the same object twice (C67).
* An observed action that can mention no function stops the run with AttributeError if no relevant fluents are given (C65).
* After an action was reported as not safe, a second call of the learner adds it again without preconditions, although it still counts
  as observed, so its discrete preconditions are never learned again (read).

Incremental hull learner:
* The membership test ignores the equations for constant and dependent fluents, so it accepts points that the safe model excludes (C69).
* With one relevant fluent out of several, the bounds are those of the first column, not of the relevant fluent (C68).
* `reset` raises AttributeError before a hull exists; after a reset to a constant fluent the membership test raises ValueError for points
  like the observed ones (C68, C69).
* Without an observation the safe model allows every state (C68).
* The argument `relevant_fluents` of construct_safe_linear_inequalities is ignored; `_spanning_standard_base` is never set back to False; an
  error of qhull in add_new_point is not caught (read).

Online learning of numeric actions:
* Without a success the safe numeric model allows everything, and an action that can mention no predicate is then exported with no
  precondition at all (C70, C71).
* Without functions the membership test always answers no (C70).
* One action whose effects cannot be fitted stops construct_safe_action_model for the whole domain (C71).
* As the membership test ignores equations, a numeric failure can be blamed on the discrete condition; then states in which the action
  can be executed are called not applicable (C71). In the same way a sample is called not applicable because of an unrelated
  failure (C72).

Incremental Numeric SAM:
* The list of relevant fluents is not used for preconditions: states that differ in other fluents are excluded (C74).

ESAM:
* `learn_action_model` raises TypeError for any component: the snapshot is called with `observation_objects` (C75). `add_new_action` calls
  `handle_effects` with three arguments (read).
* The table `encoders` is never filled, so `encode`, and every action with more than one choice of effects, raise KeyError (C78).
* `cannot_be_effects` has ground literals and is compared with lifted ones (C76). The policy for negative preconditions is applied before
  the preconditions of unobserved actions are added (C75).
* Merging two arguments of one literal drops an argument, since the signature is a dict; a constant in a literal raises KeyError (C77).
* With repeated objects the constructed action can have an effect that the real one lacks (C79).
* `len(...) < 0` never holds; the decoder unpacks the keys of a dict; the encoder refuses arguments whose type IS a subtype; a proxy named
  `move_1` overwrites an action of that name (read).

Universally conditional SAM:
* Every action that occurs needs an entry in `universals_map`; otherwise, also with the default `None`, learning raises (C80).
* A change that involves two further objects, or a constant and a further object, raises IndexError or KeyError (UcExamples.v).
* A literal that never became true and has one explanation left is taken to be impossible (C82). If iteration over preconditions visits
  nested literals, restrictions are dropped (C82).
* `literal in self.observed_universal_effects` compares a literal with action names and never holds; the literals of restrictive quantified
  effects are built with the type's name in place of the type; objects of a subtype of a quantified type are ignored while learning although
  the learned quantifier ranges over them (read).

Online exploration (noam_algorithm.py):
* An action's last execution is stored as the step within its episode and compared with the counter of all episodes; after about
  1000 executions plus the length of an episode every action starves for good and informativeness is ignored (C85).
* InformativeExplorer inherits the selection that takes the head of the shuffled frontier, so it never looks at informativeness.
* The retry loop does not look at the limit of failures (C83 gives the bound that does hold). Executions of the fallback are recorded but
  not learned from (C83, C84).
* The goal of the initial state is not tested (C83). An empty plan that does not reach the goal raises IndexError; a plan that stops at an
  inapplicable action counts as a success if the goal holds there, and its length includes the failed step (C84).
* The exported domain does not say that parameters differ; plans that repeat an object can raise ValueError (C86).
* `sort_ground_actions_based_on_success_rate` asks for as many items as there are ground actions with different objects; if there are none,
  or one has an unknown name, numpy raises ValueError.
* `PROBLEM_NAME_REGEX` does not match names with a hyphen (AttributeError). The table of combined samples is never read.

Planners and random walks:
* The default directories of Metric-FF and Fast Downward are relative and the working directory is changed, so the second problem of a
  directory raises FileNotFoundError (C87, C89). After a failure of Fast Downward the working directory stays changed (C89).
* ENHSP and Fast Downward leave an old plan in place when they fail (C88, C89). Metric-FF reports "no_solution" for any exit code 0 whose
  text is not understood (C87).
* Where all ground actions are applicable, the search for an inapplicable action ends with an applicable one and the walk records it without
  its effect (C90). A problem without ground actions raises IndexError (C90).
* Written next to the problems, the copies match the prefix and are walked themselves in the next run (C91).

Distributed folds (C92):
* Created from the files, the directories for the triplets are called `fold_J_A_triplets_N` (train) and `fold_J_A_triplets_N_triplets` (test);
  experiments with triplets read `fold_J_A_triplets`, which is only created when the settings are loaded (C92_triplets_refuted).
* `n_split=0` is the default and raises ValueError (C92_zero_folds_refuted); an empty list of iterations raises IndexError after directories were
  created (C92_no_iterations_refuted).
* As in C43, ignoring recorded settings of more folds destroys the settings file, and directories left from before keep their files.

Statistics files (C93, C94):
* `learning_report` is optional but None raises TypeError (C93_no_report_refuted); `num_discrete_effects` is a column that no row fills, and
  `write_complete_joint_statistics` writes a list that nothing is ever added to.
* An action that was not learned is reported with action recall 1 and preconditions recall 1, one that was learned without any literal with recall 0
  (C93_unlearned_recall_refuted).
* Collecting with triplets still loops over the iterations, and reads the same file in each (C94_triplets_repeated, C94_triplets_refuted).
* `export_semantic_performance` without an iteration writes `ALG_DOMAIN_FOLD__semantic_performance.csv` (two underscores); the collector with
  triplets reads the name with one, so it always raises (C94_semantic_triplets_refuted), and with it `collect_multi_agent_statistics`
  (C94_multi_agent_refuted).

Experiments on transitions (C95):
* `compute_interacting_actions` appends the constants to the parameters of the observed call itself. The experiments pass the same observations to a
  new learner in every iteration, so with a constant each piece looks like a call with repeated objects from its second use on and is skipped: the
  backup for k*i transitions is learned from the last k of them (C95_ma_sam_constant_refuted), and if there are fewer pieces than iterations the last
  backup is overwritten by a model of no transition (C95_ma_sam_constant_last_refuted).
* `_export_dataset_statistics` divides by the number of joint actions of several agents; without any the baseline raises before it learns
  (C95_baseline_alone_refuted). A joint action without operational action raises IndexError (C95_baseline_trajectory_idle).

Finding faults (C96):
* A plan that the model cannot execute gets the status "not_applicable", which is overwritten by "state_difference" in the same pass
  (C96_not_applicable_refuted). Its faulty action is the one that fails, although the altered one came before (C96_blame_refuted).
* The comparison accepts numeric differences below 1 and looks only at predicates that the valid state lists; a difference that grows later, or a
  predicate that is listed later, is blamed on another action (C96_small_difference_refuted, C96_new_predicate_refuted).
* If plans name different actions, the last file wins; the observations of the others are dropped (C96_observations).
* The regular expression knows no hyphens and needs a space after the name, so `fly-fast`, `plane-1` or an action without parameters raises
  AttributeError (C96_complaint, C96_hyphen_refuted). A text without any marker raises TypeError.
* For a repaired domain without a fault all observations are emptied (C96_observations).
* `repair_model` gives the learner the complete model domain instead of one without preconditions and effects (C97; not part of the claims of C65).

Cross validation (C98):
* The semantic performance calculator is created anew for every fold, so the combined file has only the rows of the last fold; the list behind
  `..._all_folds_numeric_learning_stats.csv` is never filled, and the rows of all the folds about actions are never exported (C98_joint_reports_refuted).
* The semantic performance of fold i is written to file i + 1, the other reports to file i; the name of the combined numeric file lacks an underscore.
* A numeric fold run by itself measures the semantic performance with the files of `test` instead of `test/fold_i_a`, so its own test set plays no role
  (C98_single_fold_refuted). The runner for conditional effects passes arguments that do not exist (`solver_type`, `test_set_path`): TypeError; it is not modelled.

Semi-online learning (C99):
* The counter of failed steps is never reset: MAX_FAILED_STEPS_PER_EPISODE is a bound for all explorations together, and afterwards each problem is
  left without a single step (C99_exhausted, C99_failures_per_episode_refuted).
* Explorations are learned from only when solvers are used for a later problem: those at the end of the list are lost, and their files stay
  (C99_waiting_refuted).
* The problem of a trajectory is recovered from the file name with `\w+`: a hyphen in a problem's name (pfile-1) raises AttributeError (C99_hyphen_refuted).
* Actions of executed plans are not recorded: they count neither for MIN_EXECUTIONS_PER_ACTION nor in the rows (C99_plans_not_counted_refuted).
* The number in the name of a trajectory file is that of the next episode.

Collecting the results of online learning (C100):
* The column `fold` is the position of the file in the order of names, not the fold: with eleven folds the rows of fold 10 are labelled 2 and those of
  folds 2 to 9 are labelled 3 to 10; a missing fold shifts the later ones (C100_labels, C100_labels_refuted, C100_missing_refuted).
* An episode whose optimistic plan was not applicable and whose goal was then reached by exploring is both optimistic_not_applicable and
  optimistic_solved: the stacked shares of the plot add up to more than 1 (C100_stack, C100_categories_refuted).
* optimistic_solved also holds for episodes solved by exploring alone, so aggregated_success_solver is always equal to aggregated_success
  (C100_solver_column, C100_solver_refuted).
* The script always collects the evaluation of noam_learning and raises ValueError if only other algorithms were run (C100_main, C100_main_refuted).

Preparing a distributed experiment (C101):
* The test items are taken from the directory for one trajectory: a list of numbers of trajectories without 1 makes the script raise after the folds
  were created (C101_no_first_iteration).
* A second run uses the recorded folds but the number of folds on the command line: more folds raise, fewer are not all prepared for evaluation
  (C101_more_folds_refuted).  A list that is only given the second time raises (C101_later_iterations_refuted).
* Evaluation directories are not removed with the folds: once the settings are gone, a fold can be evaluated on what it is trained on
  (C101_stale_refuted).
* The domain is copied into the test directory before its problems are listed: if its name has the prefix of the problems, the script raises
  (C101_prefix_refuted).

One fold of online learning (C102):
* Problem files are sorted by name: with more than ten numbered problems, the episode of a row is not the number of the problem (C102_order).
* One problem file that cannot be read, or one convex hull that fails, ends the whole fold: no statistics are written to the results
  (C102_unreadable, C102_hull_refuted).  Problems are read one by one while learning, so this can happen after hours.

The joint action counter (C103):
* noop and no-op with arguments are counted as actions although nop with arguments is not (C103_noop_refuted); a line that starts with
  (Operators: is ignored although the loop below treats it without regard to capital letters (C103_capital_refuted).

Multi-agent data sets (C104):
* the list returned by insert_dummy_actions_to_plan, which lacks steps (C45), is ignored by both callers: they use the plan changed in place,
  which lacks none (C104_plan);
* the dummy predicate may be put in the goal although no agent is ever idle; the trajectory then does not reach the goal (C104_goal_refuted);
* a solution file without its problem file ends the whole run, although a plan that cannot be converted does not (C104_missing_refuted); in the
  creator for folders every failure ends the run (C104_bad_folder_refuted);
* that creator names the files by Path.stem of a folder: problem.1 and problem.2 overwrite each other (C104_dots_refuted).

Generating a data set (C105):
* Fast Downward changes the working directory before it looks for problems: with a relative directory no problem is found, and the trajectories
  are looked for in the planner's directory as well, so that the generation ends in an exception (C105_relative_refuted);
* with random trajectories the given prefix is not passed on: experiments_dataset_generator.py 72 calls create_domain_trajectories(), which uses
  "pfile" (read in the code, not modelled).

PlanMiner (C106, C107):
* a single trajectory that cannot be parsed prevents the whole file (C106_one_bad_refuted); an existing file is never updated, although the domain
  is exported again (C106_stale_refuted); a trajectory without steps is listed without any state (C106_empty_refuted);
* the time limit kills PlanMiner, but what it left is used as if it had finished (C107_late_refuted); [wait] never raises CalledProcessError, so
  that the exit code is ignored; an unreadable output is reported with a learning time although no action was learned (C107_report_refuted);
* the working directory is changed before the directories of the experiment are used, so that relative ones fail (C107_relative_refuted).

Submitting experiments (C108):
* the online program passes --ignore_internal_iterations to the job of the folds, whose parser does not know it: each of these jobs ends with an
  error, for every experiment (C108_online_refuted);
* the number of folds is not passed to the job of the folds, which makes five (C108_folds_refuted, C108_directories);
* the numbers 1 to 9 (or up to 90 for a hop of 100) are used for any size (C108_too_large_refuted), and the size of the training set itself is only
  used when the hop meets it (C108_whole_refuted);
* a job that ends before squeue is asked is submitted again (C108_twice_refuted); squeue is called with a list and shell=True, so that its arguments
  are ignored and jobs of other users are listed as well: what is shown is a variable here;
* the names of the algorithms are looked up only for printing and for the name of the job, but a missing one ends the program
  (C108_unlisted_refuted).

The figures (C109):
* the legends pick the lines by fixed positions: with results of fewer than three algorithms there is no figure (C109_missing_refuted,
  C109_nsam_possible), and with another algorithm next to two of the three the names are given to the wrong lines (C109_other_refuted);
* the figure of the numeric experiments does not know naive_nsam_no_dependency_removal (KeyError), a name that no algorithm of the enumeration
  has; the policies are averaged together in it;
* an episode in two categories (C100_stack) makes the layers leave the figure (C109_overflow_refuted);
* of the output path of plot_masam_results.py only the directory is used: figures of two domains in one directory overwrite each other; the episodes
  after the 80th are cut from the online figure.

Collecting the results of a cluster (C110):
* the collector of the numeric experiments draws two figures between the first and the second file; an experiment that compares fewer than the three
  algorithms ends there with an exception, and the results on actions and numbers are never collected (C110_missing_algorithm_refuted);
* the options of an experiment are passed on as they are: one that the program does not know ends every job (C110_unknown_option_refuted). The shipped
  cluster_numeric_config_file.json has such an option, solver_type; it also compares version 19, which the submitting program does not know (C108), and
  without plan_miner no figure can be drawn;
* an experiment without parallelization_data (as in the shipped online configuration) cannot be collected (KeyError).

A job of the numeric experiments (C111):
* naive_nsam (15) is offered by the submission, by the parser of the job and required by the figures, but NUMERIC_SAM_ALGORITHM_VERSIONS has no learner
  for it: each of its jobs reads all its trajectories and then ends with KeyError (C111_no_learner_refuted); the same holds for 20 and 21, which the
  parser accepts, and in numeric_experiment_runner.py;
* therefore the collection of the numeric experiments can never be completed with results of this program: with naive_nsam a file is missing, without it
  the first figure raises (C111_never_collected_refuted).  The hypothesis ran of C110_collected can be met only by results that were made elsewhere;
* with ABORT_SOLVING in the environment the report on solving has no rows, and no figure can be drawn either.

The evaluation of a fold of online learning (C112):
* goal_oriented_explorer is not in NUMERIC_ALGORITHMS of statistics/utils.py: its numeric domains are measured by the calculator for discrete domains,
  the file is called ..._semantic_performance.csv, and collect_sematic_performance_statistics finds nothing (C112_goal_oriented_refuted);
* _extract_num_triplets returns inside its first loop, so it reads one trajectory only, and it looks for lines like "[0, 1]: (move a b)", which the
  trajectories of the project do not have: the column num_trajectory_triplets is 0 for them (C112_triplets_refuted);
* the trajectories that are counted are those named like problems, not those that were recorded during the learning (trajectory_...);
* if the name of the domain begins like the names of the problems, the two learned domains are counted as problems (hypothesis apart).

Planners on the cluster (C113):
* the arguments of a job are joined with spaces, and a timeout or tolerance that is a number in the json file is no text: TypeError at the first
  problem, nothing is submitted (C113_number_refuted);
* sbatching_trajectory_creation.py gives a Path object as an argument, so that it always ends in the same way (C113_trajectories_refuted);
* the third argument is the working directory as it is written in the configuration, and Metric-FF changes the current directory before it uses it: the
  plans for a relative working directory are written below the directory of the planner, or not at all (C113_relative_refuted);
* a job of Fast Downward runs the planner once, while execute_solver repeats a run that failed (fd_handled_once, fd_handled).

Cancelling jobs (C114):
* check_output raises when scancel fails, so that a job of somebody else in the range keeps all later ones running (C114_refused_refuted);
* the handler of Ctrl-C removes temp.sbatch of the current directory although this script never writes it: FileNotFoundError without it, and with it a
  submission that runs in the same directory loses its file (C114_quit_refuted);
* a first number above the last one cancels nothing and reports no error (C114_exchanged_refuted).

The figure of conditional effects (C109): `plt.subplots(1, 1)` gives a single object, and `axs[0]` raises TypeError for the results of one domain
(C109_one_domain_refuted).

## Testing the theorems against wrong programs

`seeded/LOG.jsonl` has one line per attempt: the definition edited in a scratch copy, the edit, the claim it breaks, the theorems and lemmas
that failed, and the theorems that were tightened. Edits whose "breaks" field starts with "none" change nothing observable or concern no claim.
