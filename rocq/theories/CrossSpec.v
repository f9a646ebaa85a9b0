(** * What a cross validation should do

    Every fold learns from its training items only, and reports about its test items; the files of the folds do not mix. *)
From Coq Require Export Sorting.Sorted.
From Verif Require Export CrossModel FoldSpec CollectSpec.
Open Scope string_scope. Open Scope list_scope. Open Scope nat_scope.

(** Listing a directory: the stems of its trajectories, each once, in the order [before]. *)
Definition lists_trajectories (before : string -> string -> Prop) (matching : files -> list string) : Prop :=
  forall d, NoDup (matching d) /\ StronglySorted before (matching d) /\ forall x, In x (matching d) <-> In (x ++ ".trajectory")%string (dict_keys d).

Section Spec.
Variables (domain obs : Type).
Variables (parse_partial : string -> res domain) (parse_observation : domain -> string -> string -> res obs).
Variable learn : domain -> list obs -> res (domain * option learning_report).
Variables (to_pddl title : domain -> string) (actions_of : domain -> domain_actions) (view : obs -> observation).
Variable validate : string -> files -> list obs -> Q -> res (list (string * value)).
Variables (data : Type) (init_calculator : files -> res data) (measure : data -> string -> nat -> string -> res (rows value)).
Variables (to_float : string -> res Q) (pb_literals pb_functions : action -> nat) (show : value -> string).
Variables (algorithm : string) (numeric : bool) (domain_name : string) (model : domain_actions) (domain_file_name policy : string).

Definition performance_columns : list string := if numeric then NUMERIC_PERFORMANCE_STATS else SEMANTIC_PRECISION_STATS.

(** The external tools succeed: the files can be parsed, the learner returns a domain and its time, the validator and the
    calculator return rows with the columns of the reports. *)
Definition tools_work (fs : files) (items : list string) : Prop :=
  (exists text partial, dict_get fs domain_file_name = Some text /\ parse_partial text = Ok partial /\
     (forall x p t, In x items -> dict_get fs (x ++ ".pddl")%string = Some p -> dict_get fs (x ++ ".trajectory")%string = Some t ->
        exists o, parse_observation partial p t = Ok o) /\
     (forall used, exists learned rep time, learn partial used = Ok (learned, rep) /\ timed to_float rep time /\ well_named (actions_of learned))) /\
  (forall text test used time, exists row, validate text test used time = Ok row /\ incl (dict_keys row) SOLVING_STATISTICS) /\
  (forall test, exists calc, init_calculator test = Ok calc) /\
  (forall calc text n, exists rows, measure calc text n policy = Ok rows /\ Forall (fun r => incl (dict_keys r) performance_columns) rows).

(** What comes out of one fold. *)
Record fold_result := mk_fold_result { fr_used : list obs; fr_learned : domain; fr_time : Q; fr_solving : list (string * value);
  fr_semantic : rows value; fr_actions : list row }.

(** It is right for the test items [tests]: the model was learned from the observations of all the other items, in order, and of
    no test item; it was validated, and measured, on a directory with exactly the test items; the rows about its actions are right. *)
Definition right_fold (before : string -> string -> Prop) (fs : files) (items tests : list string) (f : fold_result) : Prop :=
  exists trained text partial rep testdir calc,
    NoDup trained /\ StronglySorted before trained /\ (forall x, In x trained <-> In x items /\ ~ In x tests) /\
    dict_get fs domain_file_name = Some text /\ parse_partial text = Ok partial /\
    Forall2 (fun x o => exists p t, dict_get fs (x ++ ".pddl")%string = Some p /\ dict_get fs (x ++ ".trajectory")%string = Some t /\
                                    parse_observation partial p t = Ok o) trained (fr_used f) /\
    learn partial (fr_used f) = Ok (fr_learned f, rep) /\ timed to_float rep (fr_time f) /\
    holds_files string fs testdir (flat_map both tests) /\
    validate (to_pddl (fr_learned f)) (dict_set testdir domain_file_name (to_pddl (fr_learned f))) (fr_used f) (fr_time f) = Ok (fr_solving f) /\
    init_calculator testdir = Ok calc /\ measure calc (to_pddl (fr_learned f)) (length (fr_used f)) policy = Ok (fr_semantic f) /\
    Forall2 (row_of pb_literals pb_functions algorithm domain_name model (map view (fr_used f)) (actions_of (fr_learned f)) (fr_time f) policy) model (fr_actions f).

(** The files of fold [i]; the one of the semantic performance is numbered from one. *)
Definition performance_name (i : nat) : string :=
  if numeric then (algorithm ++ "_" ++ domain_name ++ "_numeric_learning_performance_stats_fold_" ++ decimal i ++ ".csv")%string
  else (algorithm ++ "_" ++ domain_name ++ "_" ++ decimal i ++ "__semantic_performance.csv")%string.
Definition fold_files (results : directory) (backups : files) (i : nat) (f : fold_result) : Prop :=
  dict_get results (algorithm ++ "_" ++ domain_name ++ "_action_stats_fold_" ++ decimal i ++ ".csv")%string =
    Some (mk_csv LEARNED_ACTIONS_STATS_COLUMNS (map (line_of show LEARNED_ACTIONS_STATS_COLUMNS) (fr_actions f))) /\
  dict_get results (performance_name (i + 1)) = Some (mk_csv performance_columns (map (line_of show performance_columns) (fr_semantic f))) /\
  dict_get results (algorithm ++ "_problem_solving_stats_fold_" ++ decimal i ++ ".csv")%string =
    Some (mk_csv SOLVING_STATISTICS [line_of show SOLVING_STATISTICS (fr_solving f)]) /\
  dict_get backups (algorithm ++ "_fold_" ++ decimal i ++ "_" ++ title (fr_learned f) ++ "_" ++ decimal (length (fr_used f)) ++ "_trajectories.pddl")%string =
    Some (to_pddl (fr_learned f)).
Definition all_fold_files (results : directory) (backups : files) (fs : list fold_result) : Prop :=
  forall i f, nth_error fs i = Some f -> fold_files results backups i f.

(** The names of the joint files. *)
Definition joint_solving := (algorithm ++ "_all_folds_solving_stats.csv")%string.
Definition joint_learning := (algorithm ++ "_all_folds_numeric_learning_stats.csv")%string.
Definition joint_performance := if numeric then (algorithm ++ "_" ++ domain_name ++ "combined_numeric_performance.csv")%string
                                else (algorithm ++ "_" ++ domain_name ++ "_combined_semantic_performance.csv")%string.

(** Everything that is written for folds [0] to [k - 1]. *)
Definition written_names (k : nat) : list string :=
  flat_map (fun i => [(algorithm ++ "_" ++ domain_name ++ "_action_stats_fold_" ++ decimal i ++ ".csv")%string; performance_name (i + 1);
                      (algorithm ++ "_problem_solving_stats_fold_" ++ decimal i ++ ".csv")%string]) (seq 0 k) ++
  [joint_solving; joint_performance; joint_learning].

(** A run that reports about the test items of each fold, and about all of them together, and writes nothing else. *)
Definition reported (before : string -> string -> Prop) (fs : files) (items : list string) (tests : list (list string)) (earlier : directory) (r : runner) : Prop :=
  exists results, Forall2 (right_fold before fs items) tests results /\ all_fold_files (r_results r) (r_backups r) results /\
    dict_get (r_results r) joint_solving = Some (mk_csv SOLVING_STATISTICS (map (fun f => line_of show SOLVING_STATISTICS (fr_solving f)) results)) /\
    forall n, ~ In n (written_names (length tests)) -> dict_get (r_results r) n = dict_get earlier n.

(** The names of the reports of fold [i], and of its backup *)
Definition fold_names (i : nat) : list string :=
  [(algorithm ++ "_" ++ domain_name ++ "_action_stats_fold_" ++ decimal i ++ ".csv")%string; performance_name (i + 1);
   (algorithm ++ "_problem_solving_stats_fold_" ++ decimal i ++ ".csv")%string].
Definition backup_of (i : nat) (n : string) : Prop := exists name k, n = (algorithm ++ "_fold_" ++ decimal i ++ "_" ++ name ++ "_" ++ decimal k ++ "_trajectories.pddl")%string.
(** Only these reports and backups change. *)
Definition changes_only (reports backups : string -> Prop) (r r' : runner) : Prop :=
  (forall n, ~ reports n -> dict_get (r_results r') n = dict_get (r_results r) n) /\ (forall n, ~ backups n -> dict_get (r_backups r') n = dict_get (r_backups r) n).
(** A fold that is run by itself: the domain was learned from all the trajectories of the train directory in their order, validated on the test directory in
    which it replaces the domain, and measured on the directory [measured]; its reports and its backup are there. *)
Definition single_fold (before : string -> string -> Prop) (i : nat) (train test measured : files) (r' : runner) : Prop :=
  exists trained text partial used learned rep time solved calc stats,
    NoDup trained /\ StronglySorted before trained /\ (forall x, In x trained <-> In (x ++ ".trajectory")%string (dict_keys train)) /\
    dict_get train domain_file_name = Some text /\ parse_partial text = Ok partial /\
    Forall2 (fun x o => exists p t, dict_get train (x ++ ".pddl")%string = Some p /\ dict_get train (x ++ ".trajectory")%string = Some t /\ parse_observation partial p t = Ok o) trained used /\
    learn partial used = Ok (learned, rep) /\ timed to_float rep time /\
    validate (to_pddl learned) (dict_set test domain_file_name (to_pddl learned)) used time = Ok solved /\
    init_calculator measured = Ok calc /\ measure calc (to_pddl learned) (length used) policy = Ok stats /\
    dict_get (r_results r') (performance_name (i + 1)) = Some (mk_csv performance_columns (map (line_of show performance_columns) stats)) /\
    dict_get (r_results r') (algorithm ++ "_problem_solving_stats_fold_" ++ decimal i ++ ".csv")%string = Some (mk_csv SOLVING_STATISTICS [line_of show SOLVING_STATISTICS solved]) /\
    dict_get (r_backups r') (algorithm ++ "_fold_" ++ decimal i ++ "_" ++ title learned ++ "_" ++ decimal (length used) ++ "_trajectories.pddl")%string = Some (to_pddl learned).
(** Fold [i] of a cross validation: it is such a fold with the files of all the items but [tests] in the train directory, and those of [tests] in the test
    directory, on which it is also measured. *)
Definition honest_fold (before : string -> string -> Prop) (fs : files) (items tests : list string) (i : nat) (r' : runner) : Prop :=
  exists train test, holds_files string fs train (domain_file_name :: flat_map both (filter (fun x => negb (memb x tests)) items)) /\
    holds_files string fs test (flat_map both tests) /\ single_fold before i train test test r'.
End Spec.
