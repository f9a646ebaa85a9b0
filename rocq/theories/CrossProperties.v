(** * C98: cross validation *)
From Verif Require Import CrossSpec CrossProofs CrossFinal CrossFrame.
Open Scope string_scope. Open Scope list_scope. Open Scope nat_scope.

Section Properties.
Variables (domain obs : Type).
Variables (parse_partial : string -> res domain) (parse_observation : domain -> string -> string -> res obs).
Variable learn : domain -> list obs -> res (domain * option learning_report).
Variables (to_pddl title : domain -> string) (actions_of : domain -> domain_actions) (view : obs -> observation).
Variable validate : string -> files -> list obs -> Q -> res (list (string * value)).
Variables (data : Type) (init_calculator : files -> res data) (measure : data -> string -> nat -> string -> res (rows value)).
Variable matching : files -> list string.
Variables (to_float : string -> res Q) (pb_literals pb_functions : action -> nat) (show : value -> string).
Variables (algorithm : string) (numeric : bool) (domain_name : string) (model : domain_actions) (domain_file_name policy : string).
Variables (shuffle : nat -> list nat) (fifth : nat -> nat) (sample : list string -> nat -> list string) (n_split : nat).
Notation run_cross_validation := (run_cross_validation domain obs parse_partial parse_observation learn to_pddl title actions_of view validate data init_calculator measure matching
  to_float pb_literals pb_functions show algorithm numeric domain_name model domain_file_name policy shuffle fifth sample n_split).
Notation run_fold := (run_fold domain obs parse_partial parse_observation learn to_pddl title actions_of view validate data init_calculator measure matching
  to_float pb_literals pb_functions show algorithm numeric domain_name model domain_file_name policy).
Notation tools_work := (tools_work domain obs parse_partial parse_observation learn actions_of validate data init_calculator measure to_float numeric domain_file_name policy).
Notation reported := (reported domain obs parse_partial parse_observation learn to_pddl title actions_of view validate data init_calculator measure
  to_float pb_literals pb_functions show algorithm numeric domain_name model domain_file_name policy).
Notation right_fold := (right_fold domain obs parse_partial parse_observation learn to_pddl actions_of view validate data init_calculator measure
  to_float pb_literals pb_functions algorithm domain_name model domain_file_name policy).

(** The first run of a cross validation in a working directory: every trajectory is tested in exactly one fold, by a model learned
    from all the other trajectories of the directory and from none of the tested ones; the reports of every fold, the backups of
    the models and the joint report of the solved problems are those; no other report changes and nothing is left in the working
    directory but the recorded folds.  A second run uses the same folds.  Missing for the full statement: the joint reports of the
    semantic performance and of the learned actions cover all the folds (refuted below). *)
Theorem C98_cross_validation_partial (before : string -> string -> Prop) (w : world string) :
  shuffles shuffle -> samples sample -> lists_trajectories before matching -> (forall x, domain_file_name <> (x ++ ".trajectory")%string) -> well_named model ->
  ready string domain_file_name matching w -> w_config _ w = NoFile -> tools_work (w_files _ w) (matching (w_files _ w)) ->
  let n := length (matching (w_files _ w)) in let k := if n_split =? 0 then n else n_split in 2 <= k <= n ->
  exists w' items tests, NoDup items /\ (forall x, In x items <-> In x (matching (w_files _ w))) /\ length tests = k /\ (forall x, In x items -> in_exactly_one x tests) /\
    w_files _ w' = w_files _ w /\ w_train _ w' = None /\ w_test _ w' = None /\
    (forall results backups, exists r, run_cross_validation w (new_runner results backups) = (w', (r, None)) /\ reported before (w_files _ w) items tests results r) /\
    (forall results backups, exists r, run_cross_validation w' (new_runner results backups) = (w', (r, None)) /\ reported before (w_files _ w) items tests results r).
Proof.
  intros SH SA GL DN WM RD CF TW n k K.
  destruct (run_ok domain obs parse_partial parse_observation learn to_pddl title actions_of view validate data init_calculator measure matching
    to_float pb_literals pb_functions show algorithm numeric domain_name model domain_file_name policy shuffle fifth sample n_split before w SH SA GL DN WM RD CF TW K)
    as (w' & items & tests & A & B & C & D & E & F & G & H & I).
  exists w', items, tests. split; [exact A|]. split; [exact B|]. split; [exact C|]. split; [exact D|]. split; [exact E|]. split; [exact F|]. split; [exact G|].
  split; intros results backups.
  - destruct (H results backups) as (r & l & R & W1 & W2 & W3 & _ & _ & W6). exists r. split; [exact R|]. exists l. auto.
  - destruct (I results backups) as (r & l & R & W1 & W2 & W3 & _ & _ & W6). exists r. split; [exact R|]. exists l. auto.
Qed.

(** In every such run, whatever the folds, the combined report of the semantic performance has the rows of the last fold only, the
    report of the learning statistics of all the folds has no rows at all, and the rows about the learned actions of all the folds
    are written nowhere else. *)
Theorem C98_joint_reports_refuted (before : string -> string -> Prop) (w : world string) results backups :
  shuffles shuffle -> samples sample -> lists_trajectories before matching -> (forall x, domain_file_name <> (x ++ ".trajectory")%string) -> well_named model ->
  ready string domain_file_name matching w -> w_config _ w = NoFile -> tools_work (w_files _ w) (matching (w_files _ w)) ->
  let n := length (matching (w_files _ w)) in let k := if n_split =? 0 then n else n_split in 2 <= k <= n ->
  exists w' r items tests folds last, run_cross_validation w (new_runner results backups) = (w', (r, None)) /\
    length tests = k /\ Forall2 (right_fold before (w_files _ w) items) tests folds /\ nth_error folds (k - 1) = Some last /\
    dict_get (r_results r) (if numeric then (algorithm ++ "_" ++ domain_name ++ "combined_numeric_performance.csv")%string
                            else (algorithm ++ "_" ++ domain_name ++ "_combined_semantic_performance.csv")%string) =
      Some (mk_csv (performance_columns numeric) (map (line_of show (performance_columns numeric)) (fr_semantic _ _ last))) /\
    dict_get (r_results r) (algorithm ++ "_all_folds_numeric_learning_stats.csv")%string = Some (mk_csv LEARNED_ACTIONS_STATS_COLUMNS []) /\
    forall name, ~ In name (written_names algorithm numeric domain_name k) -> dict_get (r_results r) name = dict_get results name.
Proof.
  intros SH SA GL DN WM RD CF TW n k K.
  destruct (run_ok domain obs parse_partial parse_observation learn to_pddl title actions_of view validate data init_calculator measure matching
    to_float pb_literals pb_functions show algorithm numeric domain_name model domain_file_name policy shuffle fifth sample n_split before w SH SA GL DN WM RD CF TW K)
    as (w' & items & tests & A & B & C & D & E & F & G & H & _).
  destruct (H results backups) as (r & l & R & W1 & W2 & W3 & W4 & W5 & W6). fold n in C. fold k in C.
  assert (L : length l = k) by (rewrite <- C; clear -W1; induction W1; cbn; congruence).
  destruct (nth_error l (k - 1)) as [last|] eqn:N; [|apply nth_error_None in N; lia].
  exists w', r, items, tests, l, last. split; [exact R|]. split; [exact C|]. split; [exact W1|]. split; [exact N|]. rewrite <- L in N.
  split; [exact (W4 last N)|]. split; [exact W5|]. rewrite <- C. exact W6.
Qed.

(** A fold that is run by itself: the report of its semantic performance is the same whatever its test set is. *)
Theorem C98_single_fold_refuted i train test test' common r r1 r2 :
  run_fold i train test common r = (r1, None) -> run_fold i train test' common r = (r2, None) ->
  dict_get (r_results r1) (performance_name algorithm numeric domain_name (i + 1)) = dict_get (r_results r2) (performance_name algorithm numeric domain_name (i + 1)).
Proof. exact (run_fold_ignores domain obs parse_partial parse_observation learn to_pddl title actions_of view validate data init_calculator measure matching
    to_float pb_literals pb_functions show algorithm numeric domain_name model domain_file_name policy i train test test' common r r1 r2). Qed.

(** A fold that is run by itself and does not raise: every tool gave an answer; the model was learned from all the trajectories of the train directory, in their
    order; it was validated on the test directory with it as the domain; the reports and the backup have what the tools said. *)
Theorem C98_fold_done (before : string -> string -> Prop) i train test common r r' :
  lists_trajectories before matching -> r_solving r = [] -> run_fold i train test common r = (r', None) ->
  single_fold domain obs parse_partial parse_observation learn to_pddl title validate data init_calculator measure to_float show algorithm numeric domain_name domain_file_name policy
    before i train test common r'.
Proof. exact (single_done domain obs parse_partial parse_observation learn to_pddl title actions_of view validate data init_calculator measure matching
    to_float pb_literals pb_functions show algorithm numeric domain_name model domain_file_name policy before i train test common r r'). Qed.

(** A fold that is run by itself changes no report and no backup but its own, whatever the tools answer and whatever it raises. *)
Theorem C98_fold_frame i train test common r r' e :
  run_fold i train test common r = (r', e) -> changes_only (fun n => In n (fold_names algorithm numeric domain_name i)) (backup_of algorithm i) r r'.
Proof.
  intros E. pose proof (fold_only domain obs parse_partial parse_observation learn to_pddl title actions_of view validate data init_calculator measure matching
    to_float pb_literals pb_functions show algorithm numeric domain_name model domain_file_name policy i train test common r) as H. rewrite E in H. exact H.
Qed.

(** So does a cross validation: the reports and backups of folds and the three joint reports, whatever the tools answer and whatever it raises. *)
Theorem C98_frame w r w' r' e :
  run_cross_validation w r = (w', (r', e)) ->
  changes_only (fun n => (exists i, In n (fold_names algorithm numeric domain_name i)) \/ In n [joint_solving algorithm; joint_performance algorithm numeric domain_name; joint_learning algorithm])
    (fun n => exists i, backup_of algorithm i n) r r'.
Proof.
  intros E. pose proof (run_only domain obs parse_partial parse_observation learn to_pddl title actions_of view validate data init_calculator measure matching
    to_float pb_literals pb_functions show algorithm numeric domain_name model domain_file_name policy shuffle fifth sample n_split w r) as H. rewrite E in H. exact H.
Qed.

(** A first cross validation that ends without an error, whatever the tools are: they have answered for every fold, and each fold has learned from the other
    trajectories, was validated and measured on its own, and has its reports and its backup at the end. *)
Theorem C98_honest (before : string -> string -> Prop) (w : world string) results backups w' r :
  shuffles shuffle -> samples sample -> lists_trajectories before matching -> ready string domain_file_name matching w -> w_config _ w = NoFile ->
  let n := length (matching (w_files _ w)) in let k := if n_split =? 0 then n else n_split in 2 <= k <= n ->
  run_cross_validation w (new_runner results backups) = (w', (r, None)) ->
  exists items tests, NoDup items /\ (forall x, In x items <-> In x (matching (w_files _ w))) /\ length tests = k /\ (forall x, In x items -> in_exactly_one x tests) /\
    forall i ts, nth_error tests i = Some ts -> honest_fold domain obs parse_partial parse_observation learn to_pddl title validate data init_calculator measure
      to_float show algorithm numeric domain_name domain_file_name policy before (w_files _ w) items ts i r.
Proof. exact (run_honest domain obs parse_partial parse_observation learn to_pddl title actions_of view validate data init_calculator measure matching
    to_float pb_literals pb_functions show algorithm numeric domain_name model domain_file_name policy
    shuffle fifth sample n_split before w results backups w' r). Qed.
End Properties.
Print Assumptions C98_cross_validation_partial.
Print Assumptions C98_joint_reports_refuted.
Print Assumptions C98_single_fold_refuted.
Print Assumptions C98_fold_done.
Print Assumptions C98_fold_frame.
Print Assumptions C98_frame.
Print Assumptions C98_honest.
