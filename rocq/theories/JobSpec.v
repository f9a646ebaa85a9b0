(** * What a job of the numeric experiments should do

    It learns from its training set, measures what it has learned, and writes three files of its own. *)
From Verif Require Export JobModel CrossSpec CresSpec.
From Verif Require DfoldSpec.
Open Scope string_scope. Open Scope list_scope. Open Scope nat_scope.

(** One entry is set, the others stay. *)
Definition only_set {A} (l l' : list (string * A)) (name : string) (v : A) : Prop :=
  dict_get l' name = Some v /\ forall n, n <> name -> dict_get l' n = dict_get l n.
(** The three kinds of results, in the order in which they are written, and their files *)
Definition job_kinds := [Solving; Numeric; Actions].
Definition job_file (domain_name alg : string) (fold n : nat) (k : kind) : string :=
  match k with
  | Solving => (alg ++ "_problem_solving_stats_fold_" ++ decimal fold ++ "_" ++ decimal n ++ "_trajectories.csv")%string
  | Numeric => (alg ++ "_" ++ domain_name ++ "_numeric_learning_performance_stats_fold_" ++ decimal fold ++ "_" ++ decimal n ++ ".csv")%string
  | _ => (alg ++ "_" ++ domain_name ++ "_action_stats_fold_" ++ decimal fold ++ "_" ++ decimal n ++ ".csv")%string
  end.

Section Spec.
Variables (domain obs : Type).
Variables (parse_partial : string -> res domain) (parse_observation : domain -> string -> string -> res obs).
Variable learn : nat -> domain -> list obs -> res (domain * option learning_report).
Variable mine : files -> res (domain * option learning_report).
Variables (to_pddl title : domain -> string) (actions_of : domain -> domain_actions) (view : obs -> observation).
Variable validate : string -> files -> string -> files -> list obs -> string -> res (list (string * value)).
Variables (data : Type) (init_calculator : files -> res data) (mined_calculator : files -> files -> res data).
Variable measure : string -> data -> string -> nat -> string -> res (rows value).
Variable matching : files -> list string.
Variables (to_float : string -> res Q) (pb_literals pb_functions : action -> nat) (show : value -> string).
Variables (domain_name : string) (model : domain_actions) (mined_model : files -> domain_actions) (domain_file_name : string).
Variable abort : bool.

(** What a job gets out of the tools. *)
Record answer := mk_answer { an_used : list obs; an_learned : domain; an_report : learning_report; an_time : Q; an_reference : domain_actions; an_solving : rows value; an_numeric : rows value }.

(** Learning with one of the learners, or with PlanMiner, which has a calculator and a reference domain of its own *)
Definition learned_with (version : nat) (train eval : files) (partial : domain) (used : list obs) (learned : domain) (report : learning_report) (calc : data) (reference : domain_actions) : Prop :=
  (exists c, init_calculator eval = Ok c) /\
  ((version = 3 \/ version = 19) /\ init_calculator eval = Ok calc /\ learn version partial used = Ok (learned, Some report) /\ reference = model \/
   version = 5 /\ mined_calculator train eval = Ok calc /\ mine train = Ok (learned, Some report) /\ reference = mined_model train).

(** The tools give this answer for a fold, an algorithm and a number of trajectories: the model is learned from the trajectories of the
    training set of the job, and validated on its test set with the learned domain in the place of the domain; the measures are taken on the
    trajectories of the fold. *)
Definition answered (ws : workspace) (fold version n : nat) (alg : string) (a : answer) : Prop :=
  exists train test eval text partial calc time,
    dict_get (ws_train ws) (DfoldSpec.iteration_name fold version n) = Some train /\ dict_get (ws_test ws) (DfoldSpec.iteration_name fold version n) = Some test /\
    (dict_get (ws_eval ws) ("fold_" ++ decimal fold)%string = Some eval \/ dict_get (ws_eval ws) ("fold_" ++ decimal fold)%string = None /\ eval = []) /\
    dict_get train domain_file_name = Some text /\ parse_partial text = Ok partial /\
    Forall2 (fun x o => exists p t, dict_get train (x ++ ".pddl")%string = Some p /\ dict_get train (x ++ ".trajectory")%string = Some t /\ parse_observation partial p t = Ok o) (matching train) (an_used a) /\
    learned_with version train eval partial (an_used a) (an_learned a) (an_report a) calc (an_reference a) /\
    dict_get (an_report a) "learning_time" = Some time /\ to_float time = Ok (an_time a) /\
    (if abort then an_solving a = [] else
     exists row, an_solving a = [row] /\ validate alg train (to_pddl (an_learned a)) (dict_set test domain_file_name (to_pddl (an_learned a))) (an_used a) time = Ok row) /\
    measure alg calc (to_pddl (an_learned a)) (length (an_used a)) "no_remove" = Ok (an_numeric a).
(** The answer can be written into the files. *)
Definition writable (a : answer) : Prop :=
  well_named (an_reference a) /\ well_named (actions_of (an_learned a)) /\
  Forall (fun r => incl (dict_keys r) SOLVING_STATISTICS) (an_solving a) /\ Forall (fun r => incl (dict_keys r) NUMERIC_PERFORMANCE_STATS) (an_numeric a).
(** The rows about the actions are right. *)
Definition right_actions (alg : string) (a : answer) (rs : list row) : Prop :=
  Forall2 (row_of pb_literals pb_functions alg domain_name (an_reference a) (map view (an_used a)) (actions_of (an_learned a)) (an_time a) "no_remove") (an_reference a) rs.

(** What a job leaves: the learned domain in its test set and in the backup, its three files; nothing else changes. *)
Definition job_done (fold version n : nat) (alg : string) (a : answer) (actions : list row) (ws ws' : workspace) : Prop :=
  ws_train ws' = ws_train ws /\ ws_eval ws' = ws_eval ws /\
  (exists test test', dict_get (ws_test ws) (DfoldSpec.iteration_name fold version n) = Some test /\ only_set test test' domain_file_name (to_pddl (an_learned a)) /\
     only_set (ws_test ws) (ws_test ws') (DfoldSpec.iteration_name fold version n) test') /\
  only_set (ws_backups ws) (ws_backups ws')
    (alg ++ "_fold_" ++ decimal fold ++ "_" ++ title (an_learned a) ++ "_" ++ decimal (length (an_used a)) ++ "_trajectories_no_remove_policy.pddl")%string (to_pddl (an_learned a)) /\
  (forall k rs, In (k, rs) [(Solving, an_solving a); (Numeric, an_numeric a); (Actions, actions)] ->
     dict_get (ws_results ws') (job_file domain_name alg fold n k) = Some (mk_csv (columns_of k) (map (line_of show (columns_of k)) rs))) /\
  (forall name, ~ In name (map (job_file domain_name alg fold n) job_kinds) -> dict_get (ws_results ws') name = dict_get (ws_results ws) name).

(** Whatever happens in a job, it changes only its own files. *)
Definition own_files (fold version n : nat) (alg : string) (ws ws' : workspace) : Prop :=
  ws_train ws' = ws_train ws /\ ws_eval ws' = ws_eval ws /\
  (forall name, ~ In name (map (job_file domain_name alg fold n) job_kinds) -> dict_get (ws_results ws') name = dict_get (ws_results ws) name) /\
  (forall name, name <> DfoldSpec.iteration_name fold version n -> dict_get (ws_test ws') name = dict_get (ws_test ws) name) /\
  (dict_get (ws_test ws') (DfoldSpec.iteration_name fold version n) = dict_get (ws_test ws) (DfoldSpec.iteration_name fold version n) \/
   exists test test' text, dict_get (ws_test ws) (DfoldSpec.iteration_name fold version n) = Some test /\ only_set test test' domain_file_name text /\
     dict_get (ws_test ws') (DfoldSpec.iteration_name fold version n) = Some test') /\
  (ws_backups ws' = ws_backups ws \/ exists rest text, only_set (ws_backups ws) (ws_backups ws') (alg ++ "_fold_" ++ decimal fold ++ "_" ++ rest)%string text).

(** A job for which the tools give an answer that can be written *)
Definition ready_job (ws : workspace) (report : nat -> nat -> nat -> answer) (j : job) : Prop :=
  exists fold version n sets alg, numeric_runner (j_arguments j) = Ok (fold, version, n, sets) /\ algorithm_type version = Ok alg /\
    answered ws fold version n alg (report fold version n) /\ writable (report fold version n).

(** What the validator reports names the algorithm and the number of trajectories (safe_domain_validator.py 334-345). *)
Definition validator_names : Prop := forall alg train text test used time row, validate alg train text test used time = Ok row ->
  (exists v, dict_get row "learning_algorithm" = Some v /\ show v = alg) /\ (exists v n, dict_get row "num_trajectories" = Some v /\ show v = decimal n).
End Spec.

(** The subjects of the results of a job, in the order in which they are written *)
Definition job_subjects (j : job) : list subject :=
  match numeric_runner (j_arguments j) with
  | Ok (fold, version, n, _) => match algorithm_type version with Ok alg => map (fun k => mk_subject k alg fold (Some n)) job_kinds | Err _ => [] end
  | Err _ => []
  end.
