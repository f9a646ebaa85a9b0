(** * What collecting the results of a cluster should do *)
From Coq Require Import QArith.
From Verif Require Export CresModel CluSpec CollectSpec.
Open Scope string_scope. Open Scope list_scope. Open Scope nat_scope.

(** A job that collects the results of an experiment: when it runs, it collects those of all the algorithms, folds and numbers of trajectories. *)
Definition collection_job (script : string) (num_folds : nat) (ei : experiment * list nat) (j : job) : Prop :=
  j_script j = script /\ j_dependency j = None /\
  forall names, ex_versions (fst ei) <> [] -> Forall2 (fun version name => algorithm_type version = Ok name) (ex_versions (fst ei)) names ->
  exists directory domain, dict_get (ex_options (fst ei)) "working_directory_path" = Some directory /\ dict_get (ex_options (fst ei)) "domain_file_name" = Some domain /\
    numeric_collector (j_arguments j) = Ok (directory, domain, names, num_folds, snd ei).
(** A job of an experiment that is among the runs: its statistics were exported. *)
Definition ran (ss : list subject) (j : job) : Prop :=
  forall fold version n name sets, numeric_runner (j_arguments j) = Ok (fold, version, n, sets) -> algorithm_type version = Ok name ->
  forall k, In k [Solving; Actions; Numeric] -> In (mk_subject k name fold (Some n)) ss.
(** What a run of a planner reports names its algorithm and a number of trajectories. *)
Definition names_itself {V} (show : V -> string) (results : subject -> list (list (string * V))) (ss : list subject) : Prop :=
  forall s r, In s ss -> s_kind s = Solving -> In r (results s) ->
  (exists v, dict_get r "learning_algorithm" = Some v /\ show v = s_alg s) /\ (exists v n, dict_get r "num_trajectories" = Some v /\ show v = decimal n).
(** Every run of a planner reports at least one row, and names itself. *)
Definition reports_itself {V} (show : V -> string) (results : subject -> list (list (string * V))) (ss : list subject) : Prop :=
  names_itself show results ss /\ forall s, In s ss -> s_kind s = Solving -> results s <> [].
(** The row of a figure for a reported row *)
Definition text_of {V} (show : V -> string) (r : list (string * V)) (column : string) : string := match dict_get r column with Some v => show v | None => "" end.
Definition shown_row {V} (show : V -> string) (percent : string -> Q) (r : list (string * V)) (x : rrow) : Prop :=
  r_alg x = text_of show r "learning_algorithm" /\ r_policy x = text_of show r "policy" /\ decimal (r_num x) = text_of show r "num_trajectories" /\ r_ok x = percent (text_of show r "percent_ok").
