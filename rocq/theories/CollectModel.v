(** * Collecting the results of distributed experiments

    Model of experiments/concurrent_execution/distributed_results_collector.py, of the two collectors that inherit from it, and
    of the functions that write the files they read.  A row read from a csv file is a dict of strings. *)
From Verif Require Export LstatModel PerfModel ValidateModel.
Open Scope string_scope. Open Scope list_scope. Open Scope nat_scope.

Definition text_row := list (string * string).

(** [csv.DictReader]: every line has the length of the header, as DictWriter writes them. *)
Definition read_csv (f : csv) : list text_row :=
  map (fun line => fold_left (fun d kv => dict_set d (fst kv) (snd kv)) (combine (csv_header f) line) []) (csv_lines f).

(** ** The functions that write the files *)
Section Writers.
(** [str] of a value *)
Variables (V : Type) (show : V -> string).
Definition rows := list (list (string * V)).
(** validators/safe_domain_validator.py 348-363 *)
Definition solving_file (alg : string) (fold : nat) (iteration : option nat) : string :=
  (alg ++ "_problem_solving_stats_fold_" ++ decimal fold ++ match iteration with Some n => "_" ++ decimal n ++ "_trajectories" | None => "" end ++ ".csv")%string.
Definition write_statistics (alg : string) (fold : nat) (iteration : option nat) (stats : rows) : directory -> directory * option exc :=
  write_csv V show SOLVING_STATISTICS stats (solving_file alg fold iteration).
(** statistics/semantic_performance_calculator.py 311-326 *)
Definition semantic_file (alg domain : string) (fold : nat) (iteration : option nat) : string :=
  (alg ++ "_" ++ domain ++ "_" ++ decimal fold ++ "_" ++ match iteration with Some n => decimal n | None => "" end ++ "_semantic_performance.csv")%string.
Definition export_semantic_performance (alg domain : string) (fold : nat) (iteration : option nat) (stats : rows) : directory -> directory * option exc :=
  write_csv V show SEMANTIC_PRECISION_STATS stats (semantic_file alg domain fold iteration).
(** statistics/numeric_performance_calculator.py 120-135 *)
Definition numeric_file (alg domain : string) (fold : nat) (iteration : option nat) : string :=
  (alg ++ "_" ++ domain ++ "_numeric_learning_performance_stats_fold_" ++ decimal fold ++ match iteration with Some n => "_" ++ decimal n | None => "" end ++ ".csv")%string.
Definition export_numeric_performance (alg domain : string) (fold : nat) (iteration : option nat) (stats : rows) : directory -> directory * option exc :=
  write_csv V show NUMERIC_PERFORMANCE_STATS stats (numeric_file alg domain fold iteration).
(** statistics/learning_statistics_manager.py 204-239 (the manager itself is in LstatModel) *)
Definition export_action_statistics (alg domain : string) (fold : nat) (iteration : option nat) (stats : rows) : directory -> directory * option exc :=
  write_csv V show LEARNED_ACTIONS_STATS_COLUMNS stats (action_stats_file alg domain fold iteration).
End Writers.

(** ** distributed_results_collector.py *)
Definition FOLD_FIELD := "fold".
Section Collector.
(** __init__ 33-46: the names of the algorithms (the ids were turned into names), the number of folds, the iterations *)
Variables (learning_algorithms : list string) (num_folds : nat) (iterations : list nat).

(** 48-78.  The template as a function; the flag [using_triplets] only decides whether the iteration is passed to [format], and
    the templates without the field ignore it. *)
Definition combine_statistics_data (d : directory) (template : string -> nat -> nat -> string) (exclude : option string) : res (list text_row) :=
  let algorithms := match exclude with None => learning_algorithms | Some x => filter (fun a => negb (Prelude.eqb a x)) learning_algorithms end in
  fold_res (fun data fold =>
    fold_res (fun data iteration =>
      fold_res (fun data alg =>
        match dict_get d (template alg fold iteration) with
        | None => Err KeyError (* FileNotFoundError *)
        | Some f => Ok (data ++ map (fun r => fold_left (fun e kv => dict_set e (fst kv) (snd kv)) r [(FOLD_FIELD, decimal fold)]) (read_csv f))
        end) algorithms data) iterations data) (seq 0 num_folds) [].

Definition collect (d : directory) (template : string -> nat -> nat -> string) (exclude : option string) (columns : list string) (target : string) : directory * option exc :=
  match combine_statistics_data d template exclude with
  | Err e => (d, Some e)
  | Ok data => write_csv string (fun s => s) (FOLD_FIELD :: columns) data target d
  end.

(** 80-103 *)
Definition collect_solving_statistics (collecting_triplets : bool) (d : directory) : directory * option exc :=
  collect d (if collecting_triplets then fun alg fold _ => (alg ++ "_problem_solving_stats_fold_" ++ decimal fold ++ ".csv")%string
             else fun alg fold it => (alg ++ "_problem_solving_stats_fold_" ++ decimal fold ++ "_" ++ decimal it ++ "_trajectories.csv")%string)
    None SOLVING_STATISTICS (if collecting_triplets then "solving_combined_statistics_with_triplets.csv" else "solving_combined_statistics.csv").
(** 105-124 *)
Definition collect_numeric_semantic_performance_statistics (domain : string) (collecting_triplets : bool) (d : directory) : directory * option exc :=
  collect d (if collecting_triplets then fun alg fold _ => (alg ++ "_" ++ domain ++ "_numeric_learning_performance_stats_fold_" ++ decimal fold ++ ".csv")%string
             else fun alg fold it => (alg ++ "_" ++ domain ++ "_numeric_learning_performance_stats_fold_" ++ decimal fold ++ "_" ++ decimal it ++ ".csv")%string)
    None NUMERIC_PERFORMANCE_STATS
    (if collecting_triplets then "numeric_performance_combined_statistics_with_triplets.csv" else "numeric_performance_combined_statistics.csv").
(** 126-149 *)
Definition collect_semantic_performance_statistics (domain : string) (exclude : option string) (using_triplets : bool) (d : directory) : directory * option exc :=
  collect d (if using_triplets then fun alg fold _ => (alg ++ "_" ++ domain ++ "_" ++ decimal fold ++ "_semantic_performance.csv")%string
             else fun alg fold it => (alg ++ "_" ++ domain ++ "_" ++ decimal fold ++ "_" ++ decimal it ++ "_semantic_performance.csv")%string)
    exclude SEMANTIC_PRECISION_STATS
    (if using_triplets then "semantic_performance_combined_statistics_with_triplets.csv" else "semantic_performance_combined_statistics.csv").
(** 151-176 *)
Definition collect_syntactic_performance_statistics (domain : string) (exclude : option string) (using_triplets : bool) (d : directory) : directory * option exc :=
  collect d (if using_triplets then fun alg fold _ => (alg ++ "_" ++ domain ++ "_action_stats_fold_" ++ decimal fold ++ ".csv")%string
             else fun alg fold it => (alg ++ "_" ++ domain ++ "_action_stats_fold_" ++ decimal fold ++ "_" ++ decimal it ++ ".csv")%string)
    exclude LEARNED_ACTIONS_STATS_COLUMNS
    (if using_triplets then "syntactic_performance_combined_statistics_with_triplets.csv" else "syntactic_performance_combined_statistics.csv").

(** One after the other, until one raises. *)
Definition and_then (s : directory * option exc) (f : directory -> directory * option exc) : directory * option exc :=
  match snd s with Some _ => s | None => f (fst s) end.
(** numeric_distributed_results_collector.py 37-54; the plots, which write other files, are not modelled *)
Definition collect_numeric_statistics (domain : string) (d : directory) : directory * option exc :=
  and_then (and_then (collect_solving_statistics false d) (collect_syntactic_performance_statistics domain None false))
           (collect_numeric_semantic_performance_statistics domain false).
Definition collect_numeric_statistics_with_triplets_statistics (domain : string) (d : directory) : directory * option exc :=
  and_then (and_then (collect_solving_statistics true d) (collect_syntactic_performance_statistics domain None false))
           (collect_numeric_semantic_performance_statistics domain true).
(** multi_agent_distributed_results_collector.py 37-57 *)
Definition collect_multi_agent_statistics (domain : string) (d : directory) : directory * option exc :=
  let exclude := Some "ma_sam_plus" in
  and_then (and_then (and_then (and_then (and_then (collect_solving_statistics false d) (collect_solving_statistics true))
    (collect_semantic_performance_statistics domain exclude false)) (collect_semantic_performance_statistics domain exclude true))
    (collect_syntactic_performance_statistics domain exclude false)) (collect_syntactic_performance_statistics domain exclude true).
End Collector.
