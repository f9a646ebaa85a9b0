(** * Collecting the results of a cluster

    Model of experiments/cluster_scripts/sbatching_collect_results.py, of the command line of
    experiments/concurrent_execution/numeric_distributed_results_collector.py and of its collection with the two figures, which CollectModel
    leaves out.  Printing, sleeping, the temporary file and the files of the figures are left out. *)
From Coq Require Import QArith.
From Verif Require Export CluModel PlotModel CollectModel.
Open Scope string_scope. Open Scope list_scope. Open Scope nat_scope.

Section Cluster.
Variable sbatch : nat -> job -> option nat.
(** sbatching_collect_results.py 21-27 *)
Definition collection_arguments (e : experiment) (num_folds : nat) (internal_iterations : list nat) : res (list argument) :=
  let* working_directory := option_of e "working_directory_path" in
  let* domain := option_of e "domain_file_name" in
  Ok [Arg "working_directory_path" working_directory; Arg "domain_file_name" domain; Arg "learning_algorithms" (commas (ex_versions e));
      Arg "num_folds" (decimal num_folds); Arg "internal_iterations" (commas internal_iterations)].
(** 13-33, 36-45 *)
Definition collection_experiment (script : string) (num_folds : nat) (l : log) (e : experiment) : res log :=
  let* internal_iterations := create_internal_iterations_list e in
  let* arguments := collection_arguments e num_folds internal_iterations in
  let* (l, _) := submit_job sbatch l (mk_job script arguments None) in
  Ok l.
Definition collection_main (code script : string) (num_folds : nat) (experiments : list experiment) : res log :=
  fold_res (collection_experiment (code ++ "/" ++ script) num_folds) experiments [].
End Cluster.

(** utilities/util_types.py 4-23: [LearningAlgorithmType(n).name] *)
Definition algorithm_names : list (nat * string) :=
  [(1, "sam_learning"); (2, "esam_learning"); (3, "numeric_sam"); (5, "plan_miner"); (7, "ma_sam"); (9, "conditional_sam"); (10, "universal_sam"); (14, "noam_learning");
   (17, "informative_explorer"); (18, "goal_oriented_explorer"); (19, "incremental_nsam"); (20, "semi_online"); (21, "optimistic_explorer"); (22, "informative_svm");
   (25, "ma_sam_plus"); (15, "naive_nsam"); (16, "naive_polysam")].
Definition algorithm_type (n : nat) : res string := match dict_get algorithm_names n with Some name => Ok name | None => Err ValueError end.

(** numeric_distributed_results_collector.py 13-22, 56-68 and distributed_results_collector.py 33-46: directory, file of the domain, names of the
    algorithms, number of folds, numbers of trajectories *)
Definition collector_options := ["working_directory_path"; "domain_file_name"; "learning_algorithms"; "num_folds"; "internal_iterations"].
Definition numeric_collector (arguments : list argument) : res (string * string * list string * nat * list nat) :=
  if negb (forallb (known collector_options []) arguments) then Err RuntimeError else
  let* working_directory := required arguments "working_directory_path" in
  let* domain := required arguments "domain_file_name" in
  let* algorithms := required arguments "learning_algorithms" in
  let* num_folds := required arguments "num_folds" in
  let* num_folds := int num_folds in
  let* iterations := required arguments "internal_iterations" in
  let* iterations := map_res int (split_comma "" iterations) in
  let* algorithms := map_res (fun s => let* n := int s in algorithm_type n) (split_comma "" algorithms) in
  Ok (working_directory, domain, algorithms, num_folds, iterations).

Section Plots.
(** The deviation of a group and the number a text is read as *)
Variables (std : list Q -> option Q) (percent : string -> Q).
Definition field (r : text_row) (column : string) : string := match dict_get r column with Some v => v | None => "" end.
(** [pd.read_csv]: the columns that the figures use; the numbers of trajectories are natural numbers. *)
Definition result_of (r : text_row) : res rrow :=
  let* n := int (field r "num_trajectories") in
  Ok (mk_rrow (field r "learning_algorithm") (field r "policy") n (percent (field r "percent_ok"))).
(** [glob("*suffix")] *)
Fixpoint ends_with (suffix s : string) : bool := String.eqb s suffix || match s with String _ s => ends_with suffix s | "" => false end.
(** plot_nsam_results.py 10-112, plot_nsam_solo_results.py 10-66: a figure for each file *)
Definition draw (make : list rrow -> res figure) (template : string) (d : directory) : directory * option exc :=
  match fold_res (fun _ name => match dict_get d name with
                                | Some f => let* rows := map_res result_of (read_csv f) in let* _ := make rows in Ok tt
                                | None => Err KeyError
                                end) (filter (ends_with template) (map fst d)) tt with
  | Ok _ => (d, None)
  | Err e => (d, Some e)
  end.
(** numeric_distributed_results_collector.py 37-45 *)
Definition collect_with_figures (algorithms : list string) (num_folds : nat) (iterations : list nat) (domain : string) (d : directory) : directory * option exc :=
  and_then (and_then (and_then (and_then (collect_solving_statistics algorithms num_folds iterations false d)
    (draw (nsam_figure std) "solving_combined_statistics.csv")) (draw (solo_figure std) "solving_combined_statistics.csv"))
    (collect_syntactic_performance_statistics algorithms num_folds iterations domain None false))
    (collect_numeric_semantic_performance_statistics algorithms num_folds iterations domain false).
End Plots.
