(** * Collecting the results of online learning

    Model of experiments/concurrent_execution/online_learning_results_collector.py and of `export_statistics` of
    sam_learning/core/online_learning/episode_info_recorder.py.  A table read by pandas is the list of its rows; a row is a dict without
    the columns whose value is missing. *)
From Verif Require Export EpisodeModel.
Open Scope string_scope. Open Scope list_scope. Open Scope nat_scope.

(** The csv files of results_directory, by name. *)
Definition table := list row.
Definition results := list (string * table).

(** episode_info_recorder.py 178-179 and 189-194, planning_with_online_learning.py 235-239 *)
Definition statistics_file (alg : string) (fold : nat) : string := (alg ++ "_exploration_statistics_fold_" ++ decimal fold ++ ".csv")%string.
Definition summarized (alg : string) (fold : nat) (rows : table) : table :=
  map (fun r => dict_set (dict_set r "algorithm_type" (CText alg)) "fold_number" (CNat fold)) rows.
Definition export_statistics (d : results) (alg : string) (fold : nat) (rows : table) : results :=
  dict_set d (statistics_file alg fold) (summarized alg fold rows).

(** ** [glob]: the pieces of a pattern between its stars; names without "/" *)
Fixpoint drop (n : nat) (s : string) : string := match n, s with S n, String _ s => drop n s | _, _ => s end.
Fixpoint any_suffix (f : string -> bool) (s : string) : bool := f s || match s with String _ s => any_suffix f s | "" => false end.
Fixpoint glob_match (pieces : list string) (s : string) : bool :=
  match pieces with
  | [] => false
  | [p] => String.eqb s p
  | p :: pieces => String.prefix p s && any_suffix (glob_match pieces) (drop (String.length p) s)
  end.
(** [sorted] on strings *)
Fixpoint insert_name (x : string) (l : list string) : list string :=
  match l with [] => [x] | y :: l' => if String.leb x y then x :: l else y :: insert_name x l' end.
Definition sorted_names (l : list string) : list string := fold_right insert_name [] l.
Definition read_csv (d : results) (name : string) : res table := match dict_get d name with Some t => Ok t | None => Err KeyError end.
(** 17-19, 66-68, 82-84 *)
Definition fold_data (d : results) (pattern : list string) : res (list table) :=
  map_res (read_csv d) (sorted_names (filter (glob_match pattern) (dict_keys d))).
(** [pd.concat]; "No objects to concatenate" *)
Definition concat_tables (ts : list table) : res table := match ts with [] => Err ValueError | _ => Ok (concat ts) end.
Definition enumerate {A} (l : list A) : list (nat * A) := combine (seq 0 (length l)) l.

(** ** Columns that are computed *)
(** [df[column] == text] *)
Definition is_text (r : row) (column text : string) : res bool :=
  match dict_get r column with Some (CText s) => Ok (String.eqb s text) | Some _ => Ok false | None => Err KeyError end.
(** [df[column] == number]; True is 1 *)
Definition is_number (r : row) (column : string) (n : nat) : res bool :=
  match dict_get r column with
  | Some (CNat m) => Ok (m =? n)
  | Some (CBool b) => Ok ((if b then 1 else 0) =? n)
  | Some (CNum q) => Ok (Qeq_bool q (inject_Z (Z.of_nat n)))
  | Some (CText _) => Ok false
  | None => Err KeyError
  end.
(** [.astype(int)] *)
Definition as_int (b : bool) : cell := CNat (if b then 1 else 0).
(** 22-31 *)
Definition with_columns (i : nat) (r : row) : res row :=
  let r := dict_set r "fold" (CNat i) in
  let* b := is_text r "optimistic_model_solution_status" "not_applicable" in
  let r := dict_set r "optimistic_not_applicable" (as_int b) in
  let* b := is_text r "safe_model_solution_status" "ok" in
  let r := dict_set r "safe_solved" (as_int b) in
  let* b1 := is_text r "optimistic_model_solution_status" "ok" in
  let* b2 := is_number r "goal_reached" 1 in
  let* b3 := is_number r "safe_solved" 0 in
  let r := dict_set r "optimistic_solved" (as_int ((b1 || b2) && b3)) in
  let* b1 := is_number r "optimistic_not_applicable" 1 in
  let* b2 := is_number r "safe_solved" 1 in
  let* b3 := is_number r "optimistic_solved" 1 in
  let r := dict_set r "not_solved" (CBool (negb b1 && negb b2 && negb b3)) in
  let* b1 := is_number r "optimistic_solved" 1 in
  let* b2 := is_number r "safe_solved" 1 in
  let* b3 := is_number r "goal_reached" 1 in
  let r := dict_set r "aggregated_success" (as_int (b1 || b2 || b3)) in
  let* b1 := is_number r "optimistic_solved" 1 in
  let* b2 := is_number r "safe_solved" 1 in
  Ok (dict_set r "aggregated_success_solver" (as_int (b1 || b2))).

(** 12-35 *)
Definition export_unified_statistics_to_csv (d : results) (filename domain alg : string) : res (results * table) :=
  let* data := fold_data d [(alg ++ "_exploration_statistics_fold_")%string; ".csv"] in
  let* data := map_res (fun it => map_res (with_columns (fst it)) (snd it)) (enumerate data) in
  let* unified := concat_tables data in
  Ok (dict_set d (domain ++ "_" ++ alg ++ "_" ++ filename)%string unified, unified).

(** ** All algorithms *)
Fixpoint insert_nat (x : nat) (l : list nat) : list nat :=
  match l with [] => [x] | y :: l' => if x <=? y then x :: l else y :: insert_nat x l' end.
Definition sorted_nats (l : list nat) : list nat := fold_right insert_nat [] l.
Definition mean (vs : list nat) : Q := (inject_Z (Z.of_nat (list_sum vs)) / inject_Z (Z.of_nat (length vs)))%Q.
(** The values of the three columns; the rows that pandas leaves out because a key is missing and values of other types do not occur in
    tables of the recorder. *)
Definition keyed (r : row) : res (nat * string * nat) :=
  match dict_get r "episode_number", dict_get r "algorithm_type", dict_get r "aggregated_success" with
  | Some (CNat e), Some (CText a), Some (CNat v) => Ok (e, a, v)
  | Some _, Some _, Some _ => Err TypeError
  | _, _, _ => Err KeyError
  end.
Definition in_group (e : nat) (a : string) (k : nat * string * nat) : bool := (fst (fst k) =? e) && String.eqb (snd (fst k)) a.
(** 53: the groups in the order of their keys *)
Definition group_means (ks : list (nat * string * nat)) : list (nat * string * Q) :=
  flat_map (fun e => flat_map (fun a => match map snd (filter (in_group e a) ks) with [] => [] | vs => [(e, a, mean vs)] end)
    (sorted_names (nodup string_dec (map (fun k => snd (fst k)) ks)))) (sorted_nats (nodup Nat.eq_dec (map (fun k => fst (fst k)) ks))).
(** 56-57 *)
Definition pivot (g : list (nat * string * Q)) : table :=
  map (fun e => ("episode_number", CNat e) ::
    flat_map (fun a => match find (fun k => (fst (fst k) =? e) && String.eqb (snd (fst k)) a) g with Some k => [(a, CNum (snd k))] | None => [] end)
      (sorted_names (nodup string_dec (map (fun k => snd (fst k)) g)))) (sorted_nats (nodup Nat.eq_dec (map (fun k => fst (fst k)) g))).
(** 38-61; the plots are left out, and so is what was written before an exception *)
Definition AGGREGATED := "aggregated_success_by_algorithm.csv".
Definition collect_results_for_all_algorithms (d : results) (algs : list string) (domain output : string) : res results :=
  let* (d, dfs) := fold_res (fun (acc : results * list table) alg => let '(d, dfs) := acc in
    let* (d, df) := export_unified_statistics_to_csv d output domain alg in Ok (d, dfs ++ [df])) algs (d, []) in
  let* all := concat_tables dfs in
  let* ks := map_res keyed all in
  Ok (dict_set d AGGREGATED (pivot (group_means ks))).

(** ** Statistics of the evaluation *)
Definition collect_by_position (d : results) (pattern : list string) (target : string) : res results :=
  let* data := fold_data d pattern in
  let* unified := concat_tables (map (fun it => map (fun r => dict_set r "fold" (CNat (fst it))) (snd it)) (enumerate data)) in
  Ok (dict_set d target unified).
(** 64-77 *)
Definition collect_sematic_performance_statistics (d : results) (alg domain : string) : res results :=
  collect_by_position d [(alg ++ "_")%string; "_numeric_learning_performance_stats_fold"; ".csv"] (domain ++ "_" ++ alg ++ "_combined_semantic_performance.csv")%string.
(** 80-94 *)
Definition collect_test_set_solving_statistics (d : results) (alg domain : string) : res results :=
  collect_by_position d [(alg ++ "_problem_solving_stats_fold_")%string; ".csv"] (domain ++ "_" ++ alg ++ "_combined_test_set_solving_statistics.csv")%string.
(** 97-112 *)
Definition collect_main (d : results) (algs : list string) (domain output : string) : res results :=
  let* d := collect_results_for_all_algorithms d algs domain output in
  let* d := collect_sematic_performance_statistics d "noam_learning" domain in
  collect_test_set_solving_statistics d "noam_learning" domain.
