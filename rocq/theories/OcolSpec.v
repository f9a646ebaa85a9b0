(** * What the collected results of online learning should be *)
From Coq Require Export Sorting.Sorted Sorting.Permutation.
From Verif Require Export OcolModel EpisodeSpec.
Open Scope string_scope. Open Scope list_scope. Open Scope nat_scope.

(** ** Runs and their files *)
(** The row of an episode of [alg] that ended with [e]. *)
Definition episode_row (alg : string) (fold n : nat) (e : ending) (r : row) : Prop :=
  dict_get r "fold_number" = Some (CNat fold) /\
  dict_get r "episode_number" = Some (CNat n) /\ dict_get r "algorithm_type" = Some (CText alg) /\
  dict_get r "goal_reached" = Some (CBool (e_goal e)) /\ dict_get r "safe_model_solution_status" = Some (CText (e_safe e)) /\
  dict_get r "optimistic_model_solution_status" = Some (CText (e_optimistic e)).
(** A run: its fold and how its episodes ended. *)
Definition run_of := (nat * list ending)%type.
(** The files whose name belongs to the statistics are exactly those of the runs; [name] gives the name of the file of each fold. *)
Definition files_of {A} (d : results) (belongs : string -> Prop) (name : nat -> string) (holds : nat -> A -> table -> Prop) (runs : list (nat * A)) : Prop :=
  NoDup (dict_keys d) /\ NoDup (map fst runs) /\
  (forall x, In x (dict_keys d) -> belongs x -> exists run, In run runs /\ x = name (fst run)) /\
  (forall run, In run runs -> belongs (name (fst run)) /\ exists t, dict_get d (name (fst run)) = Some t /\ holds (fst run) (snd run) t).
Definition is_statistics (alg : string) (x : string) : Prop := exists y, x = (alg ++ "_exploration_statistics_fold_" ++ y ++ ".csv")%string.
Definition holds_run (alg : string) (fold : nat) (es : list ending) (t : table) : Prop := numbered (episode_row alg fold) 1 es t.
Definition explored (d : results) (alg : string) (runs : list run_of) : Prop := files_of d (is_statistics alg) (statistics_file alg) (holds_run alg) runs.
(** The runs in the order of the names of their files. *)
Definition in_name_order {A} (name : nat -> string) (runs order : list (nat * A)) : Prop :=
  Permutation runs order /\ StronglySorted (fun a b => String.ltb (name (fst a)) (name (fst b)) = true) order.

(** ** What is collected of an episode *)
Definition success (e : ending) : bool := e_goal e || String.eqb (e_safe e) "ok" || String.eqb (e_optimistic e) "ok".
Definition NEW_COLUMNS := ["fold"; "optimistic_not_applicable"; "safe_solved"; "optimistic_solved"; "not_solved"; "aggregated_success"; "aggregated_success_solver"].
Definition number (b : bool) : cell := CNat (if b then 1 else 0).
Definition categories (e : ending) (r' : row) : Prop :=
  let safe := String.eqb (e_safe e) "ok" in
  let optimistic := negb safe && (String.eqb (e_optimistic e) "ok" || e_goal e) in
  let inapplicable := String.eqb (e_optimistic e) "not_applicable" in
  dict_get r' "safe_solved" = Some (number safe) /\ dict_get r' "optimistic_solved" = Some (number optimistic) /\
  dict_get r' "optimistic_not_applicable" = Some (number inapplicable) /\ dict_get r' "not_solved" = Some (CBool (negb (safe || optimistic || inapplicable))) /\
  dict_get r' "aggregated_success" = Some (number (success e)) /\ dict_get r' "aggregated_success_solver" = Some (number (success e)).
(** The height of the four categories of a row on top of each other. *)
Definition flag (r : row) (column : string) : option nat :=
  match dict_get r column with Some (CNat n) => Some n | Some (CBool b) => Some (if b then 1 else 0) | _ => None end.
Definition stack (r : row) : option nat :=
  match flag r "not_solved", flag r "optimistic_not_applicable", flag r "optimistic_solved", flag r "safe_solved" with
  | Some a, Some b, Some c, Some d => Some (a + b + c + d)
  | _, _, _, _ => None
  end.
(** The row [r] of an episode that ended with [e] is collected as [r'] with the label [i]. *)
Definition collected_row (i : nat) (e : ending) (r r' : row) : Prop :=
  dict_get r' "fold" = Some (CNat i) /\ categories e r' /\ forall k, ~ In k NEW_COLUMNS -> dict_get r' k = dict_get r k.
(** The rows of a file are collected with the label [i]. *)
Fixpoint collected_rows (i : nat) (es : list ending) (t t' : table) : Prop :=
  match es, t, t' with
  | [], [], [] => True
  | e :: es, r :: t, r' :: t' => collected_row i e r r' /\ collected_rows i es t t'
  | _, _, _ => False
  end.
(** The collected table: file after file, from the label [i]. *)
Fixpoint collected_files {A} (d : results) (name : nat -> string) (rows : nat -> A -> table -> table -> Prop) (i : nat) (order : list (nat * A)) (u : table) : Prop :=
  match order with
  | [] => u = []
  | run :: order => exists t t' u', dict_get d (name (fst run)) = Some t /\ rows i (snd run) t t' /\ u = t' ++ u' /\ collected_files d name rows (i + 1) order u'
  end.
(** Only the label is added. *)
Definition labelled_rows (i : nat) (_ : unit) (t t' : table) : Prop :=
  Forall2 (fun r r' => dict_get r' "fold" = Some (CNat i) /\ forall k, k <> "fold" -> dict_get r' k = dict_get r k) t t'.
Definition any_table (_ : nat) (_ : unit) (_ : table) : Prop := True.

(** ** The table of all algorithms *)
(** The endings of the episode with this number (from 0), over the runs that have one. *)
Definition endings (i : nat) (runs : list run_of) : list ending := flat_map (fun run => match nth_error (snd run) i with Some e => [e] | None => [] end) runs.
Definition successful (es : list ending) : nat := length (filter success es).
Definition share (x : option cell) (part whole : nat) : Prop :=
  if whole =? 0 then x = None else exists q, x = Some (CNum q) /\ (q == inject_Z (Z.of_nat part) / inject_Z (Z.of_nat whole))%Q.
Definition success_table (algs : list string) (runs : string -> list run_of) (t : table) : Prop :=
  (forall n, length t <= n <-> forall alg, In alg algs -> endings n (runs alg) = []) /\
  forall i r, nth_error t i = Some r -> dict_get r "episode_number" = Some (CNat (i + 1)) /\
    (forall alg, In alg algs -> share (dict_get r alg) (successful (endings i (runs alg))) (length (endings i (runs alg)))) /\
    forall k, k <> "episode_number" -> ~ In k algs -> dict_get r k = None.

(** ** Statistics of the evaluation *)
Definition is_semantic (alg : string) (x : string) : Prop := exists y z, x = (alg ++ "_" ++ y ++ "_numeric_learning_performance_stats_fold" ++ z ++ ".csv")%string.
Definition is_solving (alg : string) (x : string) : Prop := exists y, x = (alg ++ "_problem_solving_stats_fold_" ++ y ++ ".csv")%string.
(** The names of the files (numeric_performance_calculator.py 126-130, safe_domain_validator.py 354-358) for a number of training problems per fold. *)
Definition semantic_name (alg domain : string) (n : nat -> nat) (fold : nat) : string :=
  (alg ++ "_" ++ domain ++ "_numeric_learning_performance_stats_fold_" ++ decimal fold ++ "_" ++ decimal (n fold) ++ ".csv")%string.
Definition solving_name (alg : string) (n : nat -> nat) (fold : nat) : string :=
  (alg ++ "_problem_solving_stats_fold_" ++ decimal fold ++ "_" ++ decimal (n fold) ++ "_trajectories.csv")%string.
