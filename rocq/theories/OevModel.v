(** * Evaluating a fold of online learning

    Model of [validate_online_model], [validate_test_set_solving_rates] and [main] of
    experiments/concurrent_execution/planning_with_online_learning.py (117-180, 293-318), of the choice of the calculator in
    statistics/utils.py, and of what validators/safe_domain_validator.py does around the solvers when it is given paths.  The measures and the
    solvers are functions of the texts they are given.  The texts of the files of the directories of the fold are dicts; [glob] lists them in
    the order of the dict, and lists nothing if a directory is missing, which is then empty here. *)
From Verif Require Export PilModel.
From Verif Require PerfModel ValidateModel.
From Coq Require Ascii.
Open Scope string_scope. Open Scope list_scope. Open Scope nat_scope.

Definition texts := list (string * string).
(** The policies of the safe and of the optimistic domain *)
Definition safe_policy := "no_remove".
Definition optimistic_policy := "hard".

(** statistics/utils.py 18-27, 65-91 *)
Inductive calculator := numeric_calculator | ma_calculator | semantic_calculator.
Definition NUMERIC_ALGORITHMS := ["numeric_sam"; "naive_nsam"; "naive_polysam"; "incremental_nsam"; "plan_miner"; "noam_learning"].
Definition MULTI_AGENT_ALGORITHMS := ["ma_sam"; "ma_sam_plus"].
Definition chosen_calculator (alg : string) (include_sam : bool) : calculator :=
  if memb alg NUMERIC_ALGORITHMS then numeric_calculator
  else if memb alg MULTI_AGENT_ALGORITHMS || (String.eqb alg "sam_learning" && include_sam) then ma_calculator
  else semantic_calculator.

(** [csv.DictWriter]: the rows as they are read again, up to one with another key *)
Definition written_row (columns : list string) (r : row) : row := flat_map (fun c => match dict_get r c with Some v => [(c, v)] | None => [] end) columns.
Fixpoint written (columns : list string) (rows : table) : table * option exc :=
  match rows with
  | [] => ([], None)
  | r :: rows => if forallb (fun k => memb k columns) (dict_keys r) then let '(t, e) := written columns rows in (written_row columns r :: t, e) else ([], Some ValueError)
  end.

(** ** safe_domain_validator.py with paths *)
Definition is_digit (c : Ascii.ascii) : bool := (48 <=? Ascii.nat_of_ascii c) && (Ascii.nat_of_ascii c <=? 57).
Fixpoint skip_digits (s : string) : string := match s with String c s' => if is_digit c then skip_digits s' else s | "" => "" end.
Definition skip_number (s : string) : option string := match s with String c _ => if is_digit c then Some (skip_digits s) else None | "" => None end.
Definition skip_text (p s : string) : option string := if String.prefix p s then Some (drop (String.length p) s) else None.
Definition skipping (x : option string) (f : string -> option string) : option string := match x with Some s => f s | None => None end.
(** 78: [ACTION_LINE_REGEX] at the start of a line; the digits of ASCII *)
Definition action_line (line : string) : bool :=
  match skipping (skipping (skipping (skipping (skip_text "[" line) skip_number) (skip_text ", ")) skip_number) (skip_text "]: (") with
  | Some s => any_suffix (String.prefix ")") s
  | None => false
  end.
Fixpoint lines (s : string) : list string :=
  match s with
  | "" => [""]
  | String c s' => if Ascii.eqb c (Ascii.ascii_of_nat 10) then "" :: lines s' else match lines s' with l :: ls => String c l :: ls | [] => [String c ""] end
  end.
Definition read_text (d : texts) (name : string) : res string := match dict_get d name with Some t => Ok t | None => Err KeyError end.
(** 186-206: the first path is the only one that is read *)
Definition extract_num_triplets (d : texts) (paths : list string) : res nat :=
  match paths with
  | [] => Ok 0
  | p :: _ => let* t := read_text d p in Ok (length (filter action_line (lines t)))
  end.
(** 114-120 *)
Definition clear_plans (test : texts) : texts := filter (fun f => negb (glob_match [""; ".solution"] (fst f))) test.

Section Evaluation.
(** [init_semantic_performance_calculator] on the trajectories of the fold, [calculate_performance] of the calculator for the text of a
    domain, the statistics of the validator on the test set (safe_domain_validator.py 281-332) *)
Variables (data : Type) (init_calculator : texts -> res data).
Variable measure : calculator -> string -> data -> string -> nat -> string -> res table.
Variable validate : string -> texts -> res row.
(** The name of the domain in the train directory, and in the working directory; the prefix of the problems *)
Variables (partial_name title prefix : string).

(** online_utilities.py 68-82 *)
Definition safe_file := (partial_name ++ "_safe_learned_domain.pddl")%string.
Definition optimistic_file := (partial_name ++ "_optimistic_learned_domain.pddl")%string.
(** 126, 166 *)
Definition num_training_episodes (train : texts) : nat := length (filter (glob_match [prefix; ".pddl"]) (dict_keys train)).
(** 134, 148 *)
Definition used_trajectories (train : texts) : list string := filter (glob_match [prefix; ".trajectory"]) (dict_keys train).

(** statistics/semantic_performance_calculator.py 311-326, numeric_performance_calculator.py 120-135; the calculator for several agents is
    not chosen by the script of online learning, its file is left out *)
Definition performance_columns (c : calculator) : list string := match c with numeric_calculator => PerfModel.NUMERIC_PERFORMANCE_STATS | _ => PerfModel.SEMANTIC_PRECISION_STATS end.
Definition performance_file (c : calculator) (alg : string) (fold n : nat) : string :=
  match c with
  | numeric_calculator => (alg ++ "_" ++ title ++ "_numeric_learning_performance_stats_fold_" ++ decimal fold ++ "_" ++ decimal n ++ ".csv")%string
  | _ => (alg ++ "_" ++ title ++ "_" ++ decimal fold ++ "_" ++ decimal n ++ "_semantic_performance.csv")%string
  end.
(** safe_domain_validator.py 354-358 *)
Definition rates_file (alg : string) (fold n : nat) : string := (alg ++ "_problem_solving_stats_fold_" ++ decimal fold ++ "_" ++ decimal n ++ "_trajectories.csv")%string.

(** 158-180 *)
Definition validate_online_model (alg : string) (fold : nat) (train evaluation : texts) (out : results) : results * option exc :=
  let c := chosen_calculator alg false in
  match init_calculator evaluation with
  | Err e => (out, Some e)
  | Ok data =>
      let n := num_training_episodes train in
      match dict_get train safe_file, dict_get train optimistic_file with
      | Some safe, Some optimistic =>
          match (let* rows := measure c alg data safe n safe_policy in let* rows' := measure c alg data optimistic n optimistic_policy in Ok (rows ++ rows')) with
          | Err e => (out, Some e)
          | Ok rows => let '(t, e) := written (performance_columns c) rows in (dict_set out (performance_file c alg fold n) t, e)
          end
      | _, _ => (out, None)
      end
  end.

(** safe_domain_validator.py 280, 332-346 *)
Definition validate_domain (alg policy domain : string) (train test : texts) : res (row * texts) :=
  let* triplets := extract_num_triplets train (used_trajectories train) in
  let* stats := validate domain test in
  Ok (fold_left (fun r kv => dict_set r (fst kv) (snd kv)) stats
        [("learning_algorithm", CText alg); ("num_trajectories", CNat (length (used_trajectories train))); ("policy", CText policy);
         ("num_trajectory_triplets", CNat triplets); ("learning_time", CNat 0); ("solver", CText "['metric_ff', 'enhsp']")], clear_plans test).
(** 117-156 *)
Definition validate_test_set_solving_rates (alg : string) (fold : nat) (train test : texts) (out : results) : texts * results * option exc :=
  let n := num_training_episodes train in
  match dict_get train safe_file, dict_get train optimistic_file with
  | Some safe, Some optimistic =>
      match validate_domain alg safe_policy safe train test with
      | Err e => (test, out, Some e)
      | Ok (r, test) =>
          let test := clear_plans test in
          match validate_domain alg optimistic_policy optimistic train test with
          | Err e => (test, out, Some e)
          | Ok (r', test) => let '(t, e) := written ValidateModel.SOLVING_STATISTICS [r; r'] in (test, dict_set out (rates_file alg fold n) t, e)
          end
      end
  | _, _ => (test, out, None)
  end.

(** 83-115, 309-317: the train directory, the test directory, the results *)
Definition evaluate (alg : string) (fold : nat) (safe optimistic : string) (train test evaluation : texts) (out : results) : texts * texts * results * option exc :=
  let train := dict_set (dict_set train safe_file safe) optimistic_file optimistic in
  match validate_online_model alg fold train evaluation out with
  | (out, Some e) => (train, test, out, Some e)
  | (out, None) => let '(test, out, e) := validate_test_set_solving_rates alg fold train test out in (train, test, out, e)
  end.
End Evaluation.

(** ** The script, with the learning of PilModel.v *)
Section Script.
Variable le : text -> text -> bool.
Variables unit fine : positive.
Variable fit : list (list Q) -> list Q -> list Q * Q * bool.
Variable hull : list (list Q) -> option (list (list Q) * list Q).
Variable schmidt : list (list Q) -> list (list Q) -> list (list Q).
Variable rank : list (list Q) -> nat.
Variable svm : list (list Q * bool) -> list Q * Q.
Variable limit : nat.
Variable flatten : bool.
Variable dom : domain.
Variable rd : random.
Variables starvation min_episodes min_executions max_steps max_failed max_file : nat.
Variable solvers : list solver.
Variables (data : Type) (init_calculator : texts -> res data).
Variable measure : calculator -> string -> data -> string -> nat -> string -> res table.
Variable validate : string -> texts -> res row.
Variables (partial_name title prefix : string).
(** [to_pddl] of a learned domain *)
Variable to_pddl : list (string * exported) -> string.
(** A fold: its number, the problems in its train directory, the files there after the learning, and its other directories *)
Record fold_input := mk_fold { fi_fold : nat; fi_problems : problem_dir; fi_train : texts; fi_test : texts; fi_evaluation : texts }.
(** 293-317 *)
Definition pil_script (a : online_algorithm) (degree : nat) (f : fold_input) (out : results) : results * option exc :=
  match learn_model_online le unit fine fit hull schmidt rank svm limit flatten dom rd starvation min_episodes min_executions max_steps max_failed max_file solvers a prefix (fi_fold f) degree (fi_problems f) out with
  | Err e => (out, Some e)
  | Ok (L, out, _) =>
      if is_evaluated a then
        match construct_domains unit fine fit rank svm limit flatten dom L with
        | Err e => (out, Some e)
        | Ok (safe, optimistic) =>
            let '(_, _, out, e) := evaluate data init_calculator measure validate partial_name title prefix (algorithm_name a) (fi_fold f) (to_pddl safe) (to_pddl optimistic) (fi_train f) (fi_test f) (fi_evaluation f) out in (out, e)
        end
      else (out, None)
  end.
(** The scripts of several folds, one after the other; all of them end without an error *)
Fixpoint pil_scripts (a : online_algorithm) (degree : nat) (fs : list fold_input) (out : results) : option results :=
  match fs with
  | [] => Some out
  | f :: fs => match pil_script a degree f out with (out, None) => pil_scripts a degree fs out | (_, Some _) => None end
  end.
End Script.
