(** * What the evaluation of a fold of online learning should do

    Both learned domains are measured and tried on the test set, and two files of results tell about it. *)
From Verif Require Export OevModel OcolSpec PilSpec.
Open Scope string_scope. Open Scope list_scope. Open Scope nat_scope.

(** All entries but those with these names stay. *)
Definition others_kept {A} (l l' : list (string * A)) (names : list string) : Prop := forall x, ~ In x names -> dict_get l' x = dict_get l x.
(** A row as it is in a file with these columns *)
Definition as_written (columns : list string) (r r' : row) : Prop :=
  (forall k, In k columns -> dict_get r' k = dict_get r k) /\ forall k, ~ In k columns -> dict_get r' k = None.
Definition fits (columns : list string) (r : row) : Prop := incl (dict_keys r) columns.
(** [n] of these names have the property. *)
Definition count_of (P : string -> Prop) (names : list string) (n : nat) : Prop :=
  exists l, NoDup l /\ length l = n /\ forall x, In x l <-> In x names /\ P x.
Definition is_trajectory (prefix x : string) : Prop := exists y, x = (prefix ++ y ++ ".trajectory")%string.
Definition is_plan (x : string) : Prop := exists y, x = (y ++ ".solution")%string.
(** The plans are gone, the rest is there. *)
Definition cleared (test test' : texts) : Prop := (forall x, is_plan x -> dict_get test' x = None) /\ forall x, ~ is_plan x -> dict_get test' x = dict_get test x.

(** ** Lines with actions *)
Definition newline : string := String (Ascii.ascii_of_nat 10) "".
Fixpoint has (c : Ascii.ascii) (s : string) : Prop := match s with String d s => c = d \/ has c s | "" => False end.
Fixpoint all_digits (s : string) : Prop := match s with String c s => (exists i, i < 10 /\ c = Ascii.ascii_of_nat (48 + i)) /\ all_digits s | "" => True end.
Definition some_digits (s : string) : Prop := s <> "" /\ all_digits s.
(** "[1, 2]: (move a b)" *)
Definition action_text (line : string) : Prop :=
  exists i j a b, some_digits i /\ some_digits j /\ line = ("[" ++ i ++ ", " ++ j ++ "]: (" ++ a ++ ")" ++ b)%string.
Definition lines_of (text : string) (ls : list string) : Prop := text = String.concat newline ls /\ ls <> [] /\ Forall (fun l => ~ has (Ascii.ascii_of_nat 10) l) ls.
Fixpoint count_lines (P : string -> Prop) (ls : list string) (n : nat) : Prop :=
  match ls with
  | [] => n = 0
  | l :: ls => (P l /\ exists m, n = S m /\ count_lines P ls m) \/ (~ P l /\ count_lines P ls n)
  end.
(** What the report calls the number of triplets: the lines with actions in one of the trajectories *)
Definition reported_triplets (prefix : string) (train : texts) (n : nat) : Prop :=
  ((forall x, In x (dict_keys train) -> ~ is_trajectory prefix x) /\ n = 0) \/
  exists x text ls, is_trajectory prefix x /\ dict_get train x = Some text /\ lines_of text ls /\ count_lines action_text ls n.
(** The lines with actions in each of the trajectories *)
Definition all_triplets (prefix : string) (train : texts) (counts : list (string * nat)) : Prop :=
  NoDup (map fst counts) /\ (forall x, In x (map fst counts) <-> In x (dict_keys train) /\ is_trajectory prefix x) /\
  forall x n, In (x, n) counts -> exists text ls, dict_get train x = Some text /\ lines_of text ls /\ count_lines action_text ls n.
(** Trajectories as the project writes them: every line that is not empty begins with a parenthesis. *)
Definition project_format (text : string) : Prop := exists ls, lines_of text ls /\ Forall (fun l => l = "" \/ exists y, l = ("(" ++ y)%string \/ l = (")" ++ y)%string) ls.

(** ** The evaluation *)
Definition header_of (alg policy : string) (trajectories triplets : nat) : row :=
  [("learning_algorithm", CText alg); ("num_trajectories", CNat trajectories); ("policy", CText policy); ("num_trajectory_triplets", CNat triplets);
   ("learning_time", CNat 0); ("solver", CText "['metric_ff', 'enhsp']")].
(** The statistics of the solvers with the header before them *)
Definition rates_row (alg policy : string) (trajectories triplets : nat) (stats r : row) : Prop :=
  (forall k v, In (k, v) (header_of alg policy trajectories triplets) -> dict_get r k = Some v) /\
  forall k, ~ In k (dict_keys (header_of alg policy trajectories triplets)) -> dict_get r k = dict_get stats k.
(** The solvers report no column of the header, and only columns of the file. *)
Definition solver_stats (stats : row) : Prop :=
  NoDup (dict_keys stats) /\ forall k, In k (dict_keys stats) -> In k ValidateModel.SOLVING_STATISTICS /\ ~ In k ["learning_algorithm"; "num_trajectories"; "policy"; "num_trajectory_triplets"; "learning_time"; "solver"].

(** The calculator of each algorithm that is evaluated, with its columns and its file *)
Definition numeric_measures (alg : string) : bool := String.eqb alg "noam_learning".
Definition calculator_of (alg : string) : calculator := if numeric_measures alg then numeric_calculator else semantic_calculator.
Definition measured_columns (alg : string) : list string :=
  if numeric_measures alg then ["learning_algorithm"; "policy"; "action_name"; "epsilon_precision"; "num_trajectories"; "precondition_precision"; "precondition_recall"; "effects_precision"; "effects_recall"; "effects_mse"]
  else ["action_name"; "policy"; "learning_algorithm"; "num_trajectories"; "precondition_precision"; "precondition_recall"; "effects_precision"; "effects_recall"].
Definition measures_name (alg title : string) (fold n : nat) : string :=
  if numeric_measures alg then semantic_name alg title (fun _ => n) fold else (alg ++ "_" ++ title ++ "_" ++ decimal fold ++ "_" ++ decimal n ++ "_semantic_performance.csv")%string.
Definition rates_name (alg : string) (fold n : nat) : string := solving_name alg (fun _ => n) fold.
Definition learned_name (partial_name kind : string) : string := (partial_name ++ "_" ++ kind ++ "_learned_domain.pddl")%string.

Section Spec.
Variables (data : Type) (init_calculator : texts -> res data).
Variable measure : calculator -> string -> data -> string -> nat -> string -> res table.
Variable validate : string -> texts -> res row.
Variables (partial_name title prefix : string).

(** The train directory with both domains *)
Definition both_domains (safe optimistic : string) (train train' : texts) : Prop :=
  dict_get train' (learned_name partial_name "safe") = Some safe /\ dict_get train' (learned_name partial_name "optimistic") = Some optimistic /\
  others_kept train train' [learned_name partial_name "safe"; learned_name partial_name "optimistic"].
(** The tools answer: the measures of both domains on the trajectories of the fold, and the statistics of the solvers on the test set, for the
    second domain without plans of the first. *)
Definition tools_answer (alg : string) (n : nat) (safe optimistic : string) (test evaluation : texts) (rows rows' : table) (stats stats' : row) : Prop :=
  (exists x, init_calculator evaluation = Ok x /\ measure (calculator_of alg) alg x safe n "no_remove" = Ok rows /\ measure (calculator_of alg) alg x optimistic n "hard" = Ok rows') /\
  validate safe test = Ok stats /\ (forall test', cleared test test' -> validate optimistic test' = Ok stats') /\
  Forall (fits (measured_columns alg)) (rows ++ rows') /\ solver_stats stats /\ solver_stats stats'.
(** What the evaluation leaves *)
Definition evaluation_done (alg : string) (fold n m : nat) (train test : texts) (rows rows' : table) (stats stats' : row) (out : results) (test' : texts) (out' : results) : Prop :=
  cleared test test' /\
  (exists t, dict_get out' (measures_name alg title fold n) = Some t /\ Forall2 (as_written (measured_columns alg)) (rows ++ rows') t) /\
  (exists r r' triplets, dict_get out' (rates_name alg fold n) = Some [r; r'] /\ reported_triplets prefix train triplets /\
     rates_row alg "no_remove" m triplets stats r /\ rates_row alg "hard" m triplets stats' r') /\
  others_kept out out' [measures_name alg title fold n; rates_name alg fold n].
(** Every tool has given an answer for each of both domains, and the files have been written. *)
Definition evaluated_fold (alg : string) (fold n : nat) (safe optimistic : string) (test evaluation : texts) (out' : results) : Prop :=
  exists x rows rows' stats stats' test1, init_calculator evaluation = Ok x /\ measure (calculator_of alg) alg x safe n "no_remove" = Ok rows /\ measure (calculator_of alg) alg x optimistic n "hard" = Ok rows' /\
    validate safe test = Ok stats /\ cleared test test1 /\ validate optimistic test1 = Ok stats' /\
    (exists t, dict_get out' (measures_name alg title fold n) = Some t /\ Forall2 (as_written (measured_columns alg)) (rows ++ rows') t) /\ exists r r', dict_get out' (rates_name alg fold n) = Some [r; r'].
End Spec.
(** The learned domains are not taken for problems. *)
Definition apart (prefix partial_name : string) : Prop := forall kind, In kind ["safe"; "optimistic"] -> ~ is_problem prefix (learned_name partial_name kind).

(** ** Several folds *)
(** A domain whose name does not look like one of the other kinds of results *)
Definition harmless_title (title : string) : Prop :=
  forall x y, (title ++ "_numeric" ++ x)%string <> ("exploration_statistics_fold_" ++ y)%string /\ (title ++ "_numeric" ++ x)%string <> ("problem_solving_stats_fold_" ++ y)%string.
(** A domain whose name does not contain the name of another kind of results *)
Definition plain_title (title : string) : Prop := forall x y, title <> (x ++ "_numeric_learning_performance_stats_fold" ++ y)%string.
(** A row for the safe and one for the optimistic domain *)
Definition two_rows (_ : nat) (_ : Datatypes.unit) (t : table) : Prop := exists r r', t = [r; r'].
Definition fold_ready (prefix : string) (n : nat -> nat) (f : fold_input) : Prop :=
  NoDup (dict_keys (fi_problems f)) /\ action_sets_in (fi_problems f) /\ NoDup (dict_keys (fi_train f)) /\ count_of (is_problem prefix) (dict_keys (fi_train f)) (n (fi_fold f)).
Definition run_of_fold (prefix : string) (f : fold_input) (run : run_of) : Prop :=
  fst run = fi_fold f /\ exists names, problem_files (fi_problems f) prefix names /\ length (snd run) = length names.
Definition folds_of (fs : list fold_input) : list (nat * Datatypes.unit) := map (fun f => (fi_fold f, tt)) fs.
