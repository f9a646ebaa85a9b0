(** * Learning statistics and csv files

    Model of statistics/learning_statistics_manager.py.  A csv file is its header and its lines of cells: the csv format itself
    (quoting, line ends) is trusted.  Numbers are exact. *)
From Verif Require Export StatsModel TextModel.
Open Scope string_scope. Open Scope list_scope. Open Scope nat_scope.

(** What a cell is computed from. *)
Inductive value := SText (s : string) | SNat (n : nat) | SNum (q : Q) | SList (l : list string).

Record csv := mk_csv { csv_header : list string; csv_lines : list (list string) }.
(** The results directory. *)
Definition directory := list (string * csv).

Section Csv.
(** [str] of a value, as [csv.writer] calls it *)
Variables (V : Type) (show : V -> string).
Definition cell_text (c : option V) : string := match c with Some v => show v | None => "" end.
(** [DictWriter.writerow] for each row; the lines before a failing one are in the file. *)
Fixpoint write_lines (fields : list string) (rows : list (list (string * V))) : list (list string) * option exc :=
  match rows with
  | [] => ([], None)
  | r :: rows => match write_row fields r with
                 | Err e => ([], Some e)
                 | Ok cells => let '(ls, e) := write_lines fields rows in (map cell_text cells :: ls, e)
                 end
  end.
(** [open(path, "wt")], [writeheader] and the rows *)
Definition write_csv (fields : list string) (rows : list (list (string * V))) (name : string) (d : directory) : directory * option exc :=
  let '(ls, e) := write_lines fields rows in (dict_set d name (mk_csv fields ls), e).
End Csv.

(** learning_statistics_manager.py 15-47 *)
Definition LEARNED_ACTIONS_STATS_COLUMNS := ["learning_algorithm"; "policy"; "domain_name"; "num_trajectories"; "learning_time";
  "num_trajectory_triplets"; "total_number_of_actions"; "learned_action_name"; "num_triplets_action_appeared"; "num_pb_literals";
  "num_pb_functions"; "learned_discrete_preconditions"; "num_learned_positive_preconditions"; "num_learned_negative_preconditions";
  "num_learned_add_effects"; "num_learned_delete_effects"; "num_ground_truth_positive_preconditions";
  "num_ground_truth_negative_preconditions"; "num_ground_truth_add_effects"; "num_ground_truth_delete_effects";
  "learned_discrete_effects"; "num_discrete_effects"; "ground_truth_preconditions"; "ground_truth_effects"; "preconditions_precision";
  "effects_precision"; "preconditions_recall"; "effects_recall"; "action_precision"; "action_recall"; "f1_score"].

(** A literal: [untyped_representation] and [is_positive]. *)
Record lit := mk_lit { l_repr : string; l_positive : bool }.
(** An action: its name, the predicates met when iterating over its preconditions, its discrete effects. *)
Record action := mk_action { a_name : string; a_pre : list lit; a_eff : list lit }.
Definition domain_actions := list (string * action).
(** What is compared (discrete_precision_recall_calculator.py 90-106). *)
Definition compared (a : action) : action_data := mk_data (a_name a) (map l_repr (a_pre a)) (map l_repr (a_eff a)).

(** A component of an observation: one action call, or those of a joint action. *)
Inductive component := Single (action_name : string) | Joint (action_names : list string).
Definition observation := list component.

Definition row := list (string * value).

(** [{**d, **e}] *)
Definition dict_spread (d e : row) : row := fold_left (fun d kv => dict_set d (fst kv) (snd kv)) e d.

(** 76-91 *)
Definition update_action_appearances (used : list observation) : counter :=
  fold_left (fun c o => fold_left (fun c comp => match comp with
                                                 | Joint names => fold_left (fun c n => bump c n 1) names c
                                                 | Single n => bump c n 1
                                                 end) o c) used [].

Definition positives (l : list lit) : nat := length (filter l_positive l).
Definition negatives (l : list lit) : nat := length (filter (fun p => negb (l_positive p)) l).

Section Manager.
(** [float] of a string; the sizes of the lifted vocabularies of an action of the reference domain (VocabularyCreator). *)
Variables (to_float : string -> res Q) (pb_literals pb_functions : action -> nat).
(** __init__ 65-74: the name of the algorithm, the reference domain *)
Variables (algorithm domain_name : string) (model : domain_actions).

(** 106-150 *)
Definition add_default_statistic_fields (action_name : string) (report : option (list (string * string))) (policy : string) (used : list observation) : res row :=
  let* r := match report with Some r => Ok r | None => Err TypeError end in
  let* t := match dict_get r "learning_time" with Some t => to_float t | None => Err KeyError end in
  let appearances := update_action_appearances used in
  let num_triplets := list_sum (map (@length component) used) in
  let* a := match dict_get model action_name with Some a => Ok a | None => Err KeyError end in
  Ok [("learning_algorithm", SText algorithm); ("policy", SText policy); ("domain_name", SText domain_name);
      ("num_trajectories", SNat (length used)); ("learning_time", SNum t); ("num_trajectory_triplets", SNat num_triplets);
      ("total_number_of_actions", SNat (length model)); ("learned_action_name", SText action_name);
      ("num_triplets_action_appeared", SNat (count_of appearances action_name));
      ("num_pb_literals", SNat (pb_literals a)); ("num_pb_functions", SNat (pb_functions a));
      ("num_ground_truth_positive_preconditions", SNat (positives (a_pre a)));
      ("num_ground_truth_negative_preconditions", SNat (negatives (a_pre a)));
      ("num_ground_truth_add_effects", SNat (positives (a_eff a))); ("num_ground_truth_delete_effects", SNat (negatives (a_eff a)));
      ("ground_truth_preconditions", SList (map l_repr (a_pre a))); ("ground_truth_effects", SList (map l_repr (a_eff a)))].

(** 168-184: the fields of an action that was not learned *)
Definition not_learned_fields : row :=
  [("learned_discrete_preconditions", SList []); ("learned_discrete_effects", SList []);
   ("num_learned_positive_preconditions", SNat 0); ("num_learned_negative_preconditions", SNat 0);
   ("num_learned_add_effects", SNat 0); ("num_learned_delete_effects", SNat 0);
   ("preconditions_precision", SNum 0); ("effects_precision", SNum 1); ("preconditions_recall", SNum 1); ("effects_recall", SNum 0);
   ("action_precision", SNum 0); ("action_recall", SNum 1); ("f1_score", SNum 0)].

(** 167-202: one action of the reference domain; the calculator keeps the actions compared so far *)
Definition action_row (learned : domain_actions) (report : option (list (string * string))) (policy : string) (used : list observation)
  (c : calculator) (name : string) (model_action : action) : res (calculator * row) :=
  match dict_get learned name with
  | None =>
      let* defaults := add_default_statistic_fields name report policy used in
      Ok (c, dict_spread defaults not_learned_fields)
  | Some l =>
      let c := add_action_data c (compared l) (compared model_action) in
      let* defaults := add_default_statistic_fields name report policy used in
      let* scores := export_action_syntactic_statistics c name in
      Ok (c, dict_spread (dict_spread defaults
        [("learned_discrete_preconditions", SList (map l_repr (a_pre l))); ("learned_discrete_effects", SList (map l_repr (a_eff l)));
         ("num_learned_positive_preconditions", SNat (positives (a_pre l))); ("num_learned_negative_preconditions", SNat (negatives (a_pre l)));
         ("num_learned_add_effects", SNat (positives (a_eff l))); ("num_learned_delete_effects", SNat (negatives (a_eff l)))])
        (map (fun kv => (fst kv, SNum (snd kv))) scores))
  end.

(** The four lists of the manager (69-72); no function ever adds to the numeric ones. *)
Record manager := mk_manager { m_action : list row; m_numeric : list row; m_merged_numeric : list row; m_merged_action : list row }.
Definition new_manager : manager := mk_manager [] [] [] [].

(** 152-202; on an exception the rows already added stay *)
Definition add_to_action_stats (used : list observation) (learned : domain_actions) (report : option (list (string * string))) (policy : string)
  (m : manager) : manager * option exc :=
  let '(_, rows, e) :=
    fold_left (fun acc (na : string * action) =>
                 let '(c, rows, e) := acc in
                 match e with
                 | Some _ => acc
                 | None => match action_row learned report policy used c (fst na) (snd na) with
                           | Ok (c, r) => (c, rows ++ [r], None)
                           | Err x => (c, rows, Some x)
                           end
                 end) model (new_calculator, [], None) in
  (mk_manager (m_action m ++ rows) (m_numeric m) (m_merged_numeric m) (m_merged_action m), e).

(** 249-254 *)
Definition clear_statistics (m : manager) : manager :=
  mk_manager [] [] (m_merged_numeric m ++ m_numeric m) (m_merged_action m ++ m_action m).

Variable show : value -> string.
(** 220-224: the name of the exported file *)
Definition action_stats_file (fold_number : nat) (iteration_num : option nat) : string :=
  (algorithm ++ "_" ++ domain_name ++ "_action_stats_fold_" ++ decimal fold_number ++
   match iteration_num with Some n => "_" ++ decimal n | None => "" end ++ ".csv")%string.
(** 204-239 *)
Definition export_action_learning_statistics (fold_number : nat) (iteration_num : option nat) (m : manager) (d : directory) : directory * option exc :=
  write_csv value show LEARNED_ACTIONS_STATS_COLUMNS (m_action m) (action_stats_file fold_number iteration_num) d.
(** 241-247 *)
Definition export_all_folds_action_stats (m : manager) (d : directory) : directory * option exc :=
  write_csv value show LEARNED_ACTIONS_STATS_COLUMNS (m_merged_action m) "all_folds_action_learning_stats.csv" d.
(** 256-262 *)
Definition write_complete_joint_statistics (m : manager) (d : directory) : directory * option exc :=
  write_csv value show LEARNED_ACTIONS_STATS_COLUMNS (m_merged_numeric m) (algorithm ++ "_all_folds_numeric_learning_stats.csv")%string d.

(** What a caller does with a manager. *)
Inductive operation :=
| AddStats (used : list observation) (learned : domain_actions) (report : option (list (string * string))) (policy : string)
| Clear | Export (fold_number : nat) (iteration_num : option nat) | ExportAll | WriteJoint.
Definition run_operation (s : manager * directory) (o : operation) : (manager * directory) * option exc :=
  let '(m, d) := s in
  match o with
  | AddStats used learned report policy => let '(m, e) := add_to_action_stats used learned report policy m in ((m, d), e)
  | Clear => ((clear_statistics m, d), None)
  | Export f i => let '(d, e) := export_action_learning_statistics f i m d in ((m, d), e)
  | ExportAll => let '(d, e) := export_all_folds_action_stats m d in ((m, d), e)
  | WriteJoint => let '(d, e) := write_complete_joint_statistics m d in ((m, d), e)
  end.
Definition run_operations (s : manager * directory) (os : list operation) : (manager * directory) * option exc :=
  fold_left (fun acc o => match snd acc with Some _ => acc | None => run_operation (fst acc) o end) os (s, None).
End Manager.
