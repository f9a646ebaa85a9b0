(** * Preparing a distributed experiment

    Model of experiments/concurrent_execution/folder_creation_for_parallel_execution.py: class FoldsCreator and its script.  The directories
    results_directory and logs stay empty and are left out. *)
From Verif Require Export DfoldModel.
Open Scope string_scope. Open Scope list_scope. Open Scope nat_scope.

(** [Path.stem] of the names with the suffix .pddl *)
Definition problem_stem (name : string) : option string :=
  let n := String.length name - 5 in
  if String.eqb (String.substring n 5 name) ".pddl" then Some (String.substring 0 n name) else None.

Section Prep.
Variable content : Type.
Notation dir := (dir content).
Notation dworld := (dworld content).
Notation copy := (copy content).
(** 59-81: the arguments of the distributed split *)
Variables (shuffle : nat -> list nat) (fifth : nat -> nat) (domain_file_name : string) (matching : dir -> list string) (sample : list string -> nat -> list string).
Variables (n_split : nat) (learning_algorithms : list nat) (internal_iterations : option (list nat)) (triplets_experiment create_internal_iterations : bool).
(** random_walk_trajectories_creator.py: what the walks of the fold's test directory make of the output directory. *)
Variable walks : nat -> dir -> dir -> res dir.

(** The working directory with the directories in performance_evaluation_trajectories. *)
Record cworld := mk_cworld { cw_base : dworld; cw_evaluation : list (string * dir) }.

(** 83-93; the exception is that of saving the settings *)
Definition create_folds_from_cross_validation (w : cworld) (experiment_size : nat) : res (cworld * option exc) :=
  let base := remove_dfolds content (cw_base w) in
  let* (base, e) := create_distributed_k_fold shuffle fifth content domain_file_name matching sample n_split false learning_algorithms internal_iterations triplets_experiment
    base experiment_size true (negb create_internal_iterations) in
  Ok (mk_cworld base (cw_evaluation w), e).

(** 125: the problems in the directory *)
Definition prefixed_problems (prefix : string) (d : dir) : list string :=
  flat_map (fun n => match problem_stem n with Some stem => if String.prefix prefix stem then [stem] else [] | None => [] end) (dict_keys d).
(** 109-130: one fold.  If the test directory is missing, the copy of the domain becomes a file of that name, and what comes next raises. *)
Definition create_evaluation (prefix : string) (learning_algorithm : nat) (include_random : bool) (w : cworld) (fold : nat) : res cworld :=
  let output := opened content (cw_evaluation w) ("fold_" ++ decimal fold)%string in
  let name := ("fold_" ++ decimal fold ++ "_" ++ decimal learning_algorithm ++ match internal_iterations with Some _ => "_1" | None => "" end)%string in
  match dict_get (dw_test _ (cw_base w)) name with
  | None => Err KeyError
  | Some test =>
      let files := dw_files _ (cw_base w) in
      let* test := copy files domain_file_name test in
      let* output := if include_random then walks fold test output else Ok output in
      let* output := fold_res (fun d stem =>
        let* d := copy test (stem ++ ".pddl")%string d in
        let* d := copy files (stem ++ ".solution")%string d in
        copy files (stem ++ ".trajectory")%string d) (prefixed_problems prefix test) output in
      Ok (mk_cworld (mk_dworld content files (dw_train _ (cw_base w)) (dict_set (dw_test _ (cw_base w)) name (dict_pop test domain_file_name)) (dw_config _ (cw_base w)))
                    (dict_set (cw_evaluation w) ("fold_" ++ decimal fold)%string output))
  end.
(** 95-132 *)
Definition create_random_performance_evaluation_trajectories (prefix : string) (learning_algorithm : nat) (include_random : bool) (w : cworld) : res cworld :=
  fold_res (create_evaluation prefix learning_algorithm include_random) (seq 0 n_split) w.
End Prep.

(** 135-160: the script *)
Definition prepare_experiment (content : Type) shuffle fifth domain_file_name matching sample n_split learning_algorithms internal_iterations triplets_experiment walks
  (prefix : string) (include_random : bool) (experiment_size : nat) (w : cworld content) : res (cworld content * option exc) :=
  let* (w, e) := create_folds_from_cross_validation content shuffle fifth domain_file_name matching sample n_split learning_algorithms internal_iterations triplets_experiment
    (match internal_iterations with Some _ => true | None => false end) w experiment_size in
  match e, learning_algorithms with
  | Some e, _ => Ok (w, Some e)
  | None, [] => Err IndexError
  | None, a :: _ => let* w := create_random_performance_evaluation_trajectories content domain_file_name n_split internal_iterations walks prefix a include_random w in Ok (w, None)
  end.
