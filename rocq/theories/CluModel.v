(** * Submitting experiments to a cluster

    Model of experiments/cluster_scripts/common.py, numeric_experiments_sbatch_runner.py, multi_agent_experiments_sbatch_runner.py and
    online_experiment_sbatch_runner.py, and of the command lines of folder_creation_for_parallel_execution.py and
    parallel_numeric_experiment_runner.py.  A job is its script and its command line: the rest of the template (memory, environment, logs), printing,
    sleeping, the interrupt handler and the temporary file are left out.  Arguments contain no spaces.  [sbatch] and [squeue] are variables. *)
From Coq Require Import Ascii DecimalString.
From Verif Require Export TextModel.
From Verif Require Export Prelude.
Open Scope string_scope. Open Scope list_scope. Open Scope nat_scope.

(** ["--name value"], ["--name"] or the empty text *)
Inductive argument := Arg (name value : string) | Flag (name : string) | Nothing.
(** An experiment of the configuration file: [compared_versions], [parallelization_data] (the hop, [experiment_size], [max_index]) and the other keys *)
Record experiment := mk_experiment { ex_versions : list nat; ex_hop : nat; ex_size : option nat; ex_max_index : option nat; ex_options : list (string * string) }.

(** [range(start, stop, step)]: at most [stop] elements *)
Fixpoint range_from (fuel start stop step : nat) : list nat :=
  match fuel with 0 => [] | S fuel => if start <? stop then start :: range_from fuel (start + step) stop step else [] end.
Definition range (start stop step : nat) : res (list nat) := if step =? 0 then Err ValueError else Ok (range_from stop start stop step).

Definition FIRST_BREAKPOINT := 10.
(** common.py 121-130; [int(size * 0.8)] is exact for the sizes of experiments *)
Definition create_internal_iterations_list (e : experiment) : res (list nat) :=
  let* max_train_size :=
    match ex_size e with
    | Some size => Ok (size * 4 / 5 + 1)
    | None => match ex_max_index e with Some n => Ok (n + 1) | None => Err KeyError end
    end in
  if ex_hop e =? 100 then
    let* tens := range 10 100 10 in
    let* hundreds := range 100 max_train_size 100 in
    Ok ([1] ++ tens ++ hundreds)
  else
    let* first := range 1 FIRST_BREAKPOINT 1 in
    let* others := range FIRST_BREAKPOINT max_train_size (ex_hop e) in
    Ok (first ++ others).

Definition option_of (e : experiment) (key : string) : res string := match dict_get (ex_options e) key with Some v => Ok v | None => Err KeyError end.
Definition commas (l : list nat) : string := String.concat "," (map decimal l).
(** 80-92: the arguments of the job that creates the folds *)
Definition fold_arguments (e : experiment) (internal_iterations : option (list nat)) (random internal : bool) : res (list argument) :=
  let* working_directory := option_of e "working_directory_path" in
  let* domain := option_of e "domain_file_name" in
  let* iterations := if internal then match internal_iterations with Some l => Ok (Arg "internal_iterations" (commas l)) | None => Err TypeError end
                     else Ok (Flag "ignore_internal_iterations") in
  let* prefix := option_of e "problems_prefix" in
  Ok [Arg "working_directory_path" working_directory; Arg "domain_file_name" domain; Arg "learning_algorithms" (commas (ex_versions e)); iterations;
      Arg "problem_prefix" prefix; Arg "experiment_size" (decimal (match ex_size e with Some n => n | None => 100 end));
      if random then Nothing else Flag "no_random_trajectories"].
(** 110-118 *)
Definition create_execution_arguments (e : experiment) (fold version : nat) : list argument :=
  [Arg "fold_number" (decimal fold); Arg "learning_algorithm" (decimal version)] ++ map (fun kv => Arg (fst kv) (snd kv)) (ex_options e).

Record job := mk_job { j_script : string; j_arguments : list argument; j_dependency : option nat }.
Section Cluster.
(** The [i]-th call of [sbatch]: the number of the job, or an error; whether [squeue] shows a job after the [i]-th call *)
Variables (sbatch : nat -> job -> option nat) (shown : nat -> nat -> bool).
(** The jobs given to [sbatch] so far *)
Definition log := list job.

(** 35-41, 192-241 [submit_job]: a second attempt without the dependency; a second error is not caught. *)
Definition submit_job (l : log) (j : job) : res (log * nat) :=
  match sbatch (length l) j with
  | Some sid => Ok (l ++ [j], sid)
  | None => let j' := mk_job (j_script j) (j_arguments j) None in
            let l := l ++ [j] in
            match sbatch (length l) j' with Some sid => Ok (l ++ [j'], sid) | None => Err RuntimeError end
  end.
(** 57-67, 244-270; no caller gives a dependency. *)
Definition submit_job_and_validate_execution (l : log) (script : string) (arguments : list argument) : res (log * option nat) :=
  let* (l, sid) := submit_job l (mk_job script arguments None) in
  Ok (l, if shown (length l) sid then Some sid else None).
(** [while sid is None] with a bound on the number of turns: [StopIteration] stands for going on. *)
Fixpoint until_running (turns : nat) (l : log) (script : string) (arguments : list argument) : res log :=
  match turns with
  | 0 => Err StopIteration
  | S turns => let* (l, sid) := submit_job_and_validate_execution l script arguments in
               match sid with Some _ => Ok l | None => until_running turns l script arguments end
  end.
Variable turns : nat.

(** 133-189: the folds of all experiments.  The waiting changes nothing. *)
Definition create_experiment_folders (code : string) (random internal : bool) (acc : log * list (option (list nat))) (e : experiment) : res (log * list (option (list nat))) :=
  let '(l, iterations) := acc in
  let* its := if internal then let* x := create_internal_iterations_list e in Ok (Some x) else Ok None in
  let* arguments := fold_arguments e its random internal in
  let* (l, _) := submit_job l (mk_job (code ++ "/folder_creation_for_parallel_execution.py") arguments None) in
  Ok (l, iterations ++ [its]).
Definition create_all_experiments_folders (code : string) (experiments : list experiment) (random internal : bool) (l : log) : res (log * list (option (list nat))) :=
  fold_res (create_experiment_folders code random internal) experiments (l, []).

(** The names of the algorithms: an algorithm that is not in the map is a KeyError. *)
Definition numeric_map := [3; 15; 5].
Definition multi_agent_map := [1; 7; 25].
Definition online_map := [14; 17; 18; 20; 21; 22].

(** numeric_experiments_sbatch_runner.py 27-57 *)
Definition numeric_version (script : string) (e : experiment) (iterations : list nat) (fold : nat) (l : log) (version : nat) : res log :=
  let arguments := create_execution_arguments e fold version in
  fold_res (fun l n => if memb version numeric_map then until_running turns l script (arguments ++ [Arg "iteration_number" (decimal n)]) else Err KeyError) iterations l.
Definition numeric_experiment (script : string) (num_folds : nat) (l : log) (ei : experiment * option (list nat)) : res log :=
  match snd ei with
  | None => Err TypeError
  | Some iterations => fold_res (fun l fold => fold_res (numeric_version script (fst ei) iterations fold) (ex_versions (fst ei)) l) (seq 0 num_folds) l
  end.
Definition numeric_main (code script : string) (num_folds : nat) (experiments : list experiment) : res log :=
  let* (l, iterations) := create_all_experiments_folders code experiments true true [] in
  fold_res (numeric_experiment (code ++ "/" ++ script) num_folds) (combine experiments iterations) l.

(** multi_agent_experiments_sbatch_runner.py 33-82: the job for the triplets is submitted once more for each version, and not waited for. *)
Definition multi_agent_version (code script : string) (e : experiment) (iterations : list nat) (fold : nat) (l : log) (version : nat) : res log :=
  let arguments := create_execution_arguments e fold version in
  let* l := fold_res (fun l n => let* l := until_running turns l script (arguments ++ [Arg "iteration_number" (decimal n)]) in
                                 if memb version multi_agent_map then Ok l else Err KeyError) iterations l in
  let* (l, _) := submit_job_and_validate_execution l (code ++ "/parallel_multi_agent_experiment_runner_with_triplets.py") arguments in
  if memb version multi_agent_map then Ok l else Err KeyError.
Definition multi_agent_experiment (code script : string) (num_folds : nat) (l : log) (ei : experiment * option (list nat)) : res log :=
  match snd ei with
  | None => Err TypeError
  | Some iterations => fold_res (fun l fold => fold_res (multi_agent_version code script (fst ei) iterations fold) (ex_versions (fst ei)) l) (seq 0 num_folds) l
  end.
Definition multi_agent_main (code script : string) (num_folds : nat) (experiments : list experiment) : res log :=
  let* (l, iterations) := create_all_experiments_folders code experiments false true [] in
  fold_res (multi_agent_experiment code (code ++ "/" ++ script) num_folds) (combine experiments iterations) l.

(** online_experiment_sbatch_runner.py 42-70 (the last argument is removed after the submission, and the list is not used again) *)
Definition online_version (script : string) (e : experiment) (fold : nat) (l : log) (version : nat) : res log :=
  if memb version online_map then until_running turns l script (create_execution_arguments e fold version) else Err KeyError.
Definition online_experiment (script : string) (num_folds : nat) (l : log) (e : experiment) : res log :=
  fold_res (fun l fold => fold_res (online_version script e fold) (ex_versions e) l) (seq 0 num_folds) l.
Definition online_main (code script : string) (num_folds : nat) (experiments : list experiment) : res log :=
  let* (l, _) := create_all_experiments_folders code experiments true false [] in
  fold_res (online_experiment (code ++ "/" ++ script) num_folds) experiments l.
End Cluster.

(** ** The command lines of the scripts ([argparse]: an unknown argument, a missing one or a bad number ends the script: RuntimeError) *)
Definition known (options flags : list string) (a : argument) : bool :=
  match a with Arg n _ => memb n options | Flag n => memb n flags | Nothing => true end.
(** The last value counts. *)
Definition value_of (arguments : list argument) (name : string) : option string :=
  fold_left (fun acc a => match a with Arg n v => if Prelude.eqb n name then Some v else acc | _ => acc end) arguments None.
Definition required (arguments : list argument) (name : string) : res string := match value_of arguments name with Some v => Ok v | None => Err RuntimeError end.
Definition int (s : string) : res nat := match NilZero.uint_of_string s with Some u => Ok (Nat.of_uint u) | None => Err ValueError end.
Fixpoint split_comma (current s : string) : list string :=
  match s with
  | "" => [current]
  | String c s => if Ascii.eqb c "," then current :: split_comma "" s else split_comma (current ++ String c "") s
  end.

(** folder_creation_for_parallel_execution.py 13-52, 137-160: algorithms, numbers of trajectories, size and number of folds *)
Definition folder_options := ["working_directory_path"; "domain_file_name"; "problem_prefix"; "learning_algorithms"; "internal_iterations"; "triplets_experiment"; "experiment_size"; "num_splits"].
Definition folder_creation (arguments : list argument) : res (list nat * option (list nat) * nat * nat) :=
  if negb (forallb (known folder_options ["no_random_trajectories"]) arguments) then Err RuntimeError else
  let* _ := required arguments "working_directory_path" in
  let* _ := required arguments "domain_file_name" in
  let* _ := required arguments "problem_prefix" in
  let* algorithms := required arguments "learning_algorithms" in
  let* size := match value_of arguments "experiment_size" with Some v => int v | None => Ok 100 end in
  let* splits := match value_of arguments "num_splits" with Some v => int v | None => Ok 5 end in
  let* iterations := match value_of arguments "internal_iterations" with
                     | Some v => let* l := map_res int (split_comma "" v) in Ok (Some l)
                     | None => Ok None
                     end in
  let* algorithms := map_res int (split_comma "" algorithms) in
  Ok (algorithms, iterations, size, splits).

(** parallel_numeric_experiment_runner.py 214-266: fold, algorithm and number of trajectories; the directory of both sets *)
Definition runner_options := ["working_directory_path"; "domain_file_name"; "learning_algorithm"; "fluents_map_path"; "polynom_degree"; "problems_prefix"; "fold_number"; "iteration_number"; "debug"].
Definition numeric_runner (arguments : list argument) : res (nat * nat * nat * string) :=
  if negb (forallb (known runner_options []) arguments) then Err RuntimeError else
  let* _ := required arguments "working_directory_path" in
  let* _ := required arguments "domain_file_name" in
  let* algorithm := required arguments "learning_algorithm" in
  let* algorithm := int algorithm in
  if negb (memb algorithm [3; 5; 15; 19; 20; 21]) then Err RuntimeError else
  let* fold := required arguments "fold_number" in
  let* fold := int fold in
  let* iteration := required arguments "iteration_number" in
  let* iteration := int iteration in
  Ok (fold, algorithm, iteration, ("fold_" ++ decimal fold ++ "_" ++ decimal algorithm ++ "_" ++ decimal iteration)%string).
