(** * What a cluster should be asked to run *)
From Verif Require Export CluModel.
From Verif Require DfoldSpec.
From Verif Require Import Prelude.
Open Scope string_scope. Open Scope list_scope. Open Scope nat_scope.

(** Every wish is met by one or more submitted jobs, in the order of the wishes; no other job is submitted. *)
Inductive attempts : list (job -> Prop) -> list job -> Prop :=
| at_nil : attempts [] []
| at_more (P : job -> Prop) Ps js rest : js <> [] -> Forall P js -> attempts Ps rest -> attempts (P :: Ps) (js ++ rest).

(** A job for a fold and an algorithm (and a number of trajectories) with all the options of the experiment *)
Definition job_for (script : string) (e : experiment) (fold version : nat) (iteration : option nat) (j : job) : Prop :=
  j_script j = script /\ j_dependency j = None /\
  length (j_arguments j) = 2 + length (ex_options e) + (match iteration with Some _ => 1 | None => 0 end) /\
  forall a, In a (j_arguments j) <->
    a = Arg "fold_number" (decimal fold) \/ a = Arg "learning_algorithm" (decimal version) \/ (exists k v, In (k, v) (ex_options e) /\ a = Arg k v) \/
    (exists n, iteration = Some n /\ a = Arg "iteration_number" (decimal n)).
(** A job that makes the folds of an experiment: when it runs, it makes five folds for these algorithms and numbers of trajectories. *)
Definition folder_job (code : string) (random : bool) (ei : experiment * list nat) (j : job) : Prop :=
  j_script j = (code ++ "/folder_creation_for_parallel_execution.py")%string /\ j_dependency j = None /\
  (forall k name, In (k, name) [("working_directory_path", "working_directory_path"); ("domain_file_name", "domain_file_name"); ("problems_prefix", "problem_prefix")] ->
   exists v, dict_get (ex_options (fst ei)) k = Some v /\ value_of (j_arguments j) name = Some v) /\
  (In (Flag "no_random_trajectories") (j_arguments j) <-> random = false) /\
  (ex_versions (fst ei) <> [] -> snd ei <> [] ->
   folder_creation (j_arguments j) = Ok (ex_versions (fst ei), Some (snd ei), match ex_size (fst ei) with Some n => n | None => 100 end, 5)).

(** The combinations *)
Definition numeric_wishes (script : string) (num_folds : nat) (ei : experiment * list nat) : list (job -> Prop) :=
  flat_map (fun fold => flat_map (fun version => map (fun n => job_for script (fst ei) fold version (Some n)) (snd ei)) (ex_versions (fst ei))) (seq 0 num_folds).
Definition multi_agent_wishes (triplets script : string) (num_folds : nat) (ei : experiment * list nat) : list (job -> Prop) :=
  flat_map (fun fold => flat_map (fun version => map (fun n => job_for script (fst ei) fold version (Some n)) (snd ei) ++ [job_for triplets (fst ei) fold version None])
                                 (ex_versions (fst ei))) (seq 0 num_folds).
Definition online_wishes (script : string) (num_folds : nat) (e : experiment) : list (job -> Prop) :=
  flat_map (fun fold => map (fun version => job_for script e fold version None) (ex_versions e)) (seq 0 num_folds).

(** The configuration of an experiment for the numeric algorithms *)
Definition configured (e : experiment) : Prop :=
  (forall k, In k ["working_directory_path"; "domain_file_name"; "problems_prefix"] -> In k (map fst (ex_options e))) /\
  (forall k, In k (map fst (ex_options e)) -> In k ["working_directory_path"; "domain_file_name"; "problems_prefix"; "fluents_map_path"; "polynom_degree"; "debug"]) /\
  Forall (fun v => In v [3; 5; 15]) (ex_versions e).
(** The largest training set *)
Definition training_limit (e : experiment) : option nat := match ex_size e with Some n => Some (n * 4 / 5) | None => ex_max_index e end.
