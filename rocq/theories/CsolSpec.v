(** * What jobs of planners have to do *)
From Verif Require Export CsolModel GenSpec SolverSpec.
From Verif Require Import Prelude.
Open Scope string_scope. Open Scope list_scope. Open Scope nat_scope.

(** The problems of the working directory: each file with the prefix once *)
Definition problems_at_work (m : machine) (c : configuration) (stems : list string) : Prop :=
  NoDup stems /\ forall s, In s stems <-> (exists y, s = (cf_prefix c ++ y)%string) /\ look m (resolve (m_cwd m) (cf_workdir c)) (s ++ ".pddl")%string <> None.
(** The timeout and the tolerance, where it is needed, are given as texts. *)
Definition given_as_texts (k : solver_type) (c : configuration) (limit tolerance : string) : Prop :=
  cf_timeout c = Some (Text limit) /\ (k = fast_downward \/ cf_tolerance c = Some (Text tolerance)).
Definition program (k : solver_type) : string := match k with enhsp => "/enhsp_solver.py" | metric_ff => "/metric_ff_solver.py" | fast_downward => "/fast_downward_solver.py" end.
(** The full paths of a file of the working directory *)
Definition at_work (c : configuration) (cwd : list string) (name : string) : path := Abs (resolve cwd (cf_workdir c) ++ [name]).
(** The job of a problem *)
Definition job_for (k : solver_type) (c : configuration) (cwd : list string) (limit tolerance stem : string) (j : job) : Prop :=
  j_script j = (cf_code c ++ program k)%string /\
  j_arguments j = [PathText (at_work c cwd (cf_domain c)); PathText (at_work c cwd stem); PathText (cf_workdir c); Word limit] ++
                  match k with fast_downward => [] | _ => [Word tolerance] end.
(** [sbatch] accepts a job at the first or at the second attempt. *)
Definition accepting (sbatch : nat -> job -> option nat) : Prop := forall i j, sbatch i j <> None \/ sbatch (i + 1) j <> None.
(** A single run of Fast Downward *)
Definition fd_handled_once (process : nat -> command -> outcome_of_run) (asked : path -> command) (start : nat) (problem : path) (runs : nat) (o : outcome)
  (old new : option content) : Prop :=
  runs = 1 /\ fd_ends process asked problem start o /\
  new = let left := ru_solution (process start (asked problem)) old in match o with ok => option_map (@removelast string) left | _ => left end.
