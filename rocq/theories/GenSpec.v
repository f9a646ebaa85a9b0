(** * What a generated data set should be *)
From Verif Require Export SolverSpec GenModel.
From Verif Require Import Prelude.
Open Scope string_scope. Open Scope list_scope. Open Scope nat_scope.

(** The text of a file of a directory *)
Definition look (m : machine) (dir : list string) (name : string) : option content := dict_get (m_files m) (dir ++ [name]).

Section Spec.
Variables domain problem : Type.
Variables (parse_problem : domain -> content -> res problem) (execute : domain -> problem -> content -> res content).

(** What the trajectory of a problem is: an old one, or the execution of the plan, or none if the plan cannot be executed or there is none *)
Inductive settled (d : domain) (files : string -> option content) (stem : string) : option content -> Prop :=
| se_no_solution : files (stem ++ ".solution")%string = None -> settled d files stem (files (stem ++ ".trajectory")%string)
| se_kept c : files (stem ++ ".trajectory")%string = Some c -> settled d files stem (Some c)
| se_made pt p st c : files (stem ++ ".trajectory")%string = None -> files (stem ++ ".pddl")%string = Some pt -> parse_problem d pt = Ok p ->
    files (stem ++ ".solution")%string = Some st -> execute d p st = Ok c -> settled d files stem (Some c)
| se_failed pt p st e : files (stem ++ ".trajectory")%string = None -> files (stem ++ ".pddl")%string = Some pt -> parse_problem d pt = Ok p ->
    files (stem ++ ".solution")%string = Some st -> execute d p st = Err e -> (e = ValueError \/ e = IndexError) -> settled d files stem None.

(** From [m] to [m']: the trajectories of the directory are settled, and no other file changes. *)
Definition settled_all (d : domain) (dir : list string) (m m' : machine) : Prop :=
  (forall stem, settled d (look m dir) stem (look m' dir (stem ++ ".trajectory")%string)) /\
  (forall f, ~ (exists stem, look m dir (stem ++ ".solution")%string <> None /\ f = dir ++ [(stem ++ ".trajectory")%string]) -> dict_get (m_files m') f = dict_get (m_files m) f).

(** Problems to solve *)
Definition problem_stems (m : machine) (dir : list string) (prefix : string) (stems : list string) : Prop :=
  NoDup stems /\ forall s, In s stems <-> (exists r, s = (prefix ++ r)%string) /\ look m dir (s ++ ".pddl")%string <> None.
(** Every old plan and every problem to solve can be used, and plans only fail in the ways that are expected. *)
Definition usable (d : domain) (m : machine) (dir : list string) (prefix : string) : Prop :=
  (forall s, look m dir (s ++ ".solution")%string <> None -> look m dir (s ++ ".pddl")%string <> None) /\
  (forall s pt, (look m dir (s ++ ".solution")%string <> None \/ (exists r, s = (prefix ++ r)%string)) -> look m dir (s ++ ".pddl")%string = Some pt -> exists p, parse_problem d pt = Ok p) /\
  (forall p st e, execute d p st = Err e -> e = ValueError \/ e = IndexError).
End Spec.
