(** * Which class a test problem belongs to *)
From Verif Require Export ValidateModel StatsSpec.
Open Scope string_scope. Open Scope list_scope. Open Scope nat_scope.

(** Some solver of the portfolio found a plan. *)
Definition solved (p : problem) : bool := existsb is_ok (pr_outcomes p).

(** The class of a problem: by the validation text when a plan was found, otherwise what the last solver answered. *)
Definition class_of (p : problem) : option string :=
  if solved p then
    if in_text "Plan valid" (pr_log p) then Some "ok"
    else if in_text "Plan failed to execute" (pr_log p) then Some "not_applicable"
    else if in_text "Goal not satisfied" (pr_log p) then Some "goal_not_achieved" else None
  else match rev (pr_outcomes p) with o :: _ => Some (outcome_name o) | [] => None end.

Definition in_class (l : string) (p : problem) : bool := match class_of p with Some c => Prelude.eqb c l | None => false end.
(** The expert plan of an unsolved problem, on the tested domain. *)
Definition expert_ok (p : problem) : bool := negb (solved p) && in_text "Plan valid" (pr_expert_log p).
Definition expert_bad (p : problem) : bool := negb (solved p) && negb (in_text "Plan valid" (pr_expert_log p)).

(** The portfolio is not empty and the last answer is one of the six classes. *)
Definition answered (p : problem) : Prop :=
  pr_outcomes p <> [] /\ (solved p = false -> forall o outs, rev (pr_outcomes p) = o :: outs -> o <> irrelevant).

(** The name a problem is listed under: with the file suffix when it was solved. *)
Definition listed_name (p : problem) : string := if solved p then (pr_stem p ++ ".pddl")%string else pr_stem p.

Definition the_classes := ["ok"; "no_solution"; "timeout"; "solver_error"; "not_applicable"; "goal_not_achieved"].

Definition percent (n total : nat) : Q := (100 * (inject_Z (Z.of_nat n) / inject_Z (Z.of_nat total)))%Q.
