(** * What inserting dummy actions may change *)
From Verif Require Export DummyModel.
Open Scope string_scope. Open Scope list_scope. Open Scope nat_scope.

Definition idle (j : joint) : Prop := exists ps, In ("nop", ps) j.
Definition is_dummy (name : string) : Prop := name = "dummy-add-predicate-action" \/ name = "dummy-del-predicate-action".
(** One no-op of [j] is replaced by a dummy action of the same agent. *)
Definition replaced (agents : list string) (name : string) (j j' : joint) : Prop :=
  exists before ps after agent, j = before ++ ("nop", ps) :: after /\ nth_error agents (length before) = Some agent /\
    j' = before ++ (name, [agent]) :: after.
(** Some joint actions are dropped, all others get one dummy. *)
Inductive thinned (agents : list string) : list joint -> list joint -> Prop :=
| th_nil : thinned agents [] []
| th_drop j p p' : thinned agents p p' -> thinned agents (j :: p) p'
| th_keep j j' name p p' : is_dummy name -> replaced agents name j j' -> thinned agents p p' -> thinned agents (j :: p) (j' :: p').

(** Random choices pick an element of a non-empty list. *)
Definition picks_one (pick : nat -> list nat -> nat) : Prop := forall k l, l <> [] -> In (pick k l) l.
(** Every joint action has a name for each of its agents. *)
Definition named (agents : list string) (plan : list joint) : Prop := forall j, In j plan -> length j <= length agents.
