(** * Dummy actions in multi-agent plans

    Model of trajectory_creators/ma_common_functions.py 43-107. *)
From Verif Require Export Prelude.
Open Scope string_scope. Open Scope list_scope. Open Scope nat_scope.

Definition action := (string * list string)%type.
Definition joint := list action.
Definition NOP_ACTION := "nop".
Definition ADD_PREDICATE_ACTION_NAME := "dummy-add-predicate-action".
Definition DEL_PREDICATE_ACTION_NAME := "dummy-del-predicate-action".

(** 49 *)
Definition empty_indices (j : joint) : list nat :=
  map fst (filter (fun ia => Prelude.eqb (fst (snd ia)) NOP_ACTION) (combine (seq 0 (length j)) j)).
(** 43-54; [pick] is random.choice *)
Definition find_empty_action_index (pick : list nat -> nat) (j : joint) : option nat :=
  match empty_indices j with [] => None | l => Some (pick l) end.
(** [joint_action.actions[i] = a] *)
Fixpoint set_action (j : joint) (i : nat) (a : action) : joint :=
  match j, i with
  | [], _ => []
  | _ :: j, 0 => a :: j
  | b :: j, S i => b :: set_action j i a
  end.
Fixpoint set_joint (plan : list joint) (i : nat) (j : joint) : list joint :=
  match plan, i with
  | [], _ => []
  | _ :: plan, 0 => j :: plan
  | k :: plan, S i => k :: set_joint plan i j
  end.

Section Insert.
(** The random choices: the idle agent for the dummy of the goal and for the other dummies, whether a dummy is added to a joint
    action, and whether it deletes. *)
Variables (pick_goal pick : nat -> list nat -> nat) (add delete : nat -> bool).
Variable agent_names : list string.

Definition dummy (name : string) (i : nat) : res action :=
  match nth_error agent_names i with Some a => Ok (name, [a]) | None => Err IndexError end.

(** 76-83: from the last joint action backwards; [n] joint actions are left to look at *)
Fixpoint add_for_goal (n : nat) (plan : list joint) : res (option nat * list joint) :=
  match n with
  | 0 => Ok (None, plan)
  | S index =>
      match find_empty_action_index (pick_goal index) (nth index plan []) with
      | Some free_agent =>
          let* a := dummy ADD_PREDICATE_ACTION_NAME free_agent in
          Ok (Some index, set_joint plan index (set_action (nth index plan []) free_agent a))
      | None => add_for_goal index plan
      end
  end.

(** 85-105 *)
Fixpoint insert_loop (last : nat) (index : nat) (plan : list joint) : res (list joint) :=
  match plan with
  | [] => Ok []
  | j :: plan =>
      if last <=? index then let* rest := insert_loop last (index + 1) plan in Ok (j :: rest)
      else if negb (add index) then insert_loop last (index + 1) plan
      else match find_empty_action_index (pick index) j with
           | None => insert_loop last (index + 1) plan
           | Some i =>
               let* a := dummy (if delete index then DEL_PREDICATE_ACTION_NAME else ADD_PREDICATE_ACTION_NAME) i in
               let* rest := insert_loop last (index + 1) plan in Ok (set_action j i a :: rest)
           end
  end.

(** 57-107 *)
Definition insert_dummy_actions_to_plan (plan : list joint) (dummy_in_goal : bool) : res (list joint) :=
  if dummy_in_goal then
    let* (last, plan) := add_for_goal (length plan) plan in
    insert_loop (match last with Some i => i | None => length plan - 1 end) 0 plan
  else insert_loop (length plan - 1) 0 plan.
End Insert.
