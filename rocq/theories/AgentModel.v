(** * The agent that executes plans in the environment

    Model of sam_learning/core/online_learning_agents/ipc_agent.py. *)
From Verif Require Export Prelude.
From Coq Require Export QArith.
Open Scope string_scope. Open Scope list_scope. Open Scope nat_scope.

(** A state: lifted predicate -> representations of the grounded predicates that hold, and the values of the fluents by their
    representation. *)
Record wstate := mk_wstate { ws_predicates : list (string * list string); ws_fluents : list (string * Q) }.

(** A numeric goal expression.  A function object of the expression carries the value that was last assigned to it. *)
Inductive nexp :=
| NConst (q : Q)
| NFun (rep : string) (value : Q)
| NBin (op : string) (l r : nexp).

(** The goal of the problem: representations of the goal predicates, and the expressions. *)
Record goal := mk_goal { g_predicates : list string; g_fluents : list nexp }.

(** [expression_function.set_value(v)] for every function of the expression with the representation *)
Fixpoint set_value (rep : string) (v : Q) (e : nexp) : nexp :=
  match e with
  | NConst q => NConst q
  | NFun r old => if Prelude.eqb r rep then NFun r v else NFun r old
  | NBin op l r => NBin op (set_value rep v l) (set_value rep v r)
  end.
(** ipc_agent.py 36-52 *)
Definition assign_state_fluent_value (fluents : list (string * Q)) (es : list nexp) : list nexp :=
  map (fun e => fold_left (fun e kv => set_value (fst kv) (snd kv) e) fluents e) es.

(** 113-115 *)
Definition state_predicates (s : wstate) : list string := flat_map snd (ws_predicates s).

Section Agent.
(** pddl_plus_parser's evaluation of an operator on two numbers; a comparison gives 1 or 0, as Python's bool. *)
Variable binop : string -> Q -> Q -> res Q.
(** Grounding and applying an action of the domain; [call] is an action call. *)
Variables (call : Type) (call_name : call -> string) (actions : list string) (apply : call -> wstate -> res wstate).

(** evaluate_expression *)
Fixpoint evaluate (e : nexp) : res Q :=
  match e with
  | NConst q => Ok q
  | NFun _ v => Ok v
  | NBin op l r => let* x := evaluate l in let* y := evaluate r in binop op x y
  end.

(** [all([evaluate_expression(f.root) for f in fluents])]: every expression is evaluated. *)
Definition all_true (es : list nexp) : res bool :=
  let* vs := map_res evaluate es in Ok (forallb (fun v => negb (Qeq_bool v 0)) vs).

(** 103-124.  The assigned values stay in the problem's goal. *)
Definition goal_reached (g : goal) (s : wstate) : goal * res bool :=
  let g' := mk_goal (g_predicates g) (assign_state_fluent_value (ws_fluents s) (g_fluents g)) in
  (g', if forallb (fun p => memb p (state_predicates s)) (g_predicates g) then all_true (g_fluents g') else Ok false).

(** 69-93: the reward is always 0 and left out *)
Definition observe (s : wstate) (c : call) : res (wstate * bool) :=
  if negb (memb (call_name c) actions) then Err KeyError
  else match apply c s with
       | Ok s' => Ok (s', true)
       | Err ValueError => Ok (s, false)
       | Err e => Err e
       end.

Record component := mk_component { c_prev : wstate; c_call : call; c_next : wstate; c_success : bool }.

(** 138-146: the loop; the trace so far, the current state *)
Fixpoint execute_steps (plan : list call) (trace : list component) (current : wstate) : res (list component * wstate * bool) :=
  match plan with
  | [] => Ok (trace, current, true)
  | a :: plan =>
      let* (next, ok) := observe current a in
      let trace := trace ++ [mk_component current a next ok] in
      if ok then execute_steps plan trace next else Ok (trace, next, false)
  end.

(** 126-150 *)
Definition execute_plan (g : goal) (init : wstate) (plan : list call) : goal * res (list component * bool * bool) :=
  match execute_steps plan [] init with
  | Err e => (g, Err e)
  | Ok (trace, current, plan_applicable) =>
      let '(g', reached) := goal_reached g current in
      (g', let* is_goal_reached := reached in Ok (trace, is_goal_reached, plan_applicable))
  end.
End Agent.
