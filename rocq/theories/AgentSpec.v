(** * What executing a plan means *)
From Verif Require Export AgentModel.
Open Scope string_scope. Open Scope list_scope. Open Scope nat_scope.

(** Numeric goal conditions without values: terms and their value in a state. *)
Inductive term := TConst (q : Q) | TFun (rep : string) | TBin (op : string) (l r : term).
Fixpoint term_of (e : nexp) : term :=
  match e with NConst q => TConst q | NFun r _ => TFun r | NBin op l r => TBin op (term_of l) (term_of r) end.
Fixpoint value_in (binop : string -> Q -> Q -> res Q) (fluents : list (string * Q)) (t : term) : option (res Q) :=
  match t with
  | TConst q => Some (Ok q)
  | TFun r => option_map Ok (dict_get fluents r)
  | TBin op l r => match value_in binop fluents l, value_in binop fluents r with
                   | Some x, Some y => Some (let* x := x in let* y := y in binop op x y)
                   | _, _ => None
                   end
  end.
(** Every function of the term has a value in the state. *)
Fixpoint defined_in (fluents : list (string * Q)) (t : term) : Prop :=
  match t with
  | TConst _ => True
  | TFun r => In r (map fst fluents)
  | TBin _ l r => defined_in fluents l /\ defined_in fluents r
  end.

(** The goal holds: every goal predicate holds in the state, every numeric condition evaluates to a true value. *)
Definition holds (binop : string -> Q -> Q -> res Q) (preds : list string) (conds : list term) (s : wstate) : Prop :=
  (forall p, In p preds -> exists name ps, In (name, ps) (ws_predicates s) /\ In p ps) /\
  (forall t, In t conds -> exists v, value_in binop (ws_fluents s) t = Some (Ok v) /\ ~ (v == 0)%Q).
(** No condition of the goal raises. *)
Definition evaluable (binop : string -> Q -> Q -> res Q) (conds : list term) (s : wstate) : Prop :=
  forall t, In t conds -> exists v, value_in binop (ws_fluents s) t = Some (Ok v).
Definition well_formed_state (s : wstate) : Prop := NoDup (map fst (ws_fluents s)).

Section Execution.
Variables (call : Type) (apply : call -> wstate -> res wstate).
(** Executing a plan from a state: the trace, the final state, and whether every action was applied. *)
Inductive executed : wstate -> list call -> list (component call) -> wstate -> bool -> Prop :=
| ex_done s : executed s [] [] s true
| ex_fail s a plan : apply a s = Err ValueError -> executed s (a :: plan) [mk_component call s a s false] s false
| ex_step s a s1 plan tr s2 ok : apply a s = Ok s1 -> executed s1 plan tr s2 ok ->
    executed s (a :: plan) (mk_component call s a s1 true :: tr) s2 ok.

(** The trace is chained from [s] to [s']. *)
Fixpoint chained (s : wstate) (tr : list (component call)) (s' : wstate) : Prop :=
  match tr with [] => s = s' | c :: tr => c_prev call c = s /\ chained (c_next call c) tr s' end.
End Execution.
