(** * What a performance report contains and what the numeric error measures *)
From Verif Require Export PerfModel StatsSpec.
Open Scope string_scope. Open Scope list_scope. Open Scope nat_scope.

(** A learned domain handed to the calculator: policy, number of trajectories, what was measured, squared errors. *)
Record request := mk_request { rq_policy : string; rq_num : nat; rq_measures : measures; rq_mses : list (string * Q) }.

Definition semantic_run (alg : string) (actions : list string) (rs : list request) : list row :=
  fold_left (fun rows r => calculate_performance alg actions (rq_policy r) (rq_num r) (rq_measures r) rows) rs [].
Definition numeric_run (alg : string) (actions : list string) (eps : Q) (rs : list request) : list row :=
  fold_left (fun rows r => numeric_calculate_performance alg actions eps (rq_policy r) (rq_num r) (rq_measures r) (rq_mses r) rows) rs [].

(** The complete row of one action for one learned domain. *)
Definition complete_row (alg : string) (eps : Q) (r : request) (a : string) : row :=
  let get d def := CNum (match dict_get d a with Some q => q | None => def end) in
  [("learning_algorithm", CText alg); ("policy", CText (rq_policy r)); ("action_name", CText a); ("num_trajectories", CNat (rq_num r));
   ("precondition_precision", get (m_pp (rq_measures r)) 1%Q); ("precondition_recall", get (m_pr (rq_measures r)) 0%Q);
   ("effects_precision", get (m_ep (rq_measures r)) 1%Q); ("effects_recall", get (m_er (rq_measures r)) 1%Q);
   ("effects_mse", get (rq_mses r) 0%Q); ("epsilon_precision", CNum eps)].

(** ** Numeric error *)

(** Every value the learned operator predicts is the one the reference operator gives. *)
Definition same_values (s s' : list (string * Q)) : Prop :=
  forall f v v', In (f, v) s -> dict_get s' f = Some v' -> (v == v')%Q.
(** The comparison of one call finds no difference. *)
Definition agrees (l m : application) : Prop :=
  match l, m with
  | Applied s, Applied s' => same_values s s'
  | Inapplicable, _ | Applied _, Inapplicable => True
  | DivisionByZero, _ | Applied _, DivisionByZero => False
  end.
(** There is something to compare: some fluent, and every fluent of the learned state is known to the other. *)
Definition comparable (before : list (string * Q)) (l m : application) : Prop :=
  before <> [] /\ NoDup (map fst before) /\
  forall s s', l = Applied s -> m = Applied s' -> s <> [] /\ incl (map fst s) (map fst s').
