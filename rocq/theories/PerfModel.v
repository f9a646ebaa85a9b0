(** * The performance calculators: rows, numeric error and report files

    Model of statistics/semantic_performance_calculator.py 284-337, numeric_performance_calculator.py and
    ma_performance_calculator.py. *)
From Verif Require Export StatsModel.
Open Scope string_scope. Open Scope list_scope. Open Scope nat_scope.

(** semantic_performance_calculator.py 27-36 *)
Definition SEMANTIC_PRECISION_STATS := ["action_name"; "policy"; "learning_algorithm"; "num_trajectories"; "precondition_precision";
  "precondition_recall"; "effects_precision"; "effects_recall"].
(** ma_performance_calculator.py 17-25 *)
Definition MA_SEMANTIC_PRECISION_STATS := ["fold"; "learning_algorithm"; "policy"; "action_name"; "num_trajectories";
  "precondition_precision"; "precondition_recall"].
(** numeric_performance_calculator.py 18-29 *)
Definition NUMERIC_PERFORMANCE_STATS := ["learning_algorithm"; "policy"; "action_name"; "epsilon_precision"; "num_trajectories";
  "precondition_precision"; "precondition_recall"; "effects_precision"; "effects_recall"; "effects_mse"].

Inductive cell := CText (s : string) | CNat (n : nat) | CNum (q : Q).
Definition row := list (string * cell).

(** The four dictionaries a learned domain is given: precision and recall of preconditions and of effects. *)
Record measures := mk_measures { m_pp : list (string * Q); m_pr : list (string * Q); m_ep : list (string * Q); m_er : list (string * Q) }.

(** semantic_performance_calculator.py 298-308, ma_performance_calculator.py 164-173 *)
Definition action_stats (alg policy : string) (n : nat) (m : measures) (a : string) : row :=
  let '(pp, pr) := reported (m_pp m) (m_pr m) 0 a in
  let '(ep, er) := reported (m_ep m) (m_er m) 1 a in
  [("learning_algorithm", CText alg); ("policy", CText policy); ("action_name", CText a); ("num_trajectories", CNat n);
   ("precondition_precision", CNum pp); ("precondition_recall", CNum pr); ("effects_precision", CNum ep); ("effects_recall", CNum er)].

(** 284-309: [calculate_performance] appends a row per action of the reference domain to [combined_stats]. *)
Definition calculate_performance (alg : string) (actions : list string) (policy : string) (n : nat) (m : measures) (combined : list row) : list row :=
  combined ++ map (action_stats alg policy n m) actions.

(** numeric_performance_calculator.py 109-115: the row matches the action, the number and the policy *)
Definition row_matches (a policy : string) (n : nat) (r : row) : bool :=
  match dict_get r "action_name", dict_get r "num_trajectories", dict_get r "policy" with
  | Some (CText a'), Some (CNat n'), Some (CText p') => Prelude.eqb a' a && Prelude.eqb n' n && Prelude.eqb p' policy
  | _, _, _ => false
  end.
(** 107-117: only the first matching row is completed. *)
Fixpoint complete_first (a policy : string) (n : nat) (mse eps : Q) (rows : list row) : list row :=
  match rows with
  | [] => []
  | r :: rows => if row_matches a policy n r
                 then dict_set (dict_set r "effects_mse" (CNum mse)) "epsilon_precision" (CNum eps) :: rows
                 else r :: complete_first a policy n mse eps rows
  end.
Definition mse_of (mses : list (string * Q)) (a : string) : Q := match dict_get mses a with Some q => q | None => 0%Q end.
(** 97-119 *)
Definition numeric_calculate_performance (alg : string) (actions : list string) (eps : Q) (policy : string) (n : nat) (m : measures)
  (mses : list (string * Q)) (combined : list row) : list row :=
  fold_left (fun rows a => complete_first a policy n (mse_of mses a) eps rows) actions
            (calculate_performance alg actions policy n m combined).

(** The three export functions: a header and a line per row. *)
Definition export_rows (fields : list string) (combined : list row) : res (list (list (option cell))) :=
  map_res (write_row fields) combined.

(** ** The squared error of numeric effects *)

(** What applying an operator to a state gives: the values of the fluents, ValueError or ZeroDivisionError. *)
Inductive application := Applied (fluents : list (string * Q)) | Inapplicable | DivisionByZero.

Definition MAX_INT : Q := inject_Z (10 ^ 6).

(** sklearn.metrics.mean_squared_error on two sequences of the same length; ValueError on empty ones. *)
Definition squared_errors_sum (vs : list (Q * Q)) : Q := fold_right (fun v acc => ((fst v - snd v) * (fst v - snd v) + acc)%Q) 0%Q vs.
Definition mean_squared_error (vs : list (Q * Q)) : res Q :=
  match vs with
  | [] => Err ValueError   (* [zip] of nothing cannot be unpacked into two names *)
  | _ => Ok (squared_errors_sum vs / inject_Z (Z.of_nat (length vs)))%Q
  end.
(** 81-84: the value of each fluent of the learned next state with that of the model's *)
Definition paired_values (learned model : list (string * Q)) : res (list (Q * Q)) :=
  map_res (fun kv : string * Q => match dict_get model (fst kv) with Some v => Ok (snd kv, v) | None => Err KeyError end) learned.

Section MSE.
Variables (call : Type) (call_name : call -> string) (learned_actions : list string).
Variables (before : call -> list (string * Q)) (learned_apply model_apply : call -> application).

(** 64-88, one component *)
Definition call_error (c : call) : res Q :=
  match learned_apply c with
  | DivisionByZero => Ok MAX_INT
  | Inapplicable => let* vs := paired_values (before c) (before c) in mean_squared_error vs
  | Applied s => match model_apply c with
                 | DivisionByZero => Ok MAX_INT
                 | Inapplicable => let* vs := paired_values (before c) (before c) in mean_squared_error vs
                 | Applied s' => let* vs := paired_values s s' in mean_squared_error vs
                 end
  end.

Definition append_error (d : list (string * list Q)) (a : string) (e : Q) : list (string * list Q) :=
  dict_set d a (match dict_get d a with Some es => es | None => [] end ++ [e]).

(** 57-88 *)
Definition squared_errors (cs : list call) : res (list (string * list Q)) :=
  fold_res (fun d c => if memb (call_name c) learned_actions then let* e := call_error c in Ok (append_error d (call_name c) e) else Ok d) cs [].

Definition average (es : list Q) : Q := (fold_right Qplus 0 es / inject_Z (Z.of_nat (length es)))%Q.
(** 48-91 *)
Definition calculate_effects_mse (cs : list call) : res (list (string * Q)) :=
  let* d := squared_errors cs in
  Ok (fold_left (fun m (kv : string * list Q) => dict_set m (fst kv) (average (snd kv))) d (map (fun a => (a, 0%Q)) learned_actions)).
End MSE.

(** ** Multi-agent effects: ma_performance_calculator.py 72-146 *)
Section MAEffects.
Variables (joint : Type) (members : joint -> list string) (learned_actions : list string).
(** The atoms of the observed next state, and of the state the learned domain predicts (None when it raises ValueError). *)
Variables (observed : joint -> list string) (predicted : joint -> option (list string)).

Definition ma_add (t : tallies) (j : joint) : tallies :=
  if existsb (fun a => negb (memb a learned_actions)) (members j) then t
  else match predicted j with
       | None => t
       | Some p => fold_left (fun t a => add_rates t a (length (set_inter (observed j) p), length (set_diff p (observed j)),
                                                       length (set_diff (observed j) p))) (members j) t
       end.
Definition ma_effects_semantic_performance (js : list joint) : res (list (string * Q) * list (string * Q)) :=
  let '(tp, fp, fn) := fold_left ma_add js ([], [], []) in
  calculate_precision_recall fn fp tp.
End MAEffects.
