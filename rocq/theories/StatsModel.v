(** * Precision and recall of a learned domain

    Model of statistics/discrete_precision_recall_calculator.py, statistics/semantic_performance_calculator.py and the
    multi-agent variant.  A predicate is its untyped representation (a string).  Ratios are exact rationals; the code
    divides integers into floats. *)
From Verif Require Export Prelude.
From Coq Require Export QArith.
Open Scope string_scope. Open Scope list_scope. Open Scope nat_scope.

(** [n / d] on non-negative integers. *)
Definition py_div (n d : nat) : res Q :=
  match d with
  | 0 => Err ZeroDivisionError
  | S _ => Ok (Z.of_nat n # Pos.of_nat d)
  end.

(** discrete_precision_recall_calculator.py 7-14 *)
Definition calculate_number_true_positives (learned expected : list string) : nat := length (set_inter learned expected).
(** 17-24 *)
Definition calculate_number_false_positives (learned expected : list string) : nat := length (set_diff learned expected).
(** 27-34 *)
Definition calculate_number_false_negatives (learned expected : list string) : nat := length (set_diff expected learned).

(** 37-52 *)
Definition calculate_syntactic_recall (learned actual : list string) : res Q :=
  if length actual =? 0 then Ok 1%Q
  else if length learned =? 0 then Ok 0%Q
  else let tp := calculate_number_true_positives learned actual in
       let fn := calculate_number_false_negatives learned actual in
       py_div tp (tp + fn).

(** 55-70 *)
Definition calculate_syntactic_precision (learned actual : list string) : res Q :=
  if length learned =? 0 then (if length actual =? 0 then Ok 1%Q else Ok 0%Q)
  else let tp := calculate_number_true_positives learned actual in
       let fp := calculate_number_false_positives learned actual in
       py_div tp (tp + fp).

(** What the calculator reads of an action: its name, the representations of the predicates met when iterating over its
    preconditions, and those of its discrete effects. *)
Record action_data := mk_data { ad_name : string; ad_pre : list string; ad_eff : list string }.

(** PrecisionRecallCalculator.__init__ 82-88.  The four [defaultdict(set)] and the list of learned action names;
    [_compared_tuples] only holds references to the dictionaries. *)
Record calculator := mk_calc {
  c_pre : list (string * list string); c_gt_pre : list (string * list string);
  c_eff : list (string * list string); c_gt_eff : list (string * list string);
  c_learned : list string }.
Definition new_calculator : calculator := mk_calc [] [] [] [] [].

(** 90-106 *)
Definition add_action_data (c : calculator) (learned model : action_data) : calculator :=
  mk_calc (dict_set (c_pre c) (ad_name learned) (to_set (ad_pre learned)))
          (dict_set (c_gt_pre c) (ad_name model) (to_set (ad_pre model)))
          (dict_set (c_eff c) (ad_name learned) (to_set (ad_eff learned)))
          (dict_set (c_gt_eff c) (ad_name model) (to_set (ad_eff model)))
          (c_learned c ++ [ad_name learned]).

(** [d[k]] on a [defaultdict(set)]; the entry it may create is empty, so reading is the only observable effect. *)
Definition get_set (d : list (string * list string)) (k : string) : list string :=
  match dict_get d k with Some s => s | None => [] end.

(** [sum(f(tup[0][action_name], tup[1][action_name]) for tup in self._compared_tuples)] *)
Definition sum_tuples (f : list string -> list string -> nat) (c : calculator) (a : string) : nat :=
  f (get_set (c_pre c) a) (get_set (c_gt_pre c) a) + f (get_set (c_eff c) a) (get_set (c_gt_eff c) a).

(** [x / (x + y)], or 1 when both are 0 (117-121, 132-136, 155-158, 178-181) *)
Definition share (x y : nat) : res Q :=
  if (x =? 0) && (y =? 0) then Ok 1%Q else py_div x (x + y).

(** 108-119 *)
Definition calculate_action_precision (c : calculator) (a : string) : res Q :=
  share (sum_tuples calculate_number_true_positives c a) (sum_tuples calculate_number_false_positives c a).
(** 121-133 *)
Definition calculate_action_recall (c : calculator) (a : string) : res Q :=
  share (sum_tuples calculate_number_true_positives c a) (sum_tuples calculate_number_false_negatives c a).
(** 135-156 *)
Definition domain_precision (c : calculator) : res Q :=
  share (list_sum (map (sum_tuples calculate_number_true_positives c) (c_learned c)))
        (list_sum (map (sum_tuples calculate_number_false_positives c) (c_learned c))).
(** 158-179 *)
Definition domain_recall (c : calculator) : res Q :=
  share (list_sum (map (sum_tuples calculate_number_true_positives c) (c_learned c)))
        (list_sum (map (sum_tuples calculate_number_false_negatives c) (c_learned c))).

(** [p / q] on floats *)
Definition q_div (p q : Q) : res Q := if Qeq_bool q 0 then Err ZeroDivisionError else Ok (p / q)%Q.

(** 186-190: the F1 score *)
Definition f1_score (precision recall : Q) : res Q :=
  if Qeq_bool precision 0 && Qeq_bool recall 0 then Ok 0%Q
  else q_div (2 * (precision * recall))%Q (precision + recall)%Q.

(** 181-201 *)
Definition export_action_syntactic_statistics (c : calculator) (a : string) : res (list (string * Q)) :=
  let* action_precision := calculate_action_precision c a in
  let* action_recall := calculate_action_recall c a in
  let* action_f1 := f1_score action_precision action_recall in
  let* pp := calculate_syntactic_precision (get_set (c_pre c) a) (get_set (c_gt_pre c) a) in
  let* ep := calculate_syntactic_precision (get_set (c_eff c) a) (get_set (c_gt_eff c) a) in
  let* pr := calculate_syntactic_recall (get_set (c_pre c) a) (get_set (c_gt_pre c) a) in
  let* er := calculate_syntactic_recall (get_set (c_eff c) a) (get_set (c_gt_eff c) a) in
  Ok [("preconditions_precision", pp); ("effects_precision", ep); ("preconditions_recall", pr); ("effects_recall", er);
      ("action_precision", action_precision); ("action_recall", action_recall); ("f1_score", action_f1)].

(** ** Semantic precision and recall *)

(** A [defaultdict(int)]. *)
Definition counter := list (string * nat).
Definition count_of (d : counter) (k : string) : nat := match dict_get d k with Some n => n | None => 0 end.
Definition bump (d : counter) (k : string) (n : nat) : counter := dict_set d k (count_of d k + n).

(** semantic_performance_calculator.py 39-60 *)
Definition calculate_precision_recall (fn fp tp : counter) : res (list (string * Q) * list (string * Q)) :=
  fold_res (fun acc kv =>
              let '(precision, recall) := acc in
              let '(a, n) := (kv : string * nat) in
              if n =? 0 then
                Ok (dict_set precision a (if count_of fp a =? 0 then 1%Q else 0%Q), dict_set recall a 0%Q)
              else
                let* p := py_div n (n + count_of fp a) in
                let* r := py_div n (n + count_of fn a) in
                Ok (dict_set precision a p, dict_set recall a r))
           tp ([], []).

(** 131-135: the three indicators of one comparison *)
Definition rates (in_learned in_model : bool) : nat * nat * nat :=
  ((if eqb in_learned in_model && in_learned then 1 else 0),
   (if in_learned && negb in_model then 1 else 0),
   (if negb in_learned && in_model then 1 else 0)).

(** The three counters, in the order true positives, false positives, false negatives. *)
Definition tallies := (counter * counter * counter)%type.
Definition add_rates (t : tallies) (a : string) (r : nat * nat * nat) : tallies :=
  let '(tp, fp, fn) := t in let '(x, y, z) := r in (bump tp a x, bump fp a y, bump fn a z).

Section Semantic.
(** Executed actions together with the state they were executed in: [call]; [learned] and [model] say what the external
    validator answers for the two domains (96-156). *)
Variables (call : Type) (call_name : call -> string) (learned model : call -> bool) (learned_actions : list string).

(** 229-259 (and ma_performance_calculator.py 41-71 with the actions of all joint actions in order) *)
Definition calculate_preconditions_semantic_performance (cs : list call) :
  res (list (string * Q) * list (string * Q)) :=
  let '(tp, fp, fn) :=
    fold_left (fun t c =>
                 if memb (call_name c) learned_actions
                 then add_rates t (call_name c) (rates (learned c) (model c)) else t) cs ([], [], []) in
  calculate_precision_recall fn fp tp.
End Semantic.

(** *** Effects *)

(** A literal of a state snapshot: an atom and whether it holds. *)
Definition fact := (string * bool)%type.

Section Effects.
Variables (call : Type) (call_name : call -> string) (learned_actions : list string).
(** States; [snapshot] lists the literals of a state over the known objects (the two snapshots only differ in the domain
    they take the vocabulary from, which is the same for both); applying an operator raises ValueError when it is not
    applicable (or ZeroDivisionError in a numeric effect). *)
Variables (state : Type) (snapshot : state -> list fact) (before : call -> state)
          (learned_apply model_apply : call -> state -> option state).

(** 159-227, one component.  [model_operator.apply] is called on the state the LEARNED operator produced. *)
Definition effects_rates (c : call) : option (nat * nat * nat) :=
  if negb (memb (call_name c) learned_actions) then None
  else match learned_apply c (before c) with
       | None => None
       | Some learned_next =>
           match model_apply c learned_next with
           | None => None
           | Some model_next =>
               let pre := snapshot (before c) in
               let model_effects := set_diff (snapshot model_next) pre in
               let learned_effects := set_diff (snapshot learned_next) pre in
               if (length model_effects =? 0) && (length learned_effects =? 0) then Some (1, 0, 0)
               else Some (length (set_inter model_effects learned_effects),
                          length (set_diff learned_effects model_effects),
                          length (set_diff model_effects learned_effects))
           end
       end.

(** One step of the loop: the counters of the action in the order the code touches them; on the path with no effects only
    the true positives are touched. *)
Definition add_effects (t : tallies) (c : call) : tallies :=
  match effects_rates c with None => t | Some r => add_rates t (call_name c) r end.

(** 261-284 (the early return for a domain without predicates apart) *)
Definition calculate_effects_semantic_performance (cs : list call) : res (list (string * Q) * list (string * Q)) :=
  let '(tp, fp, fn) := fold_left add_effects cs ([], [], []) in
  calculate_precision_recall fn fp tp.
End Effects.

(** 286-316: the values written for an action of the reference domain; the defaults for actions with no comparison. *)
Definition reported (precision recall : list (string * Q)) (default_recall : Q) (a : string) : Q * Q :=
  (match dict_get precision a with Some q => q | None => 1%Q end,
   match dict_get recall a with Some q => q | None => default_recall end).

(** ** Report files *)

(** [csv.DictWriter.writerow] with the default [extrasaction="raise"]: missing fields are left empty. *)
Definition write_row {V} (fields : list string) (row : list (string * V)) : res (list (option V)) :=
  if forallb (fun k => memb k fields) (dict_keys row) then Ok (map (fun f => dict_get row f) fields) else Err ValueError.
