(** * Properties of the incremental hull learner *)
From Verif Require Import IncSpec IncClaims.
Open Scope list_scope. Open Scope nat_scope.

(** ** C68 *)
Theorem C68_exact : forall unit fit hull schmidt cols ops st s q, exact_libraries unit fit hull schmidt -> inc_input unit fit cols ops ->
  run unit fit hull schmidt cols ops = Ok st -> points_of ops <> [] -> (length (relevant_of cols ops) <> 1 \/ length cols = 1) -> over cols q -> in_state s q ->
  exists conditions, construct_safe unit st = Ok conditions /\
    (all_satisfied s conditions <-> mean_of (points_of ops) (filter (fun c => memb c (relevant_of cols ops)) cols) q).
Proof. exact safe_exact. Qed.
Theorem C68_observed : forall unit fit hull schmidt cols ops st s p conditions, exact_libraries unit fit hull schmidt -> inc_input unit fit cols ops ->
  run unit fit hull schmidt cols ops = Ok st -> (length (relevant_of cols ops) <> 1 \/ length cols = 1) -> In p (points_of ops) -> in_state s p ->
  construct_safe unit st = Ok conditions -> all_satisfied s conditions.
Proof. exact safe_observed. Qed.
Theorem C68_order : forall unit fit hull schmidt cols ops ops' st st' s q conditions conditions', exact_libraries unit fit hull schmidt ->
  inc_input unit fit cols ops -> inc_input unit fit cols ops' -> run unit fit hull schmidt cols ops = Ok st -> run unit fit hull schmidt cols ops' = Ok st' ->
  points_of ops <> [] -> incl (points_of ops) (points_of ops') -> relevant_of cols ops = relevant_of cols ops' -> (length (relevant_of cols ops) <> 1 \/ length cols = 1) ->
  over cols q -> in_state s q -> construct_safe unit st = Ok conditions -> construct_safe unit st' = Ok conditions' ->
  all_satisfied s conditions -> all_satisfied s conditions'.
Proof. exact safe_order. Qed.
Theorem C68_total : forall unit fit hull schmidt cols ops, exact_libraries unit fit hull schmidt -> inc_input unit fit cols ops -> (forall fs, ~ In (ResetTo fs) ops) ->
  done hull (run unit fit hull schmidt cols ops).
Proof. exact adding_total. Qed.
Theorem C68_reset : forall unit fit hull schmidt cols ops st fs, exact_libraries unit fit hull schmidt -> inc_input unit fit cols ops -> run unit fit hull schmidt cols ops = Ok st ->
  (i_hull st <> None /\ done hull (run unit fit hull schmidt cols (ops ++ [ResetTo fs]))) \/
  (i_hull st = None /\ run unit fit hull schmidt cols (ops ++ [ResetTo fs]) = Err AttributeError).
Proof. exact resetting_total. Qed.

(** ** C69 *)
Theorem C69_safe_partial : forall unit fit hull schmidt cols ops st s q conditions, exact_libraries unit fit hull schmidt -> inc_input unit fit cols ops ->
  run unit fit hull schmidt cols ops = Ok st -> points_of ops <> [] -> (length (relevant_of cols ops) <> 1 \/ length cols = 1) -> over cols q -> in_state s q ->
  construct_safe unit st = Ok (Some conditions) -> is_point_in_convex_hull unit schmidt st q = Ok true -> forall t, In t conditions -> roughly s (EPSILON unit) t.
Proof. exact inside_roughly. Qed.
Theorem C69_complete : forall unit fit hull schmidt cols ops st q, exact_libraries unit fit hull schmidt -> inc_input unit fit cols ops ->
  run unit fit hull schmidt cols ops = Ok st -> (forall fs, ~ In (ResetTo fs) ops) -> over cols q ->
  exists b, is_point_in_convex_hull unit schmidt st q = Ok b /\ (mean_of (points_of ops) cols q -> b = true).
Proof. exact inside_complete. Qed.
Theorem C69_copy : forall unit fit hull schmidt cols ops st, exact_libraries unit fit hull schmidt -> inc_input unit fit cols ops ->
  run unit fit hull schmidt cols ops = Ok st -> points_of ops <> [] -> copy hull cols st = Ok st.
Proof. exact copy_exact. Qed.

Print Assumptions C68_exact. Print Assumptions C68_observed. Print Assumptions C68_order. Print Assumptions C68_total. Print Assumptions C68_reset.
Print Assumptions C69_safe_partial. Print Assumptions C69_complete. Print Assumptions C69_copy.
