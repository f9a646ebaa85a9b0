(** * Proofs: the claims about the incremental hull learner, without sections *)
From Verif Require Import IncSpec IncProofs IncSafe HullProofs Prelude PreludeProofs.
Open Scope string_scope. Open Scope list_scope. Open Scope nat_scope.

Lemma safe_exact unit fit hull schmidt cols ops st s q : exact_libraries unit fit hull schmidt -> inc_input unit fit cols ops ->
  run unit fit hull schmidt cols ops = Ok st -> points_of ops <> [] -> (length (relevant_of cols ops) <> 1 \/ length cols = 1) -> over cols q -> in_state s q ->
  exists conditions, construct_safe unit st = Ok conditions /\
    (all_satisfied s conditions <-> mean_of (points_of ops) (filter (fun c => memb c (relevant_of cols ops)) cols) q).
Proof. intros L I E. exact (conditions_exact unit fit hull schmidt L cols ops st I E s q). Qed.
Lemma observed_mean points cols p : In p points -> mean_of points cols p.
Proof. intros P. exists [p]. split; [intros x [<-|[]]; exact P|]. cbn [map]. apply (equal_hull [row_of cols p] (row_of cols p)); [left; reflexivity|apply Qs_refl]. Qed.
Lemma safe_observed unit fit hull schmidt cols ops st s p conditions : exact_libraries unit fit hull schmidt -> inc_input unit fit cols ops ->
  run unit fit hull schmidt cols ops = Ok st -> (length (relevant_of cols ops) <> 1 \/ length cols = 1) -> In p (points_of ops) -> in_state s p ->
  construct_safe unit st = Ok conditions -> all_satisfied s conditions.
Proof.
  intros L I E O P IS C. destruct (safe_exact unit fit hull schmidt cols ops st s p L I E) as (c & C' & X); [intros Z; rewrite Z in P; destruct P|exact O|apply (ii_points _ _ _ _ I); exact P|exact IS|].
  rewrite C in C'. injection C' as <-. apply X. apply observed_mean. exact P.
Qed.
Lemma safe_order unit fit hull schmidt cols ops ops' st st' s q conditions conditions' : exact_libraries unit fit hull schmidt ->
  inc_input unit fit cols ops -> inc_input unit fit cols ops' -> run unit fit hull schmidt cols ops = Ok st -> run unit fit hull schmidt cols ops' = Ok st' ->
  points_of ops <> [] -> incl (points_of ops) (points_of ops') -> relevant_of cols ops = relevant_of cols ops' -> (length (relevant_of cols ops) <> 1 \/ length cols = 1) ->
  over cols q -> in_state s q -> construct_safe unit st = Ok conditions -> construct_safe unit st' = Ok conditions' ->
  all_satisfied s conditions -> all_satisfied s conditions'.
Proof.
  intros L I I' E E' PN INC ER O OV IS C C' S0. destruct (safe_exact unit fit hull schmidt cols ops st s q L I E PN O OV IS) as (c & X & Y). rewrite C in X. injection X as <-.
  assert (PN' : points_of ops' <> []) by (intros Z; rewrite Z in INC; destruct (points_of ops) as [|p l]; [congruence|destruct (INC p (or_introl eq_refl))]).
  destruct (safe_exact unit fit hull schmidt cols ops' st' s q L I' E' PN') as (c' & X' & Y'); [rewrite <- ER; exact O|exact OV|exact IS|]. rewrite C' in X'. injection X' as <-.
  apply Y'. apply Y in S0. rewrite <- ER. destruct S0 as (ps & A & B). exists ps. split; [intros p P; apply INC, A, P|exact B].
Qed.
Lemma adding_total unit fit hull schmidt cols ops : exact_libraries unit fit hull schmidt -> inc_input unit fit cols ops -> (forall fs, ~ In (ResetTo fs) ops) ->
  done hull (run unit fit hull schmidt cols ops).
Proof. intros L I N. exact (add_total unit fit hull schmidt L cols ops I N). Qed.
Lemma resetting_total unit fit hull schmidt cols ops st fs : exact_libraries unit fit hull schmidt -> inc_input unit fit cols ops -> run unit fit hull schmidt cols ops = Ok st ->
  (i_hull st <> None /\ done hull (run unit fit hull schmidt cols (ops ++ [ResetTo fs]))) \/
  (i_hull st = None /\ run unit fit hull schmidt cols (ops ++ [ResetTo fs]) = Err AttributeError).
Proof. intros L I E. exact (reset_total unit fit hull schmidt L cols ops st fs I E). Qed.
Lemma inside_roughly unit fit hull schmidt cols ops st s q conditions : exact_libraries unit fit hull schmidt -> inc_input unit fit cols ops ->
  run unit fit hull schmidt cols ops = Ok st -> points_of ops <> [] -> (length (relevant_of cols ops) <> 1 \/ length cols = 1) -> over cols q -> in_state s q ->
  construct_safe unit st = Ok (Some conditions) -> is_point_in_convex_hull unit schmidt st q = Ok true -> forall t, In t conditions -> roughly s (EPSILON unit) t.
Proof. intros L I E. exact (inside_safe unit fit hull schmidt L cols ops st I E s q conditions). Qed.
Lemma inside_complete unit fit hull schmidt cols ops st q : exact_libraries unit fit hull schmidt -> inc_input unit fit cols ops ->
  run unit fit hull schmidt cols ops = Ok st -> (forall fs, ~ In (ResetTo fs) ops) -> over cols q ->
  exists b, is_point_in_convex_hull unit schmidt st q = Ok b /\ (mean_of (points_of ops) cols q -> b = true).
Proof. intros L I E N. exact (inside_total unit fit hull schmidt L cols ops st I E N (first_base unit fit hull schmidt L cols ops st I E N) q). Qed.
Lemma copy_exact unit fit hull schmidt cols ops st : exact_libraries unit fit hull schmidt -> inc_input unit fit cols ops ->
  run unit fit hull schmidt cols ops = Ok st -> points_of ops <> [] -> copy hull cols st = Ok st.
Proof. intros L I E. exact (copy_same unit fit hull schmidt L cols ops st I E). Qed.
