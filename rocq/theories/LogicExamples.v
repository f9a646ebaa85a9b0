(** * Concrete cases for C25, C26, C28 and what fails without their hypotheses *)
From Verif Require Import Prelude PreludeProofs LogicModel LogicSpec LogicProofs DepModel DepSpec DepProofs LogicProperties.
Open Scope string_scope.
Open Scope list_scope.
Open Scope nat_scope.

Definition p := "(p ?x)". Definition q := "(q ?x ?y)". Definition r := "(at-goal ?y)". Definition z := "(done )".
Definition np := "(not (p ?x))". Definition nq := "(not (q ?x ?y))". Definition nr := "(not (at-goal ?y))".

Lemma plain_p : plain_literal p.  Proof. exists "p", ["?x"], true. repeat constructor. Qed.
Lemma plain_np : plain_literal np. Proof. exists "p", ["?x"], false. repeat constructor. Qed.
Lemma plain_q : plain_literal q.  Proof. exists "q", ["?x"; "?y"], true. repeat constructor. Qed.
Lemma plain_nq : plain_literal nq. Proof. exists "q", ["?x"; "?y"], false. repeat constructor. Qed.
Lemma plain_r : plain_literal r.  Proof. exists "at-goal", ["?y"], true. repeat constructor. Qed.
Lemma plain_nr : plain_literal nr. Proof. exists "at-goal", ["?y"], false. repeat constructor. Qed.
Lemma plain_z : plain_literal z.  Proof. exists "done", [], true. repeat constructor. Qed.
Ltac plain := let x := fresh "x" in let Hx := fresh "Hx" in
  intros x Hx; repeat (destruct Hx as [<-|Hx]; [auto using plain_p, plain_np, plain_q, plain_nq, plain_r, plain_nr, plain_z|]); destruct Hx.

(** C25: three literals, one excluded, at most two. *)
Example C25_case : NoDup [p; q; r] /\ create_cnf_combination [p; q; r] 2 (Some [q]) = [[p]; [r]; [p; r]]
  /\ length (create_cnf_combination [p; q; r; z] 3 None) = 14.
Proof. split; [repeat constructor; simpl; intuition discriminate|]. split; reflexivity. Qed.

(** C26: the hypotheses hold for clauses with a tautology, a clause satisfied by an assumption and one that shrinks. *)
Definition some_clauses : list (list string) := [[p]; [np; q; r]; [q; nq]; [z; r]].
Example C26_case :
  (forall c x, In c some_clauses -> In x c -> plain_literal x) /\ (forall x, In x [z] -> plain_literal x) /\
  (forall c, In c some_clauses -> c <> []) /\
  minimize_cnf_clauses some_clauses [z] = Ok ([[p]; [q; r]], [z; p]).
Proof.
  split. { intros c x Hc; repeat destruct Hc as [<-|Hc]; try (revert x; plain). destruct Hc. }
  split; [plain|]. split; [|reflexivity].
  intros c Hc; repeat destruct Hc as [<-|Hc]; try discriminate. destruct Hc.
Qed.
Example C26_case_contradiction :
  minimize_cnf_clauses [[p]; [np]] [] = Err ValueError /\
  minimize_cnf_clauses [[p; q]] [np; nq] = Err ValueError.
Proof. split; reflexivity. Qed.
Example C26_negation_case : negate_and_convert_to_cnf [[[p; nq]; [r]]] = [[np; q]; [nr]].
Proof. reflexivity. Qed.

(** Without the hypothesis that clauses are non-empty the meaning is not preserved: an empty clause is dropped. *)
Theorem C26_empty_clause_refuted : exists clauses out used,
  minimize_cnf_clauses clauses ([] : list string) = Ok (out, used) /\
  forall v, cnf_holds (text_holds v) out /\ ~ cnf_holds (text_holds v) clauses.
Proof.
  exists [[]], [], []. split; [reflexivity|]. intros v. split; [intros c []|].
  intros Hh. destruct (Hh []) as (x & [] & _). left; reflexivity.
Qed.
(** An argument with a hyphen makes the regular expression fail: AttributeError instead of a result. *)
Theorem C26_hyphenated_argument_refuted :
  check_complementary_literals ["(at truck-1 ?x)"; "(p ?x)"] = Err AttributeError /\
  minimize_cnf_clauses [["(at truck-1 ?x)"; "(p ?x)"]] [] = Err AttributeError.
Proof. split; reflexivity. Qed.
(** Negation is not recognised for predicates whose name starts with "not". *)
Theorem C26_not_prefixed_name_refuted :
  check_complementary_literals ["(nothing ?x)"; "(not (nothing ?x))"] = Ok false /\
  text_flip "(nothing ?x)" = "ing ?x".
Proof. split; reflexivity. Qed.

(** C28: two candidates {p, q} and {not r} for the literal z; precondition p. *)
Definition case_set : depset string := mkDep [(z, [[p; q]; [nr]]); (p, [[q]])] 2.
Example C28_case :
  dict_get (possible case_set) z = Some [[p; q]; [nr]] /\
  (forall c, In c [[p; q]; [nr]] -> c <> [] /\ forall x, In x c -> plain_literal x) /\
  plain_literal z /\ (forall x, In x [p] -> plain_literal x) /\
  construct_restrictive_preconditions false case_set [p] z false
    = Ok (Some (f_or [f_lit z; f_and [f_lit r; f_lit nq]])) /\
  construct_restrictive_preconditions false case_set [p] z true
    = Ok (Some (f_or [f_and [f_lit p; f_lit q; f_lit nr]; f_and [f_lit r; f_lit nq]; f_lit z])).
Proof.
  split; [reflexivity|]. split.
  { intros c Hc; repeat destruct Hc as [<-|Hc]; try (split; [discriminate|plain]). destruct Hc. }
  split; [apply plain_z|]. split; [plain|]. split; reflexivity.
Qed.
(** For a predicate named "not..." the construction fails, or the condition is a text that is no literal at all. *)
Theorem C28_not_prefixed_name_refuted : exists D literal pre,
  dict_get (possible D) literal = Some [["(nothing ?x)"]] /\
  construct_restrictive_preconditions false D [] literal false = Err AttributeError /\
  construct_restrictive_preconditions false D pre literal false = Ok (Some (f_lit "ing ?x")).
Proof. exists (mkDep [(p, [["(nothing ?x)"]])] 1), p, [np]. repeat split; reflexivity. Qed.
