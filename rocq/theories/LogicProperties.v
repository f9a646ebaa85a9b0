(** * Properties C25, C26, C28: candidate antecedents and restrictive preconditions *)
From Verif Require Import Prelude PreludeProofs LogicModel LogicSpec LogicProofs DepModel DepSpec DepProofs.

(** ** C25 *)

(** Every returned set is a non-empty set of at most [k] literals, none excluded; and every such set is
    returned exactly once. *)
Theorem C25_combinations_complete (literals : list string) (k : nat) (excluded : option (list string)) :
  NoDup literals ->
  (forall X, In X (create_cnf_combination literals k excluded) ->
     NoDup X /\ incl X literals /\ 1 <= length X <= k /\
     forall e, excluded = Some e -> forall x, In x X -> ~ In x e) /\
  (forall X, NoDup X -> incl X literals -> 1 <= length X <= k ->
     (forall e, excluded = Some e -> forall x, In x X -> ~ In x e) ->
     length (filter (set_eqb X) (create_cnf_combination literals k excluded)) = 1).
Proof. exact (cnf_combination_spec literals k excluded). Qed.
Print Assumptions C25_combinations_complete.

(** ** C26 *)

(** Minimisation of non-empty clauses: the only exception is ValueError, raised only when no valuation satisfies
    the assumptions and the clauses; otherwise the result has the meaning of the input in every valuation
    that satisfies the assumptions, and is not larger. *)
Theorem C26_minimize_preserves_meaning (clauses : list (list string)) (assumptions : list string) :
  (forall c x, In c clauses -> In x c -> plain_literal x) ->
  (forall x, In x assumptions -> plain_literal x) ->
  (forall c, In c clauses -> c <> []) ->
  (exists out used, minimize_cnf_clauses clauses assumptions = Ok (out, used) /\
     size_of out <= size_of clauses /\ (forall c x, In c out -> In x c -> plain_literal x) /\
     (forall c, In c out -> c <> []) /\ (forall c, In c out -> exists c0, In c0 clauses /\ incl c c0) /\
     (forall v, conj_holds (text_holds v) assumptions ->
        (cnf_holds (text_holds v) out <-> cnf_holds (text_holds v) clauses))) \/
  (minimize_cnf_clauses clauses assumptions = Err ValueError /\
     forall v, conj_holds (text_holds v) assumptions -> ~ cnf_holds (text_holds v) clauses).
Proof. exact (minimize_text clauses assumptions). Qed.
Print Assumptions C26_minimize_preserves_meaning.

(** The CNF of the negation holds exactly where none of the DNF formulas holds. *)
Theorem C26_negation_to_cnf (formulas : list (list (list string))) (v : string -> bool) :
  (forall d c x, In d formulas -> In c d -> In x c -> plain_literal x) ->
  (cnf_holds (text_holds v) (negate_and_convert_to_cnf formulas) <->
   forall d, In d formulas -> ~ dnf_holds (text_holds v) d).
Proof. exact (negate_spec plain_literal (text_holds v) (text_truth v) formulas). Qed.
Print Assumptions C26_negation_to_cnf.

(** Two literals of a set are found complementary iff some literal and its negation are in the set. *)
Theorem C26_complementary_exact (clause : list string) :
  (forall x, In x clause -> plain_literal x) ->
  exists b, check_complementary_literals clause = Ok b /\
    (b = true <-> exists name args, In (lit_text (atom_text name args) true) clause /\
                                    In (lit_text (atom_text name args) false) clause /\ plain_atom name args).
Proof. exact (check_text clause). Qed.
Print Assumptions C26_complementary_exact.

(** ** C28 *)

(** For a literal not known to be an effect: in every state that satisfies the preconditions, the constructed
    condition holds exactly when the literal already holds or none of its candidate antecedents holds.
    Construction never fails. *)
Theorem C28_restrictive_precondition (flatten : bool) (D : depset string) (pre : list string) (literal : string)
  (cands : list (list string)) :
  dict_get (possible D) literal = Some cands ->
  (forall c, In c cands -> c <> [] /\ forall x, In x c -> plain_literal x) ->
  plain_literal literal -> (forall x, In x pre -> plain_literal x) ->
  exists r, construct_restrictive_preconditions flatten D pre literal false = Ok r /\
    forall v, conj_holds (text_holds v) pre ->
      (cond_holds (text_holds v) r <-> text_holds v literal \/ ~ dnf_holds (text_holds v) cands).
Proof. exact (restrictive_text flatten D pre literal cands). Qed.
Print Assumptions C28_restrictive_precondition.

(** For a literal that was observed as an effect the condition additionally admits the states in which all the
    literals of all the candidates hold. *)
Theorem C28_restrictive_precondition_of_effect (flatten : bool) (D : depset string) (pre : list string) (literal : string)
  (cands : list (list string)) :
  dict_get (possible D) literal = Some cands ->
  (forall c, In c cands -> c <> [] /\ forall x, In x c -> plain_literal x) ->
  plain_literal literal -> (forall x, In x pre -> plain_literal x) ->
  exists r, construct_restrictive_preconditions flatten D pre literal true = Ok r /\
    forall v, conj_holds (text_holds v) pre ->
      (cond_holds (text_holds v) r <->
       text_holds v literal \/ ~ dnf_holds (text_holds v) cands \/
       forall c x, In c cands -> In x c -> text_holds v x).
Proof. exact (restrictive_text_effect flatten D pre literal cands). Qed.
Print Assumptions C28_restrictive_precondition_of_effect.
