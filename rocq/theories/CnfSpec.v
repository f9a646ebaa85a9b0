(** * Specification: what a CNF of possible effects stands for *)
From Verif Require Export CnfModel.

(** A hypothesis about the effects: [R a l] when the action named [a] has the lifted effect [l]. *)
Definition effect_relation := string -> literal -> Prop.

(** What one observation says about the effects: some literal is not an effect of an action, or at least one
    of several (action, literal) pairs is. *)
Definition truthful (R : effect_relation) (o : cnf_op) : Prop :=
  match o with
  | op_not_effect a l => ~ R a l
  | op_possible_effect cl => exists a l, In (a, l) cl /\ R a l
  end.

(** [R] satisfies the clauses and the recorded non-effects. *)
Definition satisfies (R : effect_relation) (k : cnf) : Prop :=
  (forall cl, In cl (n_clauses k) -> exists a l, In (a, l) cl /\ R a l) /\
  (forall a ls l, dict_get (n_not k) a = Some ls -> In l ls -> ~ R a l).

(** Every operation names a known action. *)
Definition known_names (names : list string) (o : cnf_op) : Prop :=
  match o with
  | op_not_effect a _ => In a names
  | op_possible_effect cl => forall p, In p cl -> In (fst p) names
  end.

(** No clause mentions the action with two different literals. *)
Definition mentioned_once (k : cnf) (a : string) : Prop :=
  forall cl l l', In cl (n_clauses k) -> In (a, l) cl -> In (a, l') cl -> l = l'.
