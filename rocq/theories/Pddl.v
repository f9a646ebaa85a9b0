(** * The part of pddl_plus_parser that the code base manipulates

    pddl_plus_parser 3.16.3 is an external library that is not part of /repo and
    not available here; these data types record what the code of /repo relies on. *)

From Verif Require Export Prelude.

(** [PDDLType]: its name and the names of its ancestors, nearest first. *)
Record ptype := mkType { t_name : string; t_ancestors : list string }.

#[export] Instance EqDec_ptype : EqDec ptype.
Proof. intros [a b] [c d]; destruct (eq_dec a c), (eq_dec b d); [left|right|right|right]; congruence. Defined.

(** [PDDLType.is_sub_type]: reflexive and transitive along the parent chain
    (external; used at sam_learning/core/vocabulary_creator.py:53, :173). *)
Definition is_sub_type (t other : ptype) : bool :=
  eqb (t_name t) (t_name other) || memb (t_name other) (t_ancestors t).

(** [PDDLType.__eq__]: types of one domain are the same iff they have the same name
    (used at sam_learning/learners/sam_learning.py:267). *)
Definition type_eqb (t other : ptype) : bool := eqb (t_name t) (t_name other).

(** [SignatureType]: insertion-ordered dict from parameter name to type. *)
Definition signature := list (string * ptype).

(** [PDDLObject] / [PDDLConstant]: name and type. *)
Definition pobject := (string * ptype)%type.

(** [Predicate] and [GroundedPredicate]: predicate name, arguments in order and polarity.
    For a lifted predicate the arguments are parameter or constant names
    ([Predicate.signature.keys()]), for a grounded one they are object names
    ([GroundedPredicate.grounded_objects], i.e. the values of [object_mapping]).
    Simplification: the types stored inside a predicate are dropped.  All lifted
    predicates of one action are built by the code from the same signature and
    constants, so equality including types is equality of name, arguments and polarity. *)
Record literal := mkLit { l_name : string; l_args : list string; l_pos : bool }.

#[export] Instance EqDec_literal : EqDec literal.
Proof.
  intros [a b c] [d e f]; destruct (eq_dec a d), (eq_dec b e), (eq_dec c f);
    [left|right|right|right|right|right|right|right]; congruence.
Defined.

(** [Predicate.copy(is_negated=...)] flips the polarity iff [is_negated]. *)
Definition copy_lit (is_negated : bool) (l : literal) : literal :=
  mkLit (l_name l) (l_args l) (xorb is_negated (l_pos l)).

(** [State.state_predicates]: maps the untyped representation of each lifted predicate to
    the set of its grounded instances that are true.  Simplification: the key is the
    predicate name (domain.predicates is keyed by it, so the two are in bijection), and an
    instance is its tuple of objects. *)
Definition state := list (string * list (list string)).

(** [ActionCall] *)
Record call := mkCall { c_name : string; c_params : list string }.
#[export] Instance EqDec_call : EqDec call.
Proof. intros [a b] [c d]; destruct (eq_dec a c), (eq_dec b d); [left|right|right|right]; congruence. Defined.

(** [ObservedComponent] *)
Record component := mkComp
  { cp_prev : state; cp_call : call; cp_next : state; cp_ok : bool }.

(** [Action]: discrete part.  [a_pre] is the set of literals in
    [preconditions.root.operands], [a_ineq] is [preconditions.root.inequality_preconditions],
    [a_eff] is [discrete_effects]. *)
Record action := mkAct
  { a_name : string; a_sig : signature; a_pre : list literal;
    a_ineq : list (string * string); a_eff : list literal }.

(** [Domain]: predicates, numeric functions, constants and actions. *)
Record domain := mkDom
  { d_preds : list (string * signature);
    d_funcs : list (string * signature);
    d_consts : list pobject;
    d_actions : list (string * action) }.

Definition set_actions (d : domain) (acts : list (string * action)) : domain :=
  mkDom (d_preds d) (d_funcs d) (d_consts d) acts.
