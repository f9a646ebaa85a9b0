(** * Specification: typed STRIPS semantics

    Independent of the learner: what it means for a literal to hold, for an action to be
    applicable under an assignment of objects to parameters, and what the successor state is.
    States are compared by the atoms they contain. *)
From Verif Require Export Pddl.

(** The atom [name(args)] is true in the state. *)
Definition holds (s : state) (name : string) (args : list string) : Prop :=
  exists facts, dict_get s name = Some facts /\ In args facts.

(** A ground literal is true in a state (closed world). *)
Definition lit_true (s : state) (l : literal) : Prop :=
  if l_pos l then holds s (l_name l) (l_args l) else ~ holds s (l_name l) (l_args l).

(** An assignment of objects to parameters; constants denote themselves. *)
Definition assignment := string -> string.
Definition ground (sg : assignment) (l : literal) : literal :=
  mkLit (l_name l) (map sg (l_args l)) (l_pos l).

(** The opposite literal. *)
Definition neg_lit (l : literal) : literal := mkLit (l_name l) (l_args l) (negb (l_pos l)).

(** Applicability: all precondition literals hold and unequal parameters get different objects. *)
Definition applicable (a : action) (sg : assignment) (s : state) : Prop :=
  (forall l, In l (a_pre a) -> lit_true s (ground sg l)) /\
  (forall x y, In (x, y) (a_ineq a) -> sg x <> sg y).

(** [after a sg s n args]: the atom is true after executing [a] in [s]: it is added, or it was
    true and is not deleted. *)
Definition after (a : action) (sg : assignment) (s : state) (n : string) (args : list string) : Prop :=
  (exists l, In l (a_eff a) /\ l_pos l = true /\ ground sg l = mkLit n args true) \/
  (holds s n args /\ ~ exists l, In l (a_eff a) /\ l_pos l = false /\ ground sg l = mkLit n args false).

(** [s'] is the state reached by executing [a] in [s]. *)
Definition is_result (a : action) (sg : assignment) (s s' : state) : Prop :=
  forall n args, holds s' n args <-> after a sg s n args.

(** The assignment made by a call: the i-th parameter gets the i-th object. *)
Definition call_assignment (sig : signature) (c : call) : assignment :=
  fun x => match dict_get (combine (dict_keys sig) (c_params c)) x with Some o => o | None => x end.

(** A literal over pairwise distinct, correctly typed names taken from [names]
    (parameters and constants with their types). *)
Definition well_typed (dom : domain) (names : list pobject) (l : literal) : Prop :=
  exists psig objs,
    In (l_name l, psig) (d_preds dom) /\
    incl objs names /\ NoDup (map fst objs) /\ l_args l = map fst objs /\
    Forall2 (fun o p => is_sub_type (snd o) (snd p) = true) objs psig.

(** Literals that an action with this signature can mention. *)
Definition mentionable (dom : domain) (sig : signature) (l : literal) : Prop :=
  well_typed dom (sig ++ d_consts dom) l.

(** A real domain behind a partial domain: same actions and signatures, and every precondition and
    effect is a literal the action can mention. *)
Record real_domain (dom : domain) (real : string -> option action) : Prop :=
  { real_sig : forall n a, dict_get (d_actions dom) n = Some a ->
                 exists r, real n = Some r /\ a_sig r = a_sig a;
    real_pre : forall n r l, real n = Some r -> In l (a_pre r) -> mentionable dom (a_sig r) l;
    real_eff : forall n r l, real n = Some r -> In l (a_eff r) -> mentionable dom (a_sig r) l }.

(** A component that records a successful execution of the real action. *)
Definition real_transition (real : string -> option action) (cp : component) : Prop :=
  exists r, real (c_name (cp_call cp)) = Some r /\
    applicable r (call_assignment (a_sig r) (cp_call cp)) (cp_prev cp) /\
    is_result r (call_assignment (a_sig r) (cp_call cp)) (cp_prev cp) (cp_next cp).

(** Well-formed partial domains: dictionary keys are unique, actions are stored under their own name,
    and no parameter has the name of a constant (parameters start with '?'). *)
Record wf_domain (dom : domain) : Prop :=
  { wf_acts : NoDup (dict_keys (d_actions dom));
    wf_names : forall n a, In (n, a) (d_actions dom) -> a_name a = n;
    wf_sigs : forall n a, In (n, a) (d_actions dom) -> NoDup (dict_keys (a_sig a));
    wf_consts : NoDup (dict_keys (d_consts dom));
    wf_disj : forall n a x, In (n, a) (d_actions dom) -> In x (dict_keys (a_sig a)) -> ~ In x (dict_keys (d_consts dom)) }.

(** Nothing has been learned yet. *)
Definition blank_domain (dom : domain) : Prop :=
  forall n a, In (n, a) (d_actions dom) -> a_pre a = [] /\ a_ineq a = [] /\ a_eff a = [].

(** A call of the right arity. *)
Definition good_arity (dom : domain) (c : call) : Prop :=
  exists a, dict_get (d_actions dom) (c_name c) = Some a /\ length (c_params c) = length (a_sig a).

(** No object of the call is a constant of the domain. *)
Definition no_constant_args (dom : domain) (c : call) : Prop :=
  forall o, In o (c_params c) -> ~ In o (dict_keys (d_consts dom)).

(** The components that the learner may learn from: successful, no object repeated. *)
Definition learnable (cp : component) : Prop := cp_ok cp = true /\ NoDup (c_params (cp_call cp)).
