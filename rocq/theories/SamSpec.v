(** * Specification vocabulary for statements about SAM learning *)
From Verif Require Export StripsSpec.

(** The components about action [n] that carry evidence: successful, no object repeated in the call. *)
Definition evidence (cps : list component) (n : string) (cp : component) : Prop :=
  In cp cps /\ learnable cp /\ c_name (cp_call cp) = n.

(** The literal, under the binding of the component's call, was true before / after. *)
Definition true_before (sig : signature) (cp : component) (l : literal) : Prop :=
  lit_true (cp_prev cp) (ground (call_assignment sig (cp_call cp)) l).
Definition true_after (sig : signature) (cp : component) (l : literal) : Prop :=
  lit_true (cp_next cp) (ground (call_assignment sig (cp_call cp)) l).
(** The component changed the literal's value to true. *)
Definition became_true (sig : signature) (cp : component) (l : literal) : Prop :=
  ~ true_before sig cp l /\ true_after sig cp l.

(** Inputs: every successful component calls a known action with the right number of objects. *)
Definition good_calls (dom : domain) (cps : list component) : Prop :=
  forall cp, In cp cps -> cp_ok cp = true -> good_arity dom (cp_call cp).
(** No call that is learned from mentions a constant of the domain. *)
Definition no_constant_calls (dom : domain) (cps : list component) : Prop :=
  forall cp, In cp cps -> learnable cp -> no_constant_args dom (cp_call cp).

(** All successful components come from the real domain. *)
Definition real_components (real : string -> option action) (cps : list component) : Prop :=
  forall cp, In cp cps -> cp_ok cp = true -> real_transition real cp.

(** Pairs of distinct parameters in signature order. *)
Definition before_in (sig : signature) (x y : string) : Prop :=
  exists p1 p2 p3, dict_keys sig = p1 ++ x :: p2 ++ y :: p3.
Definition same_type (sig : signature) (x y : string) : Prop :=
  exists tx ty, dict_get sig x = Some tx /\ dict_get sig y = Some ty /\ t_name tx = t_name ty.

(** An injective assignment to the parameters that avoids the constants. *)
Record injective_binding (dom : domain) (sig : signature) (sg : assignment) : Prop :=
  { ib_const : forall c, In c (dict_keys (d_consts dom)) -> sg c = c;
    ib_inj : forall x y, In x (dict_keys sig ++ dict_keys (d_consts dom)) ->
               In y (dict_keys sig ++ dict_keys (d_consts dom)) -> sg x = sg y -> x = y }.

(** The learned action is safe for the real one. *)
Definition safe_for (dom : domain) (learned real : action) : Prop :=
  forall sg s, injective_binding dom (a_sig real) sg -> applicable learned sg s ->
    (forall l, In l (a_pre real) -> lit_true s (ground sg l)) /\
    (forall n args, after learned sg s n args <-> after real sg s n args).
