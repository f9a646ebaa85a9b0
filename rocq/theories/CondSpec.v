(** * Specification: actions with conditional effects, and what a history says about antecedents

    Independent of the learner. *)
From Verif Require Export SamSpec DepSpec CondModel.

Definition lit_at (s : state) (sg : assignment) (l : literal) : Prop := lit_true s (ground sg l).

(** A rule: when all the antecedents hold the literal is made true.  An unconditional effect has no antecedents. *)
Record crule := mkRule { r_when : list literal; r_then : literal }.
Record caction := mkCA { q_sig : signature; q_pre : list literal; q_rules : list crule }.

Definition fires (rs : list crule) (s : state) (sg : assignment) (l : literal) : Prop :=
  exists r, In r rs /\ r_then r = l /\ forall x, In x (r_when r) -> lit_at s sg x.
(** The atom is true after the rules that fire in [s] have taken effect. *)
Definition c_after (rs : list crule) (s : state) (sg : assignment) (n : string) (args : list string) : Prop :=
  (exists l, fires rs s sg l /\ ground sg l = mkLit n args true) \/
  (holds s n args /\ ~ exists l, fires rs s sg l /\ ground sg l = mkLit n args false).

(** A real domain with conjunctive conditional effects: literals an action can mention, antecedent sets of at most
    [max] literals, one set per literal, and no state in which an action makes a literal both true and false. *)
Record real_conditional (dom : domain) (max : nat) (real : string -> option caction) : Prop :=
  { rc_sig : forall n a, dict_get (d_actions dom) n = Some a -> exists q, real n = Some q /\ q_sig q = a_sig a;
    rc_pre : forall n q l, real n = Some q -> In l (q_pre q) -> mentionable dom (q_sig q) l;
    rc_then : forall n q r, real n = Some q -> In r (q_rules q) -> mentionable dom (q_sig q) (r_then r);
    rc_when : forall n q r x, real n = Some q -> In r (q_rules q) -> In x (r_when r) -> mentionable dom (q_sig q) x;
    rc_size : forall n q r, real n = Some q -> In r (q_rules q) -> NoDup (r_when r) /\ length (r_when r) <= max;
    rc_one : forall n q r r', real n = Some q -> In r (q_rules q) -> In r' (q_rules q) -> r_then r = r_then r' ->
               same_sets (r_when r) (r_when r');
    rc_cons : forall n q sg s l, real n = Some q -> injective_binding dom (q_sig q) sg ->
               (forall x, In x (q_pre q) -> lit_at s sg x) ->
               fires (q_rules q) s sg l -> ~ fires (q_rules q) s sg (neg_lit l) }.

(** The component records a real execution. *)
Definition real_step (real : string -> option caction) (cp : component) : Prop :=
  exists q, real (c_name (cp_call cp)) = Some q /\
    let sg := call_assignment (q_sig q) (cp_call cp) in
    (forall x, In x (q_pre q) -> lit_at (cp_prev cp) sg x) /\
    (forall n args, holds (cp_next cp) n args <-> c_after (q_rules q) (cp_prev cp) sg n args).

(** Inputs: every component calls a known action with the right number of pairwise distinct objects, none a constant. *)
Definition good_history (dom : domain) (cps : list component) : Prop :=
  forall cp, In cp cps -> good_arity dom (cp_call cp) /\ NoDup (c_params (cp_call cp)) /\ no_constant_args dom (cp_call cp).

(** ** What a history says *)
Definition about (cps : list component) (n : string) (cp : component) : Prop :=
  In cp cps /\ c_name (cp_call cp) = n.

Section History.
Variables (dom : domain) (sig : signature) (max : nat) (cps : list component) (n : string).

Definition always_before (l : literal) : Prop :=
  mentionable dom sig l /\ forall cp, about cps n cp -> true_before sig cp l.
Definition observed_effect (l : literal) : Prop :=
  mentionable dom sig l /\ exists cp, about cps n cp /\ became_true sig cp l.
(** [c] can be the antecedents of [l]: whenever [l] was false afterwards some antecedent was false before, and
    whenever [l] became true all of them were true before. *)
Definition explains (l : literal) (c : list literal) : Prop :=
  forall cp, about cps n cp ->
    (~ true_after sig cp l -> exists x, In x c /\ ~ true_before sig cp x) /\
    (became_true sig cp l -> forall x, In x c -> true_before sig cp x).
Definition antecedents (c : list literal) : Prop :=
  NoDup c /\ (forall x, In x c -> mentionable dom sig x) /\ 1 <= length c <= max.
(** Candidates that say more than the literals that always held. *)
Definition candidate (l : literal) (c : list literal) : Prop :=
  antecedents c /\ explains l c /\ forall x, In x c -> ~ always_before x.

Definition no_candidate (l : literal) : Prop := forall c, ~ candidate l c.
Definition only_candidate (l : literal) (c : list literal) : Prop :=
  candidate l c /\ forall d, candidate l d -> same_sets d c.
Definition several_candidates (l : literal) : Prop :=
  exists c d, candidate l c /\ candidate l d /\ ~ same_sets c d.
(** A literal that never became true, with one explanation left that could still happen: it neither contains the
    literal itself nor contradicts what always held. *)
Definition unseen_guess (l : literal) : Prop :=
  mentionable dom sig l /\ ~ always_before l /\ ~ observed_effect l /\
  exists c, only_candidate l c /\ ~ In l c /\ forall x, In x c -> ~ always_before (neg_lit x).
(** A literal with several explanations next to one whose explanation is certain. *)
Definition lost_restriction (l : literal) : Prop :=
  mentionable dom sig l /\ ~ always_before l /\ observed_effect l /\ several_candidates l /\
  exists l' c, observed_effect l' /\ ~ always_before l' /\ only_candidate l' c.
End History.

(** ** Meaning of a learned action *)
Definition k_rules (k : cact) : list crule :=
  map (mkRule []) (k_eff k) ++ flat_map (fun e => map (mkRule (fst e)) (snd e)) (k_cond k).
Definition k_applicable (k : cact) (s : state) (sg : assignment) : Prop :=
  (forall f, In f (k_root k) -> f_holds (lit_at s sg) f) /\ (forall x y, In (x, y) (k_ineq k) -> sg x <> sg y).

(** What the learned action [k] is, in terms of the observations alone: its preconditions are the literals that always
    held plus, for every literal with several explanations, that it holds already, or cannot become true, or becomes
    true for certain; its effects are the observed ones, with their explanation as antecedents. *)
Record learned_conditional (lb : lib) (dom : domain) (inj : bool) (max : nat) (cps : list component) (n : string) (a0 : action) (k : cact) : Prop :=
  { lc_name : k_name k = n;
    lc_sig : k_sig k = a_sig a0;
    lc_ineq : k_ineq k = a_ineq (if inj then initial_inequalities a0 else a0);
    lc_always : forall l, always_before dom (a_sig a0) cps n l \/ ~ always_before dom (a_sig a0) cps n l;
    lc_observed : forall l, observed_effect dom (a_sig a0) cps n l \/ ~ observed_effect dom (a_sig a0) cps n l;
    lc_cases : forall l, mentionable dom (a_sig a0) l -> ~ always_before dom (a_sig a0) cps n l ->
      no_candidate dom (a_sig a0) max cps n l \/ (exists c, only_candidate dom (a_sig a0) max cps n l c) \/
      several_candidates dom (a_sig a0) max cps n l;
    lc_pre : forall s sg l, k_applicable k s sg -> always_before dom (a_sig a0) cps n l -> lit_at s sg l;
    lc_applicable : lib_nested lb = false -> forall s sg, k_applicable k s sg <->
      (forall x y, In (x, y) (k_ineq k) -> sg x <> sg y) /\
      (forall l, always_before dom (a_sig a0) cps n l -> lit_at s sg l) /\
      (forall l, mentionable dom (a_sig a0) l -> ~ always_before dom (a_sig a0) cps n l ->
         several_candidates dom (a_sig a0) max cps n l ->
         lit_at s sg l \/
         (forall c, candidate dom (a_sig a0) max cps n l c -> ~ conj_holds (lit_at s sg) c) \/
         (observed_effect dom (a_sig a0) cps n l /\
          forall c, candidate dom (a_sig a0) max cps n l c -> conj_holds (lit_at s sg) c));
    lc_fires : forall s sg l, fires (k_rules k) s sg l <->
      observed_effect dom (a_sig a0) cps n l /\ ~ always_before dom (a_sig a0) cps n l /\
      (no_candidate dom (a_sig a0) max cps n l \/
       (exists c, only_candidate dom (a_sig a0) max cps n l c /\ conj_holds (lit_at s sg) c) \/
       (several_candidates dom (a_sig a0) max cps n l /\
        (forall c, candidate dom (a_sig a0) max cps n l c -> conj_holds (lit_at s sg) c) /\
        ~ exists l' c, observed_effect dom (a_sig a0) cps n l' /\ ~ always_before dom (a_sig a0) cps n l' /\
                       only_candidate dom (a_sig a0) max cps n l' c)) }.
