(** * What Numeric SAM should learn *)
From Coq Require Import ListDec.
From Verif Require Export NsamModel RegSpec SamSpec.
Open Scope string_scope. Open Scope list_scope. Open Scope nat_scope.

(** ** Numeric actions *)
(** A function applied to different names of the right types, as in "(fuel ?x)". *)
Definition num_mentionable (dom : domain) (sig : signature) (t : term) : Prop :=
  exists fsig objs, In (fst t, fsig) (d_funcs dom) /\ incl objs (sig ++ d_consts dom) /\ NoDup (map fst objs) /\ snd t = map fst objs /\
    Forall2 (fun o p => is_sub_type (snd o) (snd p) = true) objs fsig.
(** A numeric state gives a value to each function term.  An assignment of objects turns a state into values of lifted terms. *)
Definition lifted_state (sg : assignment) (g : NumSpec.state) : NumSpec.state := fun f args => g f (map sg args).
Definition fluents_state (fs : fluents) : NumSpec.state := fun f args => match dict_get fs (f, args) with Some v => v | None => 0%Q end.
Definition term_value (st : NumSpec.state) (t : term) : Q := st (fst t) (snd t).
(** Sums of coefficients times products of terms. *)
Definition polynomial := list (Q * list term).
Definition polynomial_value (st : NumSpec.state) (p : polynomial) : Q :=
  fold_right (fun cm s => (fst cm * product (map (term_value st) (snd cm)) + s)%Q) 0%Q p.
(** A condition compares a polynomial with zero; an effect gives its value to a term. *)
Inductive relation := at_most_zero | below_zero | equal_to_zero.
Definition stands (r : relation) (v : Q) : Prop :=
  match r with at_most_zero => (v <= 0)%Q | below_zero => (v < 0)%Q | equal_to_zero => (v == 0)%Q end.
Record numeric_part := mk_numeric_part { np_pre : list (polynomial * relation); np_eff : list (term * polynomial) }.
Definition num_applicable (np : numeric_part) (st : NumSpec.state) : Prop :=
  forall p r, In (p, r) (np_pre np) -> stands r (polynomial_value st p).
Definition num_after (np : numeric_part) (st : NumSpec.state) (t : term) : Q :=
  match dict_get (np_eff np) t with Some p => polynomial_value st p | None => term_value st t end.

(** ** What the learner can express *)
(** Degree 1 allows products of two different terms. *)
Definition within_degree (degree : nat) (m : list term) : Prop :=
  match degree with 0 => length m <= 1 | 1 => length m <= 2 /\ NoDup m | _ => length m <= degree end.
Fixpoint product_text (m : list text) : text :=
  match m with [] => [] | [f] => f | f :: m => LP :: Sym "*" :: f ++ product_text m ++ [RP] end.
(** The fluents that the user lists for an action; without a list all of them count. *)
Definition counts (relevant : option (list (string * list text))) (n : string) (t : text) : Prop :=
  match relevant with None => True | Some m => exists fs, dict_get m n = Some fs /\ In t fs end.
Definition tracked (dom : domain) (sig : signature) (degree : nat) (m : list term) : Prop :=
  m <> [] /\ within_degree degree m /\ forall t, In t m -> num_mentionable dom sig t.
Definition expressible (dom : domain) (sig : signature) (degree : nat) (relevant : option (list (string * list text))) (n : string) (p : polynomial) : Prop :=
  forall c m, In (c, m) p -> m = [] \/
    (tracked dom sig degree m /\ forall m', Permutation m m' -> counts relevant n (product_text (map term_text m'))).
Definition expressible_part (dom : domain) (sig : signature) (degree : nat) (relevant : option (list (string * list text))) (n : string) (np : numeric_part) : Prop :=
  (forall p r, In (p, r) (np_pre np) -> expressible dom sig degree relevant n p) /\
  (forall t p, In (t, p) (np_eff np) -> num_mentionable dom sig t /\ counts relevant n (term_text t) /\ expressible dom sig degree relevant n p).

(** ** Observations *)
Definition comps (obs : list (list ncomponent)) : list (list component) := map (map nc_comp) obs.
(** The successful observations of the action in which no object is repeated. *)
Definition nevidence (obs : list (list ncomponent)) (n : string) (cp : ncomponent) : Prop :=
  In cp (concat obs) /\ learnable (nc_comp cp) /\ c_name (cp_call (nc_comp cp)) = n.
(** The values of the lifted terms before and after. *)
Definition num_before (sig : signature) (cp : ncomponent) : NumSpec.state := lifted_state (call_assignment sig (cp_call (nc_comp cp))) (fluents_state (nc_prev cp)).
Definition num_behind (sig : signature) (cp : ncomponent) : NumSpec.state := lifted_state (call_assignment sig (cp_call (nc_comp cp))) (fluents_state (nc_next cp)).
(** Every term that the action can mention has a value. *)
Definition complete_fluents (dom : domain) (sig : signature) (cp : ncomponent) : Prop :=
  forall t, num_mentionable dom sig t -> forall fs, fs = nc_prev cp \/ fs = nc_next cp ->
    exists v, dict_get fs (fst t, map (call_assignment sig (cp_call (nc_comp cp))) (snd t)) = Some v.
(** The observation follows the numeric part of the real action. *)
Definition real_numeric (dom : domain) (sig : signature) (np : numeric_part) (cp : ncomponent) : Prop :=
  num_applicable np (num_before sig cp) /\
  forall t, num_mentionable dom sig t -> (term_value (num_behind sig cp) t == num_after np (num_before sig cp) t)%Q.
(** Names of functions are not arithmetic operators, and "dummy" is reserved. *)
Definition proper_functions (dom : domain) : Prop := forall f fsig, In (f, fsig) (d_funcs dom) -> arithmetic f = None /\ f <> "dummy".

(** ** External mathematics: results are exact *)
Record exact_oracles (unit fine : positive) (fit : list (list Q) -> list Q -> list Q * Q * bool) (hull : list (list Q) -> option (list (list Q) * list Q))
    (gram : list (list Q) -> list (list Q)) (complement : nat -> list (list Q) -> list (list Q)) : Prop :=
  { eo_unit : (1 # unit < 1)%Q;
    eo_fine : exists k, fine = (unit * k)%positive;
    eo_fit : exact_regression unit fit;
    eo_hull : exact_hull unit hull;
    eo_complete : complete_hull hull;
    eo_basis : exact_basis unit gram complement;
    eo_span : complete_basis gram complement }.
(** Observed products need no rounding. *)
Definition clean_values (unit : positive) (dom : domain) (sig : signature) (degree : nat) (cp : ncomponent) : Prop :=
  forall m, tracked dom sig degree m -> clean unit (product (map (term_value (num_before sig cp)) m)).

(** ** Runs *)
(** The input of a run: a well-formed domain with functions and no learned parts; each successful observation calls a known action
    and gives values to the functions that the action can mention. *)
Record nsam_input (dom : domain) (obs : list (list ncomponent)) : Prop :=
  { in_wf : wf_domain dom;
    in_blank : blank_domain dom;
    in_functions : proper_functions dom;
    in_numeric : d_funcs dom <> [];
    in_calls : good_calls dom (concat (comps obs));
    in_constants : no_constant_calls dom (concat (comps obs));
    in_complete : forall n a0 cp, dict_get (d_actions dom) n = Some a0 -> nevidence obs n cp -> complete_fluents dom (a_sig a0) cp }.
(** The observations of the action follow its real numeric part and their products need no rounding. *)
Definition real_observations (unit : positive) (dom : domain) (sig : signature) (degree : nat) (np : numeric_part) (obs : list (list ncomponent)) (n : string) : Prop :=
  forall cp, nevidence obs n cp -> real_numeric dom sig np cp /\ clean_values unit dom sig degree cp.
(** A function with different names of parameters and constants, whatever their types. *)
Definition nameable (dom : domain) (sig : signature) (l : term) : Prop :=
  exists fsig, In (fst l, fsig) (d_funcs dom) /\ length (snd l) = length fsig /\ NoDup (snd l) /\ incl (snd l) (dict_keys sig ++ dict_keys (d_consts dom)).
(** The discrete conditions of the learned action and its numeric ones allow only what the real action allows, with the same result. *)
Definition safe_pair (dom : domain) (learned real : action) (conds : list text) (np : numeric_part) : Prop :=
  forall sg s g, injective_binding dom (a_sig real) sg -> applicable learned sg s -> (forall t, In t conds -> satisfied (lifted_state sg g) t) ->
    (forall l, In l (a_pre real) -> lit_true s (ground sg l)) /\ (forall p args, after learned sg s p args <-> after real sg s p args) /\
    num_applicable np (lifted_state sg g).
(** The observations that tell something about an action, in order. *)
Definition of_action (n : string) (obs : list (list ncomponent)) : list ncomponent :=
  filter (fun cp => cp_ok (nc_comp cp) && (if ListDec.NoDup_dec string_dec (c_params (cp_call (nc_comp cp))) then true else false) && String.eqb (c_name (cp_call (nc_comp cp))) n) (concat obs).
