(** * What semi-online learning of numeric actions should say *)
From Verif Require Export OnumModel IncSpec SvmSpec NsamSpec TrainSpec.
Open Scope string_scope. Open Scope list_scope. Open Scope nat_scope.

(** ** Values of products *)
Definition named_terms (V : list term) : Prop := NoDup V /\ forall t, In t V -> arithmetic (fst t) = None /\ fst t <> "dummy".
Definition of_terms (V : list term) (degree : nat) (m : list term) : Prop := m <> [] /\ within_degree degree m /\ incl m V.
Definition product_value (st : NumSpec.state) (m : list term) : Q := product (map (term_value st) m).
(** All products of the functions have in [st] the value of the same weighted mean of some of the states. *)
Definition mean_state (V : list term) (degree : nat) (sts : list NumSpec.state) (st : NumSpec.state) : Prop :=
  exists qs ws, incl qs sts /\ length ws = length qs /\ Forall (Qle 0) ws /\ (fold_right Qplus 0%Q ws == 1)%Q /\
    forall m, of_terms V degree m -> (product_value st m == linear (map (fun q => product_value q m) qs) ws)%Q.

(** ** The input of one learner *)
(** The row that is recorded for a state, and the names of its columns. *)
Definition columns_of (le : text -> text -> bool) (V : list term) (degree : nat) : list text := map create_polynomial_string (create_monomials le (map term_text V) degree).
Definition state_sample (le : text -> text -> bool) (V : list term) (degree : nat) (st : NumSpec.state) : list (text * Q) :=
  create_grounded_monomials (create_monomials le (map term_text V) degree) (map (fun t => (term_text t, term_value st t)) V).
(** Products and their differences need no rounding; a regression over the recorded rows finds every affine relation. *)
Record numeric_input (unit : positive) fit le (V : list term) (degree : nat) (sts : list NumSpec.state) : Prop :=
  { nu_clean : forall st m, In st sts -> of_terms V degree m -> clean unit (product_value st m);
    nu_spaced : forall st st' m, In st sts -> In st' sts -> of_terms V degree m -> clean unit (product_value st m - product_value st' m);
    nu_fit : forall k d, f_cols d = columns_of le V degree -> stores d (map (state_sample le V degree) (firstn k sts)) -> complete_fit fit d }.
(** Transitions: the values before, and the values after if the action could be executed. *)
Definition successes (ts : list (fluents * option fluents)) : list fluents :=
  flat_map (fun t => match snd t with Some _ => [fst t] | None => [] end) ts.
Definition observed_pairs (ts : list (fluents * option fluents)) : list (fluents * fluents) :=
  flat_map (fun t => match snd t with Some post => [(fst t, post)] | None => [] end) ts.
Definition gives_values (V : list term) (fs : fluents) : Prop := forall t, In t V -> exists v, dict_get fs t = Some v.
Record onum_input (unit : positive) fit le (V : list term) (degree : nat) (ts : list (fluents * option fluents)) : Prop :=
  { oi_names : named_terms V;
    oi_values : forall t, In t ts -> gives_values V (fst t);
    oi_numeric : numeric_input unit fit le V degree (map fluents_state (successes ts)) }.

(** The labelled rows that the separating planes are computed from. *)
Definition labelled (le : text -> text -> bool) (V : list term) (degree : nat) (ts : list (fluents * option fluents)) : list (list Q * bool) :=
  map (fun t => (row_of (columns_of le V degree) (state_sample le V degree (fluents_state (fst t))), match snd t with Some _ => true | None => false end)) ts.

(** The table of the known failures. *)
Definition failure_table (o : onum) (cols : list text) (xs : list fluents) : frame := fold_left (add_numeric_failure o) xs (mk_frame cols []).

(** ** Training from traces *)
(** Calls of known actions; each state gives values to the functions that the action can mention. *)
Record online_input (unit : positive) fit le (dom : domain) (degree : nat) (traces : list (list ncomponent)) : Prop :=
  { ol_wf : wf_domain dom;
    ol_functions : proper_functions dom;
    ol_calls : forall cp, In cp (concat traces) -> good_arity dom (cp_call (nc_comp cp)) /\ no_constant_args dom (cp_call (nc_comp cp));
    ol_values : forall cp a, In cp (concat traces) -> dict_get (d_actions dom) (c_name (cp_call (nc_comp cp))) = Some a -> complete_fluents dom (a_sig a) cp;
    ol_numeric : forall n a, dict_get (d_actions dom) n = Some a ->
      numeric_input unit fit le (lifted_functions_vocabulary dom (a_sig a) None) degree (map (num_before (a_sig a)) (of_action n traces)) }.
(** The real actions. *)
Record real_numeric_actions (dom : domain) (degree : nat) (real : string -> option (action * numeric_part)) : Prop :=
  { rn_sig : forall n a, dict_get (d_actions dom) n = Some a -> exists r np, real n = Some (r, np) /\ a_sig r = a_sig a;
    rn_pre : forall n r np l, real n = Some (r, np) -> In l (a_pre r) -> mentionable dom (a_sig r) l;
    rn_eff : forall n r np l, real n = Some (r, np) -> In l (a_eff r) -> mentionable dom (a_sig r) l;
    rn_cons : forall n r np l, real n = Some (r, np) -> In l (a_eff r) -> ~ In (neg_lit l) (a_eff r);
    rn_part : forall n r np, real n = Some (r, np) -> expressible_part dom (a_sig r) degree None n np }.
(** A successful execution of a real action. *)
Definition real_success (dom : domain) (real : string -> option (action * numeric_part)) (cp : ncomponent) : Prop :=
  exists r np, real (c_name (cp_call (nc_comp cp))) = Some (r, np) /\
    let sg := call_assignment (a_sig r) (cp_call (nc_comp cp)) in
    (forall l, In l (a_pre r) -> lit_true (cp_prev (nc_comp cp)) (ground sg l)) /\
    is_result r sg (cp_prev (nc_comp cp)) (cp_next (nc_comp cp)) /\ real_numeric dom (a_sig r) np cp.

(** The literal was true before each of the executions. *)
Definition always_seen (dom : domain) (sig : signature) (cps : list ncomponent) (l : literal) : Prop :=
  mentionable dom sig l /\ forall cp, In cp cps -> lit_true (cp_prev (nc_comp cp)) (ground (call_assignment sig (cp_call (nc_comp cp))) l).

(** The call failed although every literal that held in all the earlier successes of the action held. *)
Definition failed_numerically (dom : domain) (n : string) (a : action) (before : list ncomponent) (cp : ncomponent) : Prop :=
  cp_ok (nc_comp cp) = false /\ NoDup (c_params (cp_call (nc_comp cp))) /\ c_name (cp_call (nc_comp cp)) = n /\
  forall l, always_seen dom (a_sig a) (of_action n [before]) l -> lit_true (cp_prev (nc_comp cp)) (ground (call_assignment (a_sig a) (cp_call (nc_comp cp))) l).
(** The classifier separates the successes and numeric failures that the learner of the action has. *)
Definition trained_separably le (unit : positive) svm (dom : domain) (degree : nat) (L : numeric_learners) (n : string) (a : action) : Prop :=
  forall st, dict_get L n = Some st -> let cols := columns_of le (lifted_functions_vocabulary dom (a_sig a) None) degree in
    separating unit svm (length cols) (table_points cols (om_svm (on_num st))).
(** The classifier is asked for a plane at least as often as there are failed states. *)
Definition enough_planes (limit : nat) (L : numeric_learners) (n : string) : Prop := forall st, dict_get L n = Some st -> negatives (om_svm (on_num st)) <= limit.

(** ** Exported actions *)
Definition export_applicable (e : exported) (sg : assignment) (s : Pddl.state) (g : NumSpec.state) : Prop :=
  (forall f, In f (ex_pre e) -> f_holds (fun l => lit_true s (ground sg l)) f) /\ (forall t, In t (ex_conditions e) -> satisfied (lifted_state sg g) t).
Definition export_after (e : exported) (sg : assignment) (s : Pddl.state) (p : string) (args : list string) : Prop :=
  (exists l, In l (ex_eff e) /\ l_pos l = true /\ ground sg l = mkLit p args true) \/
  (holds s p args /\ ~ exists l, In l (ex_eff e) /\ l_pos l = false /\ ground sg l = mkLit p args false).
(** Where the exported action is applicable the real one is, with the same result. *)
Definition safe_export (dom : domain) (r : action) (np : numeric_part) (e : exported) : Prop :=
  forall sg s g, injective_binding dom (a_sig r) sg -> export_applicable e sg s g ->
    (forall l, In l (a_pre r) -> lit_true s (ground sg l)) /\ num_applicable np (lifted_state sg g) /\
    (forall p args, export_after e sg s p args <-> after r sg s p args) /\
    (forall f args, gives (lifted_state sg g) (ex_effects e) f args (num_after np (lifted_state sg g) (f, args))).
