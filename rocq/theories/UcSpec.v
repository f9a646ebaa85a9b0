(** * Specification: what a history says about quantified effects

    Independent of the learner.  A history is a list of components, each with the objects of its trajectory. *)
From Verif Require Export CondSpec UcModel.

Definition entry : Type := list pobject * component.
Definition entry_call (e : entry) : call := cp_call (snd e).
Definition components (h : list entry) : list component := map snd h.

(** The objects of exactly the named type that the call does not use. *)
Definition other_objects (tn : string) (e : entry) : list string :=
  map fst (filter (fun o => String.eqb (t_name (snd o)) tn && negb (memb (fst o) (c_params (entry_call e)))) (fst e)).
(** The component seen with one more argument. *)
Definition at_object (cp : component) (o : string) : component :=
  mkComp (cp_prev cp) (mkCall (c_name (cp_call cp)) (c_params (cp_call cp) ++ [o])) (cp_next cp) (cp_ok cp).
(** Everything the history says about one further object of the type. *)
Definition instances (tn : string) (h : list entry) : list component :=
  flat_map (fun e => map (at_object (snd e)) (other_objects tn e)) h.

(** The objects in view: the arguments of the call and the objects of the quantified types. *)
Definition in_view (names : list string) (e : entry) : list pobject :=
  filter (fun o => memb (fst o) (c_params (entry_call e)) || memb (t_name (snd o)) names) (fst e).

(** Inputs: no constants, types with distinct names, quantified types that the domain declares, calls on pairwise distinct
    objects of exactly the declared types, and at most one further object in every change in view. *)
Record good_universal (dom : domain) (types : list (string * ptype)) (umap : list (string * list string)) (h : list entry) : Prop :=
  { gu_consts : d_consts dom = [];
    gu_types : NoDup (dict_keys types);
    gu_tname : forall tn t, In (tn, t) types -> t_name t = tn;
    gu_map : forall e, In e h -> exists names, dict_get umap (c_name (entry_call e)) = Some names /\
               forall tn, In tn names -> tn <> "object"%string /\ tn <> ""%string /\ In tn (dict_keys types);
    gu_arity : forall e, In e h -> good_arity dom (entry_call e);
    gu_distinct : forall e, In e h -> NoDup (c_params (entry_call e));
    gu_objs : forall e, In e h -> NoDup (dict_keys (fst e));
    gu_params : forall e a, In e h -> dict_get (d_actions dom) (c_name (entry_call e)) = Some a ->
                  incl (combine (c_params (entry_call e)) (map snd (a_sig a))) (fst e);
    gu_quant : forall e names o t, In e h -> dict_get umap (c_name (entry_call e)) = Some names ->
                 In (o, t) (fst e) -> In (t_name t) names -> In (t_name t, t) types;
    gu_one : forall e names l, In e h -> dict_get umap (c_name (entry_call e)) = Some names ->
               well_typed dom (in_view names e) l -> lit_true (cp_next (snd e)) l -> ~ lit_true (cp_prev (snd e)) l ->
               forall o o', In o (l_args l) -> In o' (l_args l) -> ~ In o (c_params (entry_call e)) ->
                            ~ In o' (c_params (entry_call e)) -> o = o' }.

(** A literal about the further object. *)
Definition quantified_literal (dom : domain) (sig : signature) (x : string) (l : literal) : Prop :=
  mentionable dom sig l /\ In x (l_args l).

(** ** Candidates that remain when the literals [P] are taken for granted *)
Section Given.
Variables (dom : domain) (sig : signature) (max : nat) (cps : list component) (n : string) (P : list literal).
Definition candidate_given (l : literal) (c : list literal) : Prop :=
  antecedents dom sig max c /\ explains sig cps n l c /\ forall x, In x c -> ~ In x P.
Definition none_given (l : literal) : Prop := forall c, ~ candidate_given l c.
Definition only_given (l : literal) (c : list literal) : Prop :=
  candidate_given l c /\ forall d, candidate_given l d -> same_sets d c.
Definition several_given (l : literal) : Prop :=
  exists c d, candidate_given l c /\ candidate_given l d /\ ~ same_sets c d.
End Given.

(** The literals of the conditional part that the learner takes for granted. *)
Definition granted (lb : lib) (k : cact) : list literal :=
  if lib_nested lb then flat_map form_literals (k_root k) else same_level (k_root k).

(** ** Meaning of a learned action *)
Definition bind_to (sg : assignment) (x o : string) : assignment := fun y => if eq_dec y x then o else sg y.
Definition effects_for (u : uact) (tn : string) : list (string * list (list literal * list literal)) :=
  map (fun q => (fst (fst q), snd q)) (filter (fun q => String.eqb (snd (fst q)) tn) (ua_eff u)).
Definition conditions_for (u : uact) (tn : string) : list (form literal) :=
  flat_map snd (filter (fun q => String.eqb (snd (fst q)) tn) (ua_pre u)).
Definition rules_of (effs : list (list literal * list literal)) : list crule :=
  flat_map (fun e => map (mkRule (fst e)) (snd e)) effs.

(** What the learner says about one quantified type, in terms of the observations alone: its effects are the observed
    ones with their explanation as antecedents; its conditions forbid the states in which several explanations disagree. *)
Record learned_universal (lb : lib) (dom : domain) (max : nat) (h : list entry) (n : string) (sig : signature)
    (tn x : string) (t : ptype) (u : uact) (effs : list (list literal * list literal)) : Prop :=
  { lu_cases : forall l, quantified_literal dom (sig ++ [(x, t)]) x l ->
      none_given dom (sig ++ [(x, t)]) max (instances tn h) n (granted lb (ua_k u)) l \/
      (exists c, only_given dom (sig ++ [(x, t)]) max (instances tn h) n (granted lb (ua_k u)) l c) \/
      several_given dom (sig ++ [(x, t)]) max (instances tn h) n (granted lb (ua_k u)) l;
    lu_fires : forall s sg l, fires (rules_of effs) s sg l <->
      In x (l_args l) /\ observed_effect dom (sig ++ [(x, t)]) (instances tn h) n l /\
      (none_given dom (sig ++ [(x, t)]) max (instances tn h) n (granted lb (ua_k u)) l \/
       (exists c, only_given dom (sig ++ [(x, t)]) max (instances tn h) n (granted lb (ua_k u)) l c /\ conj_holds (lit_at s sg) c) \/
       (several_given dom (sig ++ [(x, t)]) max (instances tn h) n (granted lb (ua_k u)) l /\
        forall c, candidate_given dom (sig ++ [(x, t)]) max (instances tn h) n (granted lb (ua_k u)) l c -> conj_holds (lit_at s sg) c));
    lu_pre : lib_nested lb = false -> forall s sg, conj_holds (lit_at s sg) (granted lb (ua_k u)) ->
      ((forall f, In f (conditions_for u tn) -> f_holds (lit_at s sg) f) <->
       (forall l, quantified_literal dom (sig ++ [(x, t)]) x l ->
          several_given dom (sig ++ [(x, t)]) max (instances tn h) n (granted lb (ua_k u)) l ->
          lit_at s sg l \/
          (forall c, candidate_given dom (sig ++ [(x, t)]) max (instances tn h) n (granted lb (ua_k u)) l c -> ~ conj_holds (lit_at s sg) c) \/
          (observed_effect dom (sig ++ [(x, t)]) (instances tn h) n l /\
           forall c, candidate_given dom (sig ++ [(x, t)]) max (instances tn h) n (granted lb (ua_k u)) l c -> conj_holds (lit_at s sg) c))) }.

(** What a learned action is: its conditional part is what the conditional learner makes of the components alone, and it has
    for every quantified type a fresh parameter, one quantified effect and conditions as above, and nothing else. *)
Record learned_quantified (lb : lib) (dom : domain) (types : list (string * ptype)) (umap : list (string * list string)) (inj : bool)
    (max : nat) (h : list entry) (n : string) (a0 : action) (u : uact) : Prop :=
  { lq_cond : learned_conditional lb dom inj max (components h) n a0 (ua_k u);
    lq_vocab : forall f l, In f (k_root (ua_k u)) -> In l (form_literals f) -> mentionable dom (a_sig a0) l;
    lq_granted : lib_nested lb = false -> forall l, In l (granted lb (ua_k u)) <-> always_before dom (a_sig a0) (components h) n l;
    lq_types : forall names tn t, dict_get umap n = Some names -> In tn names -> In (tn, t) types ->
      exists x effs, create_additional_parameter_name (dict_keys (a_sig a0)) tn = Ok x /\ ~ In x (dict_keys (a_sig a0)) /\
        effects_for u tn = [(x, effs)] /\ (forall q, In q (ua_pre u) -> snd (fst q) = tn -> fst (fst q) = x) /\
        learned_universal lb dom max h n (a_sig a0) tn x t u effs;
    lq_only : forall tn, In tn (map (fun q => snd (fst q)) (ua_pre u)) \/ In tn (map (fun q => snd (fst q)) (ua_eff u)) ->
      exists names, dict_get umap n = Some names /\ In tn names }.

(** ** Real actions with quantified rules *)

(** Ordinary rules, and for every type the rules applied to each object of exactly that type, written with the parameter
    [w_param tn] for the object. *)
Record uaction := mkUA { w_base : caction; w_param : string -> string; w_rules : string -> list crule }.

(** The ground literals made true by one execution. *)
Definition u_fires (w : uaction) (objs : list pobject) (s : state) (sg : assignment) (g : literal) : Prop :=
  (exists l, fires (q_rules (w_base w)) s sg l /\ ground sg l = g) \/
  (exists o t l, In (o, t) objs /\ fires (w_rules w (t_name t)) s (bind_to sg (w_param w (t_name t)) o) l /\
                 ground (bind_to sg (w_param w (t_name t)) o) l = g).
Definition u_after (w : uaction) (objs : list pobject) (s : state) (sg : assignment) (p : string) (args : list string) : Prop :=
  u_fires w objs s sg (mkLit p args true) \/ (holds s p args /\ ~ u_fires w objs s sg (mkLit p args false)).

(** A real domain with such actions: the ordinary rules as for conditional effects; the quantified ones make literals about
    the further object true, with at most [max] antecedents and one set of them per literal. *)
Record real_universal (dom : domain) (types : list (string * ptype)) (max : nat) (real : string -> option uaction) : Prop :=
  { ru_base : real_conditional dom max (fun n => option_map w_base (real n));
    ru_name : forall n w tn t, real n = Some w -> In (tn, t) types ->
                create_additional_parameter_name (dict_keys (q_sig (w_base w))) tn = Ok (w_param w tn);
    ru_types : forall n w tn r, real n = Some w -> In r (w_rules w tn) -> In tn (dict_keys types);
    ru_then : forall n w tn t r, real n = Some w -> In (tn, t) types -> In r (w_rules w tn) ->
                quantified_literal dom (q_sig (w_base w) ++ [(w_param w tn, t)]) (w_param w tn) (r_then r);
    ru_when : forall n w tn t r y, real n = Some w -> In (tn, t) types -> In r (w_rules w tn) -> In y (r_when r) ->
                mentionable dom (q_sig (w_base w) ++ [(w_param w tn, t)]) y;
    ru_size : forall n w tn r, real n = Some w -> In r (w_rules w tn) -> NoDup (r_when r) /\ length (r_when r) <= max;
    ru_one : forall n w tn r r', real n = Some w -> In r (w_rules w tn) -> In r' (w_rules w tn) -> r_then r = r_then r' ->
                same_sets (r_when r) (r_when r') }.
(** No literal is made both true and false. *)
Definition consistent (w : uaction) (objs : list pobject) (s : state) (sg : assignment) : Prop :=
  forall g, u_fires w objs s sg g -> ~ u_fires w objs s sg (neg_lit g).
(** All the quantified rules of an action range over types that the learner was told about and that no parameter has. *)
Definition told (dom : domain) (umap : list (string * list string)) (real : string -> option uaction) : Prop :=
  forall n w tn, real n = Some w -> w_rules w tn <> [] ->
    (exists names, dict_get umap n = Some names /\ In tn names) /\
    forall y t, In (y, t) (q_sig (w_base w)) -> t_name t <> tn.

(** The entry records a real execution. *)
Definition real_universal_step (real : string -> option uaction) (e : entry) : Prop :=
  exists w, real (c_name (entry_call e)) = Some w /\
    let sg := call_assignment (q_sig (w_base w)) (entry_call e) in
    let s := cp_prev (snd e) in
    (forall l, In l (q_pre (w_base w)) -> lit_at s sg l) /\
    consistent w (fst e) s sg /\
    (forall p args, holds (cp_next (snd e)) p args <-> u_after w (fst e) s sg p args).

(** A learned action as an action with quantified rules, and where it is applicable. *)
Definition as_uaction (u : uact) : uaction :=
  mkUA (mkCA (k_sig (ua_k u)) [] (k_rules (ua_k u)))
       (fun tn => match effects_for u tn with (x, _) :: _ => x | [] => ""%string end)
       (fun tn => flat_map (fun q => rules_of (snd q)) (effects_for u tn)).
Definition u_applicable (u : uact) (objs : list pobject) (s : state) (sg : assignment) : Prop :=
  k_applicable (ua_k u) s sg /\
  forall q o t f, In q (ua_pre u) -> In (o, t) objs -> t_name t = snd (fst q) -> In f (snd q) ->
    f_holds (lit_at s (bind_to sg (fst (fst q)) o)) f.

(** A literal about a further object that never became true, with one explanation left that could still happen. *)
Definition unseen_quantified (dom : domain) (sig : signature) (max : nat) (cps : list component) (n : string) (P : list literal)
    (x : string) (l : literal) : Prop :=
  quantified_literal dom sig x l /\ ~ observed_effect dom sig cps n l /\
  exists c, only_given dom sig max cps n P l c /\ ~ In l c /\ forall y, In y c -> ~ In (neg_lit y) P.
