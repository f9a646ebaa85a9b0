(** * Properties C75-C79: ESAM *)
From Verif Require Import EsamSpec EsamMerge EsamProofs EsamRun EsamFinal PreludeProofs.
Open Scope nat_scope.

(** C75.  Learning from any observation with a component stops, whatever the learner has recorded. *)
Theorem C75_learning_raises : forall numbers E obs, concat obs <> [] -> esam_learn numbers E obs = Err TypeError.
Proof. exact learn_raises. Qed.
Print Assumptions C75_learning_raises.

(** Learning from no component succeeds, reports every action as unobserved and, under every policy, forbids every
    action that can mention a literal. *)
Theorem C75_learning_nothing : forall numbers dom policy obs, wf_domain dom -> concat obs = [] ->
  exists E rep, esam_learn numbers (init_esam dom policy) obs = Ok (E, rep) /\
    forall n a, dict_get (d_actions dom) n = Some a ->
      In (n, v_unobserved) rep /\
      exists a', dict_get (d_actions (s_dom (e_sam E))) n = Some a' /\ a_sig a' = a_sig a /\
        ((exists l, mentionable dom (a_sig a) l) -> forall sg s, ~ applicable a' sg s).
Proof. exact learn_nothing. Qed.
Print Assumptions C75_learning_nothing.

(** C76.  Recording effects: one clause per changed literal of each transition of the action, made of the lifted
    literals that the call turns into it; the excluded literals are the ground ones that were false afterwards. *)
Theorem C76_recorded_effects : forall dom policy cps, wf_domain dom -> (forall cp, In cp cps -> good_arity dom (cp_call cp)) ->
  exists E, record_effects (init_esam dom policy) cps = Ok E /\ e_sam E = init_learner dom policy true /\
    forall n a, dict_get (d_actions dom) n = Some a -> exists cs no,
      dict_get (e_clauses E) n = Some cs /\ dict_get (e_cannot E) n = Some no /\
      (forall cp g, In cp cps -> c_name (cp_call cp) = n -> changed_literal dom (a_sig a) cp g ->
         exists cl, In cl cs /\ forall m, In m cl <-> names_it dom (a_sig a) (cp_call cp) g m) /\
      (forall cl, In cl cs -> exists cp g, In cp cps /\ c_name (cp_call cp) = n /\ changed_literal dom (a_sig a) cp g /\
         forall m, In m cl <-> names_it dom (a_sig a) (cp_call cp) g m) /\
      (forall g, In g no <-> exists cp, In cp cps /\ c_name (cp_call cp) = n /\ false_after dom (a_sig a) cp g).
Proof.
  intros dom policy cps W HA. destruct (record_spec dom policy cps W HA) as (E & H & [RS RE RK RN RR]). exists E. split; [exact H|]. split; [exact RS|].
  intros n a G. assert (K := dict_get_key _ _ _ G). assert (K1 := K). rewrite <- RK in K. rewrite <- RN in K1.
  apply dict_get_Some_iff in K. apply dict_get_Some_iff in K1. destruct K as (cs & Gc), K1 as (no & Gn). destruct (RR n a G) as [A B C].
  exists cs, no. do 2 (split; [assumption|]). split; [intros cp g; apply A; exact Gc|]. split; [intros cl; apply B; exact Gc|intros g; apply C; exact Gn].
Qed.
Print Assumptions C76_recorded_effects.

(** Every recorded clause contains an effect of the real action. *)
Theorem C76_clause_contains_effect : forall dom policy real cps E n a r cs cl,
  wf_domain dom -> real_domain dom real -> (forall cp, In cp cps -> good_arity dom (cp_call cp)) ->
  (forall cp, In cp cps -> real_transition real cp) ->
  record_effects (init_esam dom policy) cps = Ok E ->
  dict_get (d_actions dom) n = Some a -> real n = Some r -> dict_get (e_clauses E) n = Some cs -> In cl cs ->
  exists l, In l cl /\ In l (a_eff r).
Proof. exact clauses_true. Qed.
Print Assumptions C76_clause_contains_effect.

(** The formula built from the clauses has the choices of effects that satisfy all clauses once the excluded
    literals may be chosen freely. *)
Theorem C76_formula_meaning : forall E, (forall k, In k (dict_keys (e_clauses E)) -> In k (dict_keys (e_cannot E))) ->
  exists E', build_cnf_formulas E = Ok E' /\
    forall n cs, dict_get (e_clauses E) n = Some cs -> exists no f, dict_get (e_cannot E) n = Some no /\ dict_get (e_cnf E') n = Some f /\
      (forall v, satisfies v f <-> exists w, satisfies w cs /\ forall l, ~ In l no -> w l = v l) /\
      (forall l, occurs f l -> occurs cs l /\ ~ In l no).
Proof.
  intros E K. destruct (build_spec E K) as (E' & B & _ & _ & _ & F). exists E'. split; [exact B|]. intros n cs G.
  destruct (F n cs G) as (no & Gn & Gf). exists no, (implicates (forget no cs)). do 2 (split; [assumption|]). split.
  - intros v. rewrite implicates_meaning. apply forget_meaning.
  - intros l (cl & Hc & Hl). apply implicates_In in Hc. destruct Hc as [Hc _]. apply forget_In in Hc. destruct Hc as [H1 H2]. split; [exists cl; auto|auto].
Qed.
Print Assumptions C76_formula_meaning.

(** C77.  Merging parameters: two parameters get one representative exactly when a chain of shared positions in
    the chosen effects, free of literals that are not chosen, connects them. *)
Theorem C77_merged_parameters : forall m sig, m <> [] -> NoDup sig -> uniform (map fst m) ->
  exists d, minimize_parameters m sig = Ok d /\ dict_keys d = sig /\
    (forall p, In p sig -> In (entry d p) sig /\ entry d (entry d p) = entry d p) /\
    forall p q, In p sig -> In q sig -> (entry d p = entry d q <-> clos_refl_sym_trans _ (linked m sig) p q).
Proof. exact minimize_spec. Qed.
Print Assumptions C77_merged_parameters.

(** A proxy action behaves as the original with the extra preconditions and the chosen effects, called with equal
    arguments for merged parameters, provided that merging does not join two arguments of one literal. *)
Theorem C77_proxy_meaning_partial : forall E n a missing effects d k,
  dict_get (d_actions (s_dom (e_sam E))) n = Some a ->
  dict_keys d = dict_keys (a_sig a) -> (forall p, In p (dict_keys d) -> In (entry d p) (dict_keys d)) -> NoDup (dict_keys d) ->
  (forall l, In l missing \/ In l effects \/ In l (a_pre a) -> kept_apart d l) ->
  exists pa, construct_proxy_action E n missing effects d k = Ok pa /\ a_name pa = k /\
    NoDup (dict_keys (a_sig pa)) /\
    (forall p t, In (p, t) (a_sig pa) -> In (p, t) (a_sig a)) /\
    (forall p, In p (dict_keys (a_sig pa)) <-> exists q, In q (dict_keys (a_sig a)) /\ entry d q = p) /\
    forall sg s, (applicable pa sg s <-> applicable (intended a missing effects) (fun x => sg (entry d x)) s) /\
      forall p args, after pa sg s p args <-> after (intended a missing effects) (fun x => sg (entry d x)) s p args.
Proof. exact proxy_spec. Qed.
Print Assumptions C77_proxy_meaning_partial.

(** C78.  One consistent choice: the action gets the chosen effects, and the literals that are not chosen become
    preconditions. *)
Theorem C78_unique_choice : forall numbers E n a sig f v,
  dict_get (d_actions (s_dom (e_sam E))) n = Some a -> dict_get (s_sigs (e_sam E)) n = Some sig -> dict_get (e_cnf E) n = Some f ->
  NoDup (dict_keys sig) -> uniform (vars f) ->
  consistent (a_pre a) f v -> (forall w, consistent (a_pre a) f w -> ~ differ f v w) ->
  exists a', construct_safe_action numbers E n = Ok (with_esam E (put_action (e_sam E) n a')) /\
    a_name a' = a_name a /\ a_sig a' = a_sig a /\ a_ineq a' = a_ineq a /\
    (forall l, In l (a_pre a') <-> In l (a_pre a) \/ (occurs f l /\ v l = false)) /\
    (forall l, In l (a_eff a') <-> occurs f l /\ v l = true).
Proof. intros numbers E n a sig f v A B C D F. exact (construct_unique numbers E n a sig f A B C D F v). Qed.
Print Assumptions C78_unique_choice.

(** No consistent choice, or more than one: construction stops. *)
Theorem C78_other_choices_raise : forall num nums E n a sig f,
  dict_get (d_actions (s_dom (e_sam E))) n = Some a -> dict_get (s_sigs (e_sam E)) n = Some sig -> dict_get (e_cnf E) n = Some f ->
  NoDup (dict_keys sig) -> uniform (vars f) -> dict_get (e_encoders E) n = None ->
  ((forall v, ~ consistent (a_pre a) f v) -> construct_safe_action (num :: nums) E n = Err ValueError) /\
  (forall v w, consistent (a_pre a) f v -> consistent (a_pre a) f w -> differ f v w -> construct_safe_action (num :: nums) E n = Err KeyError).
Proof.
  intros num nums E n a sig f A B C D F G. split.
  - exact (construct_none (num :: nums) E n a sig f A B C D F).
  - intros v w Hv Hw Hd. exact (construct_ambiguous (num :: nums) E n a sig f A B C D F v w num nums Hv Hw Hd G eq_refl).
Qed.
Print Assumptions C78_other_choices_raise.

(** C79.  From transitions whose calls have different objects, no constants and no object named like a parameter,
    recording, building and constructing give exactly the observed effects, and only real ones. *)
Theorem C79_injective_effects_partial : forall dom policy real cps n a r numbers,
  wf_domain dom -> NoDup (dict_keys (d_preds dom)) -> real_domain dom real ->
  (forall cp, In cp cps -> good_arity dom (cp_call cp)) -> (forall cp, In cp cps -> real_transition real cp) ->
  dict_get (d_actions dom) n = Some a -> real n = Some r ->
  (forall cp, In cp cps -> c_name (cp_call cp) = n -> NoDup (c_params (cp_call cp)) /\ no_constant_args dom (cp_call cp)) ->
  (forall cp o, In cp cps -> c_name (cp_call cp) = n -> In o (c_params (cp_call cp)) -> ~ In o (dict_keys (a_sig a))) ->
  exists E E1 a', record_effects (init_esam dom policy) cps = Ok E /\ build_cnf_formulas E = Ok E1 /\
    construct_safe_action numbers E1 n = Ok (with_esam E1 (put_action (e_sam E1) n a')) /\
    a_name a' = a_name a /\ a_sig a' = a_sig a /\ a_ineq a' = a_ineq a /\
    (forall l, In l (a_pre a') <-> In l (a_pre a)) /\
    (forall l, In l (a_eff a') <-> exists cp, In cp cps /\ c_name (cp_call cp) = n /\ mentionable dom (a_sig a) l /\ became_true (a_sig a) cp l) /\
    (forall l, In l (a_eff a') -> In l (a_eff r)).
Proof. exact injective_run. Qed.
Print Assumptions C79_injective_effects_partial.
