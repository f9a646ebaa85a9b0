(** * Properties C01-C19: SAM learning, vocabularies, snapshots and matching

    Only theorems; every proof is a reference to a lemma.  Specifications: StripsSpec.v, SamSpec.v. *)
From Verif Require Import PreludeProofs SamModel SamSpec VocabProofs SamProofs SamFinal SamBatches SamResults.

(** C01.  [policy_ok] is [True] for the default policy [no_remove] (SamFinal.v). *)
Theorem C01_sam_safe dom policy inj obs L rep real n a r :
  wf_domain dom -> blank_domain dom -> good_calls dom (concat obs) -> no_constant_calls dom (concat obs) ->
  learn_action_model (init_learner dom policy inj) obs = Ok (L, rep) ->
  real_domain dom real -> real_components real (concat obs) -> policy_ok policy (concat obs) n r ->
  dict_get (d_actions (s_dom L)) n = Some a -> real n = Some r -> safe_for dom a r.
Proof. exact (fun W B GC NC E => run_safe dom policy inj obs L rep W B GC NC E real n a r). Qed.
Print Assumptions C01_sam_safe.

(** C01, default policy, without [policy_ok]. *)
Theorem C01_sam_safe_default dom inj obs L rep real n a r :
  wf_domain dom -> blank_domain dom -> good_calls dom (concat obs) -> no_constant_calls dom (concat obs) ->
  learn_action_model (init_learner dom no_remove inj) obs = Ok (L, rep) ->
  real_domain dom real -> real_components real (concat obs) ->
  dict_get (d_actions (s_dom L)) n = Some a -> real n = Some r ->
  forall sg s, injective_binding dom (a_sig r) sg -> applicable a sg s ->
    (forall l, In l (a_pre r) -> lit_true s (ground sg l)) /\
    (forall p args, after a sg s p args <-> after r sg s p args).
Proof. exact (fun W B GC NC E RD RC => run_safe dom no_remove inj obs L rep W B GC NC E real n a r RD RC I). Qed.
Print Assumptions C01_sam_safe_default.

(** The learner never raises on well-formed input. *)
Theorem C01_sam_total dom policy inj obs :
  wf_domain dom -> blank_domain dom -> good_calls dom (concat obs) -> no_constant_calls dom (concat obs) ->
  exists L rep, learn_action_model (init_learner dom policy inj) obs = Ok (L, rep).
Proof.
  exact (fun W B GC NC => match learn_spec dom policy inj obs W B GC NC with
                          | ex_intro _ L (ex_intro _ rep (conj E _)) => ex_intro _ L (ex_intro _ rep E) end).
Qed.
Print Assumptions C01_sam_total.

(** C02 *)
Theorem C02_real_preconditions_kept dom policy inj obs L rep real n a r l :
  wf_domain dom -> blank_domain dom -> good_calls dom (concat obs) -> no_constant_calls dom (concat obs) ->
  learn_action_model (init_learner dom policy inj) obs = Ok (L, rep) ->
  real_domain dom real -> real_components real (concat obs) -> policy_ok policy (concat obs) n r ->
  dict_get (d_actions (s_dom L)) n = Some a -> real n = Some r -> In l (a_pre r) -> In l (a_pre a).
Proof. exact (fun W B GC NC E => run_pre_kept dom policy inj obs L rep W B GC NC E real n a r l). Qed.
Print Assumptions C02_real_preconditions_kept.

(** C03 *)
Theorem C03_preconditions_exact dom policy inj obs L rep n a l :
  wf_domain dom -> blank_domain dom -> good_calls dom (concat obs) -> no_constant_calls dom (concat obs) ->
  learn_action_model (init_learner dom policy inj) obs = Ok (L, rep) ->
  dict_get (d_actions (s_dom L)) n = Some a ->
  (In l (a_pre a) <->
   mentionable dom (a_sig a) l /\ (forall cp, evidence (concat obs) n cp -> true_before (a_sig a) cp l) /\ kept policy (a_eff a) l).
Proof. exact (fun W B GC NC E => run_pre dom policy inj obs L rep W B GC NC E n a l). Qed.
Print Assumptions C03_preconditions_exact.

(** C04, any data, domains without constants. *)
Theorem C04_effects_are_observed_changes dom policy inj obs L rep n a l :
  wf_domain dom -> blank_domain dom -> good_calls dom (concat obs) -> no_constant_calls dom (concat obs) ->
  learn_action_model (init_learner dom policy inj) obs = Ok (L, rep) ->
  d_consts dom = [] -> dict_get (d_actions (s_dom L)) n = Some a ->
  (In l (a_eff a) <->
   mentionable dom (a_sig a) l /\ exists cp, evidence (concat obs) n cp /\ became_true (a_sig a) cp l).
Proof. exact (fun W B GC NC E => run_eff_noconst dom policy inj obs L rep W B GC NC E n a l). Qed.
Print Assumptions C04_effects_are_observed_changes.

(** C04, data of a real domain whose actions do not add and delete the same atom; constants allowed. *)
Theorem C04_effects_are_real dom policy inj obs L rep real n a r l :
  wf_domain dom -> blank_domain dom -> good_calls dom (concat obs) -> no_constant_calls dom (concat obs) ->
  learn_action_model (init_learner dom policy inj) obs = Ok (L, rep) ->
  real_domain dom real -> real_components real (concat obs) ->
  (forall m, In m (a_eff r) -> ~ In (neg_lit m) (a_eff r)) ->
  dict_get (d_actions (s_dom L)) n = Some a -> real n = Some r ->
  (In l (a_eff a) -> In l (a_eff r)) /\
  (In l (a_eff a) <->
   mentionable dom (a_sig a) l /\ exists cp, evidence (concat obs) n cp /\ became_true (a_sig a) cp l).
Proof. exact (fun W B GC NC E => run_eff_real dom policy inj obs L rep W B GC NC E real n a r l). Qed.
Print Assumptions C04_effects_are_real.

(** C05, every learner state. *)
Theorem C05_monotone L cp L' :
  handle_component L cp = Ok L' ->
  (forall k, k <> c_name (cp_call cp) -> dict_get (d_actions (s_dom L')) k = dict_get (d_actions (s_dom L)) k) /\
  forall a, dict_get (d_actions (s_dom L)) (c_name (cp_call cp)) = Some a ->
    exists a', dict_get (d_actions (s_dom L')) (c_name (cp_call cp)) = Some a' /\
      a_sig a' = a_sig a /\ incl (a_ineq a') (a_ineq a) /\
      (In (c_name (cp_call cp)) (s_observed L) -> incl (a_pre a') (a_pre a)) /\
      (d_consts (s_dom L) = [] -> incl (a_eff a) (a_eff a')).
Proof. exact (component_monotone L cp L'). Qed.
Print Assumptions C05_monotone.

(** C06 *)
Theorem C06_order_independent dom policy inj obs obs' L L' rep rep' :
  wf_domain dom -> blank_domain dom -> d_consts dom = [] -> good_calls dom (concat obs) ->
  Permutation (concat obs) (concat obs') ->
  learn_action_model (init_learner dom policy inj) obs = Ok (L, rep) ->
  learn_action_model (init_learner dom policy inj) obs' = Ok (L', rep') ->
  dict_keys (d_actions (s_dom L)) = dict_keys (d_actions (s_dom L')) /\
  forall n a a', dict_get (d_actions (s_dom L)) n = Some a -> dict_get (d_actions (s_dom L')) n = Some a' ->
    a_sig a = a_sig a' /\
    (forall l, In l (a_pre a) <-> In l (a_pre a')) /\ (forall l, In l (a_eff a) <-> In l (a_eff a')) /\
    (forall p, In p (a_ineq a) <-> In p (a_ineq a')).
Proof.
  exact (fun W B C G P E E' => learn_order dom policy inj obs obs' L L' W B C G P (ex_intro _ rep E) (ex_intro _ rep' E')).
Qed.
Print Assumptions C06_order_independent.

(** C06 with constants, for data of a real domain whose actions do not add and delete the same atom. *)
Theorem C06_order_independent_real dom policy inj obs obs' L L' rep rep' real :
  wf_domain dom -> blank_domain dom -> good_calls dom (concat obs) -> no_constant_calls dom (concat obs) ->
  real_domain dom real -> real_components real (concat obs) ->
  (forall n r m, real n = Some r -> In m (a_eff r) -> ~ In (neg_lit m) (a_eff r)) ->
  Permutation (concat obs) (concat obs') ->
  learn_action_model (init_learner dom policy inj) obs = Ok (L, rep) ->
  learn_action_model (init_learner dom policy inj) obs' = Ok (L', rep') ->
  dict_keys (d_actions (s_dom L)) = dict_keys (d_actions (s_dom L')) /\
  forall n a a', dict_get (d_actions (s_dom L)) n = Some a -> dict_get (d_actions (s_dom L')) n = Some a' ->
    a_sig a = a_sig a' /\
    (forall l, In l (a_pre a) <-> In l (a_pre a')) /\ (forall l, In l (a_eff a) <-> In l (a_eff a')) /\
    (forall p, In p (a_ineq a) <-> In p (a_ineq a')).
Proof. exact (learn_order_real dom policy inj obs obs' L L' rep rep' real). Qed.
Print Assumptions C06_order_independent_real.

(** C07 *)
Theorem C07_failed_components_ignored L obs :
  learn_action_model L (map (filter cp_ok) obs) = learn_action_model L obs.
Proof. exact (failed_ignored L obs). Qed.
Print Assumptions C07_failed_components_ignored.

Theorem C07_duplicate_calls_keep_literals L cp L' :
  handle_component L cp = Ok L' -> ~ NoDup (c_params (cp_call cp)) ->
  s_observed L' = s_observed L /\ dict_keys (d_actions (s_dom L')) = dict_keys (d_actions (s_dom L)) /\
  forall n a, dict_get (d_actions (s_dom L)) n = Some a ->
    exists a', dict_get (d_actions (s_dom L')) n = Some a' /\ a_name a' = a_name a /\ a_sig a' = a_sig a /\
      a_pre a' = a_pre a /\ a_eff a' = a_eff a /\
      (n <> c_name (cp_call cp) -> a' = a) /\ incl (a_ineq a') (a_ineq a).
Proof. exact (duplicates_only_inequalities L cp L'). Qed.
Print Assumptions C07_duplicate_calls_keep_literals.

Theorem C07_duplicate_calls_inequalities L cp L' a :
  handle_component L cp = Ok L' -> ~ NoDup (c_params (cp_call cp)) ->
  dict_get (d_actions (s_dom L)) (c_name (cp_call cp)) = Some a ->
  NoDup (dict_keys (a_sig a)) -> NoDup (dict_keys (d_consts (s_dom L))) ->
  (forall x, In x (dict_keys (a_sig a)) -> ~ In x (dict_keys (d_consts (s_dom L)))) ->
  length (c_params (cp_call cp)) = length (a_sig a) ->
  exists a', dict_get (d_actions (s_dom L')) (c_name (cp_call cp)) = Some a' /\
    forall x y, In (x, y) (a_ineq a') <-> In (x, y) (a_ineq a) /\
      ~ (before_in (a_sig a) x y /\ call_assignment (a_sig a) (cp_call cp) x = call_assignment (a_sig a) (cp_call cp) y).
Proof. exact (duplicates_inequalities L cp L' a). Qed.
Print Assumptions C07_duplicate_calls_inequalities.

(** C08 *)
Theorem C08_transitions_explained dom policy inj obs L rep real n a r cp :
  wf_domain dom -> blank_domain dom -> good_calls dom (concat obs) -> no_constant_calls dom (concat obs) ->
  learn_action_model (init_learner dom policy inj) obs = Ok (L, rep) ->
  real_domain dom real -> real_components real (concat obs) -> policy_ok policy (concat obs) n r ->
  dict_get (d_actions (s_dom L)) n = Some a -> real n = Some r -> evidence (concat obs) n cp ->
  applicable a (call_assignment (a_sig a) (cp_call cp)) (cp_prev cp) /\
  is_result a (call_assignment (a_sig a) (cp_call cp)) (cp_prev cp) (cp_next cp).
Proof. exact (fun W B GC NC E => run_explained dom policy inj obs L rep W B GC NC E real n a r cp). Qed.
Print Assumptions C08_transitions_explained.

(** C09 *)
Theorem C09_unobserved_not_executable dom inj obs L rep n a :
  wf_domain dom -> blank_domain dom -> good_calls dom (concat obs) -> no_constant_calls dom (concat obs) ->
  learn_action_model (init_learner dom no_remove inj) obs = Ok (L, rep) -> dict_get (d_actions (s_dom L)) n = Some a ->
  (forall cp, ~ evidence (concat obs) n cp) -> (exists l, mentionable dom (a_sig a) l) ->
  forall sg s, ~ applicable a sg s.
Proof. exact (fun W B GC NC E => unobserved_not_applicable dom inj obs L n a W B GC NC (ex_intro _ rep E)). Qed.
Print Assumptions C09_unobserved_not_executable.

(** C10, every learner state; [kept] (SamFinal.v) says which literals each policy keeps. *)
Theorem C10_policy_exact L n a :
  dict_get (d_actions (s_dom L)) n = Some a ->
  exists a', dict_get (d_actions (s_dom (handle_negative_preconditions_policy L))) n = Some a' /\
    a_name a' = a_name a /\ a_sig a' = a_sig a /\ a_eff a' = a_eff a /\ a_ineq a' = a_ineq a /\
    (forall l, In l (a_pre a') <-> In l (a_pre a) /\
       match s_policy L with
       | no_remove => True
       | soft => l_pos l = true \/ ~ In (neg_lit l) (a_eff a)
       | hard => l_pos l = true
       end).
Proof. exact (policy_spec L n a). Qed.
Print Assumptions C10_policy_exact.

Theorem C10_policy_same_actions L :
  dict_keys (d_actions (s_dom (handle_negative_preconditions_policy L))) = dict_keys (d_actions (s_dom L)).
Proof. exact (policy_keys L). Qed.
Print Assumptions C10_policy_same_actions.

Theorem C10_policy_idempotent L :
  handle_negative_preconditions_policy (handle_negative_preconditions_policy L) = handle_negative_preconditions_policy L.
Proof. exact (policy_idem L). Qed.
Print Assumptions C10_policy_idempotent.

(** C11 *)
Theorem C11_inequalities_exact dom policy inj obs L rep n a x y :
  wf_domain dom -> blank_domain dom -> good_calls dom (concat obs) -> no_constant_calls dom (concat obs) ->
  learn_action_model (init_learner dom policy inj) obs = Ok (L, rep) ->
  dict_get (d_actions (s_dom L)) n = Some a ->
  (In (x, y) (a_ineq a) <->
   inj = true /\ before_in (a_sig a) x y /\ same_type (a_sig a) x y /\
   forall cp, In cp (concat obs) -> cp_ok cp = true -> c_name (cp_call cp) = n ->
       call_assignment (a_sig a) (cp_call cp) x <> call_assignment (a_sig a) (cp_call cp) y).
Proof. exact (fun W B GC NC E => run_ineq dom policy inj obs L rep W B GC NC E n a x y). Qed.
Print Assumptions C11_inequalities_exact.

(** C12, the half that holds: batches never give a weaker model, and give the same effects. The equality is
    refuted in SamExamples.v ([C12_batches_equal_refuted]). *)
Theorem C12_batches_never_weaker dom inj batches Ls rep :
  learn_action_model (init_learner dom no_remove inj) (concat batches) = Ok (Ls, rep) -> batches <> [] ->
  exists Lb, fold_res (fun L obs => let* (L', _) := learn_action_model L obs in Ok L') batches (init_learner dom no_remove inj) = Ok Lb /\
    forall n b, dict_get (d_actions (s_dom Ls)) n = Some b ->
      exists a, dict_get (d_actions (s_dom Lb)) n = Some a /\
        a_sig a = a_sig b /\ incl (a_pre b) (a_pre a) /\ a_eff a = a_eff b /\ incl (a_ineq b) (a_ineq a).
Proof. exact (learn_batches_weaker dom inj batches Ls rep). Qed.
Print Assumptions C12_batches_never_weaker.

(** C13.  The last two lines: what the report says about observed actions. *)
Theorem C13_report dom policy inj obs L rep :
  wf_domain dom -> blank_domain dom -> good_calls dom (concat obs) -> no_constant_calls dom (concat obs) ->
  learn_action_model (init_learner dom policy inj) obs = Ok (L, rep) ->
  NoDup (map fst rep) /\
  (forall n, In n (map fst rep) <-> In n (dict_keys (d_actions dom))) /\
  (forall n, In (n, v_unobserved) rep <-> In n (dict_keys (d_actions dom)) /\ ~ exists cp, evidence (concat obs) n cp) /\
  (forall n, In (n, v_not_safe) rep <-> exists cp, evidence (concat obs) n cp) /\
  (forall n, ~ In (n, v_ok) rep).
Proof. exact (run_report dom policy inj obs L rep). Qed.
Print Assumptions C13_report.

(** C14 *)
Theorem C14_state_snapshot_exact dom st objs l :
  In l (discrete_state_snapshot dom st objs) <-> well_typed dom (objs ++ d_consts dom) l /\ lit_true st l.
Proof. exact (snapshot_exact dom st objs l). Qed.
Print Assumptions C14_state_snapshot_exact.

Theorem C14_triplet_snapshot_exact dom prev next c a p q :
  dict_get (d_actions dom) (c_name c) = Some a -> triplet_snapshot dom prev next c = Ok (p, q) ->
  forall l, (In l p <-> well_typed dom (combine (c_params c) (map snd (a_sig a)) ++ d_consts dom) l /\ lit_true prev l) /\
            (In l q <-> well_typed dom (combine (c_params c) (map snd (a_sig a)) ++ d_consts dom) l /\ lit_true next l).
Proof. exact (triplet_exact dom prev next c a p q). Qed.
Print Assumptions C14_triplet_snapshot_exact.

(** C15 *)
Theorem C15_grounded_vocabulary_exact dom objs name l :
  (exists lits, dict_get (grounded_predicate_vocabulary dom objs) name = Some lits /\ In l lits) <->
  l_name l = name /\ l_pos l = true /\ well_typed dom (objs ++ d_consts dom) l.
Proof. exact (grounded_vocabulary_entry dom objs name l). Qed.
Print Assumptions C15_grounded_vocabulary_exact.

(** C16 *)
Theorem C16_lifted_vocabulary_exact dom sig must l :
  NoDup (map fst (sig ++ d_consts dom)) ->
  (In l (lifted_vocabulary dom sig must) <->
   mentionable dom sig l /\ (forall m, must = Some m -> m <> ""%string -> In m (l_args l))).
Proof. exact (lifted_vocabulary_entry dom sig must l). Qed.
Print Assumptions C16_lifted_vocabulary_exact.

Theorem C16_lifted_vocabulary_negation dom sig must l :
  NoDup (map fst (sig ++ d_consts dom)) ->
  (In (neg_lit l) (lifted_vocabulary dom sig must) <-> In l (lifted_vocabulary dom sig must)).
Proof. exact (lifted_vocabulary_neg dom sig must l). Qed.
Print Assumptions C16_lifted_vocabulary_negation.

Theorem C16_lifted_functions_exact dom sig must fname args :
  In (fname, args) (lifted_functions_vocabulary dom sig must) <->
  (exists fsig objs, In (fname, fsig) (d_funcs dom) /\ incl objs (sig ++ d_consts dom) /\ NoDup (map fst objs) /\
    args = map fst objs /\ Forall2 (fun o p => is_sub_type (snd o) (snd p) = true) objs fsig) /\
  (forall m, must = Some m -> m <> ""%string -> In m args).
Proof. exact (lifted_functions_entry dom sig must fname args). Qed.
Print Assumptions C16_lifted_functions_exact.

(** C17 *)
Theorem C17_grounded_actions_exact dom objs c :
  In c (grounded_actions_vocabulary dom objs) <->
  exists a, In (c_name c, a) (d_actions dom) /\
    Forall2 (fun o p => exists t, In (o, t) (objs ++ d_consts dom) /\ is_sub_type t (snd p) = true)
            (c_params c) (a_sig a).
Proof. exact (grounded_actions_vocabulary_exact dom objs c). Qed.
Print Assumptions C17_grounded_actions_exact.

(** C18 *)
Theorem C18_matching_exact dom a c g ms m :
  dict_get (d_actions dom) (c_name c) = Some a -> NoDup (dict_keys (a_sig a)) ->
  (forall y, In y (dict_keys (a_sig a)) -> ~ In y (dict_keys (d_consts dom))) ->
  length (c_params c) = length (a_sig a) ->
  NoDup (filter (fun o => dict_mem o (d_consts dom)) (l_args g)) ->
  match_predicate dom g c None = Ok ms ->
  (In m ms <->
   NoDup (l_args m) /\ incl (l_args m) (dict_keys (a_sig a) ++ dict_keys (d_consts dom)) /\
   ground (call_assignment (a_sig a) c) m = g).
Proof. exact (match_predicate_exact_gen dom a c g ms m). Qed.
Print Assumptions C18_matching_exact.

Theorem C18_at_most_one_match dom a c g ms :
  dict_get (d_actions dom) (c_name c) = Some a ->
  length (c_params c) = length (a_sig a) -> NoDup (c_params c) -> no_constant_args dom c ->
  NoDup (filter (fun o => dict_mem o (d_consts dom)) (l_args g)) ->
  match_predicate dom g c None = Ok ms -> length ms <= 1.
Proof. exact (injective_length dom a c g ms). Qed.
Print Assumptions C18_at_most_one_match.

Theorem C18_injective_match_exact dom a c g r :
  dict_get (d_actions dom) (c_name c) = Some a -> NoDup (dict_keys (a_sig a)) ->
  (forall y, In y (dict_keys (a_sig a)) -> ~ In y (dict_keys (d_consts dom))) ->
  length (c_params c) = length (a_sig a) -> NoDup (c_params c) -> no_constant_args dom c ->
  NoDup (filter (fun o => dict_mem o (d_consts dom)) (l_args g)) ->
  get_injective_match dom g c = Ok r ->
  forall m, r = Some m <->
    NoDup (l_args m) /\ incl (l_args m) (dict_keys (a_sig a) ++ dict_keys (d_consts dom)) /\
    ground (call_assignment (a_sig a) c) m = g.
Proof. exact (injective_match dom a c g r). Qed.
Print Assumptions C18_injective_match_exact.

(** C18: for every call, also with repeated objects or constants, an injective match is the only literal
    that denotes the ground literal. *)
Theorem C18_injective_match_unique dom a c g m :
  dict_get (d_actions dom) (c_name c) = Some a -> NoDup (dict_keys (a_sig a)) ->
  (forall y, In y (dict_keys (a_sig a)) -> ~ In y (dict_keys (d_consts dom))) ->
  length (c_params c) = length (a_sig a) ->
  NoDup (filter (fun o => dict_mem o (d_consts dom)) (l_args g)) ->
  get_injective_match dom g c = Ok (Some m) ->
  forall m', (NoDup (l_args m') /\ incl (l_args m') (dict_keys (a_sig a) ++ dict_keys (d_consts dom)) /\
              ground (call_assignment (a_sig a) c) m' = g) <-> m' = m.
Proof. exact (injective_match_unique dom a c g m). Qed.
Print Assumptions C18_injective_match_unique.

(** C19 *)
Theorem C19_effects_exact prev next adds dels :
  extract_discrete_effects prev next = (adds, dels) ->
  (forall l, In l adds <-> l_pos l = true /\ In l next /\ ~ In l prev) /\
  (forall l, In l dels <-> l_pos l = false /\ In (neg_lit l) prev /\ ~ In (neg_lit l) next).
Proof. exact (effects_exact prev next adds dels). Qed.
Print Assumptions C19_effects_exact.

Theorem C19_not_effects_exact next l : In l (extract_not_effects next) <-> In (neg_lit l) next.
Proof. exact (extract_not_effects_exact next l). Qed.
Print Assumptions C19_not_effects_exact.
