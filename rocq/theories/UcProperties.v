(** * Properties C80 to C82: learning quantified conditional effects

    Only theorems; every proof is a reference to a lemma.  Specifications: StripsSpec.v, SamSpec.v, CondSpec.v, UcSpec.v. *)
From Verif Require Import PreludeProofs SamModel SamSpec DepSpec CondModel CondSpec UcModel UcSpec UcLearn UcWhole.

(** C80.  Learning from any history of the assumed form never raises.  For every observed action and quantified type the
    learner keeps a parameter that is not one of the action, exactly the literals about it as possible results, exactly the
    ones seen to become true as observed effects, and for every possible result exactly the antecedent sets that agree
    with every observed execution at every further object, each once. *)
Theorem C80_quantified_dependencies_exact dom types umap inj max policy h n a0 names tn t :
  wf_domain dom -> blank_domain dom -> good_universal dom types umap h ->
  dict_get (d_actions dom) n = Some a0 -> dict_get umap n = Some names -> In tn names -> In (tn, t) types ->
  (exists e, In e h /\ c_name (entry_call e) = n) ->
  exists U x D seen, u_observe dom types max policy inj umap h = Ok U /\
    dict_get (sub_dict (u_param U) n) tn = Some x /\ ~ In x (dict_keys (a_sig a0)) /\
    dict_get (sub_dict (u_q U) n) tn = Some D /\ dict_get (sub_dict (u_seen U) n) tn = Some seen /\
    (forall l, In l (dict_keys (possible D)) <-> quantified_literal dom (a_sig a0 ++ [(x, t)]) x l) /\
    (forall l, In l seen <-> In x (l_args l) /\ observed_effect dom (a_sig a0 ++ [(x, t)]) (instances tn h) n l) /\
    forall l cands, dict_get (possible D) l = Some cands ->
      (forall c, In c cands -> antecedents dom (a_sig a0 ++ [(x, t)]) max c /\ explains (a_sig a0 ++ [(x, t)]) (instances tn h) n l c) /\
      (forall X, antecedents dom (a_sig a0 ++ [(x, t)]) max X -> explains (a_sig a0 ++ [(x, t)]) (instances tn h) n l X ->
                 length (filter (set_eqb X) cands) = 1).
Proof. exact (u_dependencies_exact dom types umap inj max policy h n a0 names tn t). Qed.
Print Assumptions C80_quantified_dependencies_exact.

(** The map of quantified types needs an entry for every action that occurs, also for those without quantified effects:
    otherwise the first execution of such an action raises. *)
Theorem C80_missing_entry_raises dom types umap inj max policy h e rest a0 tn :
  wf_domain dom -> blank_domain dom -> good_universal dom types umap h ->
  dict_get (d_actions dom) (c_name (entry_call e)) = Some a0 -> dict_get umap (c_name (entry_call e)) = None ->
  In tn (dict_keys types) -> tn <> "object"%string ->
  u_observe dom types max policy inj umap (h ++ e :: rest) = Err KeyError.
Proof. exact (u_missing_entry dom types umap inj max policy h e rest a0 tn). Qed.
Print Assumptions C80_missing_entry_raises.

(** C81.  Learning never raises; exactly the observed actions are learned; what each of them requires and does, for its
    arguments and for every further object, is determined by the observations as [learned_quantified] says. *)
Theorem C81_learned_actions lb dom types max policy inj umap h :
  wf_domain dom -> blank_domain dom -> good_universal dom types umap h ->
  exists us, u_learn lb dom types max policy inj umap h = Ok us /\ NoDup (map fst us) /\
    (forall n, In n (map fst us) <-> exists e, In e h /\ c_name (entry_call e) = n) /\
    (forall n u a0, In (n, u) us -> dict_get (d_actions dom) n = Some a0 -> learned_quantified lb dom types umap inj max h n a0 u).
Proof. exact (u_learn_spec lb dom types max policy inj umap h). Qed.
Print Assumptions C81_learned_actions.

(** C82.  A learned action is applicable only where the preconditions of the real action hold. *)
Theorem C82_real_preconditions_kept lb dom types umap inj max policy h real us n u w objs s sg :
  wf_domain dom -> blank_domain dom -> real_universal dom types max real -> good_universal dom types umap h ->
  (forall e, In e h -> real_universal_step real e) ->
  u_learn lb dom types max policy inj umap h = Ok us -> In (n, u) us -> real n = Some w ->
  u_applicable u objs s sg -> forall l, In l (q_pre (w_base w)) -> lit_at s sg l.
Proof. exact (fun W B RU GU RS E Hu Hw => u_whole_pre lb dom types umap inj max policy h real W B RU GU RS us n u w E Hu Hw objs s sg). Qed.
Print Assumptions C82_real_preconditions_kept.

(** Every change a learned action makes in a state where it is applicable, at any set of objects, is made by the real
    action, provided that iterating over the preconditions does not visit nested conditions, or at least that what it
    visits always held. *)
Theorem C82_effects_are_real lb dom types umap inj max policy h real us n u w objs s sg g :
  wf_domain dom -> blank_domain dom -> real_universal dom types max real -> good_universal dom types umap h ->
  (forall e, In e h -> real_universal_step real e) ->
  u_learn lb dom types max policy inj umap h = Ok us -> In (n, u) us -> real n = Some w -> told dom umap real ->
  lib_nested lb = false \/ (forall l, In l (granted lb (ua_k u)) -> always_before dom (q_sig (w_base w)) (components h) n l) ->
  u_applicable u objs s sg -> u_fires (as_uaction u) objs s sg g -> u_fires w objs s sg g.
Proof. exact (fun W B RU GU RS E Hu Hw T => u_whole_sound lb dom types umap inj max policy h real W B RU GU RS us n u w E Hu Hw T objs s sg g). Qed.
Print Assumptions C82_effects_are_real.

(** C82, partial: the learned and the real action lead to the same state, provided that no literal that never became true
    has a single explanation left ([unseen_guess], [unseen_quantified]) and no restrictive effect stands next to a certain
    one ([lost_restriction]).  Without these the claim is false of the code: see C82_unseen_quantified_refuted and
    C48_restrictive_effect_lost_refuted; with nested literals visited: C82_nested_preconditions_refuted. *)
Theorem C82_safe_partial lb dom types umap inj max policy h real us n u w :
  wf_domain dom -> blank_domain dom -> real_universal dom types max real -> good_universal dom types umap h ->
  (forall e, In e h -> real_universal_step real e) ->
  u_learn lb dom types max policy inj umap h = Ok us -> In (n, u) us -> real n = Some w -> told dom umap real ->
  1 <= max -> lib_nested lb = false ->
  (forall l, ~ unseen_guess dom (q_sig (w_base w)) max (components h) n l) ->
  (forall l, ~ lost_restriction dom (q_sig (w_base w)) max (components h) n l) ->
  (forall names tn t l, dict_get umap n = Some names -> In tn names -> In (tn, t) types ->
     ~ unseen_quantified dom (q_sig (w_base w) ++ [(w_param w tn, t)]) max (instances tn h) n (granted lb (ua_k u)) (w_param w tn) l) ->
  forall objs s sg, u_applicable u objs s sg -> consistent w objs s sg ->
    (forall l, In l (q_pre (w_base w)) -> lit_at s sg l) /\
    (forall p args, u_after (as_uaction u) objs s sg p args <-> u_after w objs s sg p args).
Proof. exact (fun W B RU GU RS E Hu Hw => u_whole_safe lb dom types umap inj max policy h real W B RU GU RS us n u w E Hu Hw). Qed.
Print Assumptions C82_safe_partial.
