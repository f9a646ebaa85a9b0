(** * Properties C27 and C48: learning conditional effects

    Only theorems; every proof is a reference to a lemma.  Specifications: StripsSpec.v, SamSpec.v, DepSpec.v, CondSpec.v. *)
From Verif Require Import PreludeProofs SamModel SamSpec DepSpec CondModel CondSpec CondProofs CondFinal CondSafety.

(** C27.  After any history the dependency set of an observed action contains, for every literal the action can
    mention, exactly the antecedent sets that agree with every observation, each once. *)
Theorem C27_dependencies_exact dom inj max policy cps n a0 :
  wf_domain dom -> blank_domain dom -> good_history dom cps ->
  dict_get (d_actions dom) n = Some a0 -> (exists cp, about cps n cp) ->
  exists C D, cond_observe dom max policy inj cps = Ok C /\ dict_get (c_deps C) n = Some D /\
    (forall l, In l (dict_keys (possible D)) <-> mentionable dom (a_sig a0) l) /\
    forall l cands, dict_get (possible D) l = Some cands ->
      (forall c, In c cands -> antecedents dom (a_sig a0) max c /\ explains (a_sig a0) cps n l c) /\
      (forall X, antecedents dom (a_sig a0) max X -> explains (a_sig a0) cps n l X ->
                 length (filter (set_eqb X) cands) = 1).
Proof. exact (dependencies_exact dom inj max policy cps n a0). Qed.
Print Assumptions C27_dependencies_exact.

(** In particular no real antecedents are ever discarded. *)
Theorem C27_real_antecedents_kept dom inj max policy cps real n a0 q :
  wf_domain dom -> blank_domain dom -> real_conditional dom max real -> good_history dom cps ->
  (forall cp, In cp cps -> real_step real cp) -> dict_get (d_actions dom) n = Some a0 -> real n = Some q -> (exists cp, about cps n cp) ->
  exists C D, cond_observe dom max policy inj cps = Ok C /\ dict_get (c_deps C) n = Some D /\
    forall r, In r (q_rules q) -> r_when r <> [] ->
      exists cands c, dict_get (possible D) (r_then r) = Some cands /\ In c cands /\ same_sets (r_when r) c.
Proof. exact (real_antecedents_kept dom inj max policy cps real n a0 q). Qed.
Print Assumptions C27_real_antecedents_kept.

(** C48.  Learning never raises; exactly the observed actions are learned; what each of them requires and does is
    determined by the observations as [learned_conditional] says. *)
Theorem C48_learned_actions lb dom inj max policy cps :
  wf_domain dom -> blank_domain dom -> good_history dom cps ->
  exists ks, cond_learn lb dom max policy inj cps = Ok ks /\ NoDup (map fst ks) /\
    (forall n, In n (map fst ks) <-> exists cp, about cps n cp) /\
    (forall n k a0, In (n, k) ks -> dict_get (d_actions dom) n = Some a0 -> learned_conditional lb dom inj max cps n a0 k).
Proof. exact (cond_learn_spec lb dom inj max policy cps). Qed.
Print Assumptions C48_learned_actions.

(** A learned action is applicable only where the real action is. *)
Theorem C48_real_preconditions_kept lb dom inj max policy cps real ks n k q s sg :
  wf_domain dom -> blank_domain dom -> real_conditional dom max real -> good_history dom cps ->
  (forall cp, In cp cps -> real_step real cp) ->
  cond_learn lb dom max policy inj cps = Ok ks -> In (n, k) ks -> real n = Some q -> k_applicable k s sg ->
  forall x, In x (q_pre q) -> lit_at s sg x.
Proof. exact (fun W B RC GH RS E Hk => whole_pre lb dom inj max policy cps real W B RC GH RS ks n k E Hk q s sg). Qed.
Print Assumptions C48_real_preconditions_kept.

(** Every effect a learned action has in a state where it is applicable is an effect of the real action there. *)
Theorem C48_effects_are_real lb dom inj max policy cps real ks n k q s sg l :
  wf_domain dom -> blank_domain dom -> real_conditional dom max real -> good_history dom cps ->
  (forall cp, In cp cps -> real_step real cp) ->
  cond_learn lb dom max policy inj cps = Ok ks -> In (n, k) ks -> real n = Some q -> k_applicable k s sg ->
  fires (k_rules k) s sg l -> fires (q_rules q) s sg l.
Proof. exact (fun W B RC GH RS E Hk => whole_sound lb dom inj max policy cps real W B RC GH RS ks n k E Hk q s sg l). Qed.
Print Assumptions C48_effects_are_real.

(** C48, partial: the learned and the real action lead to the same state, provided that no literal that never became
    true has a single explanation left ([unseen_guess]) and no restrictive effect stands next to a certain one
    ([lost_restriction]).  Without these the claim is false of the code: see C48_unseen_effect_refuted,
    C48_restrictive_effect_lost_refuted; with nested literals visited: C48_nested_preconditions_refuted. *)
Theorem C48_safe_partial lb dom inj max policy cps real ks n k q :
  wf_domain dom -> blank_domain dom -> real_conditional dom max real -> good_history dom cps ->
  (forall cp, In cp cps -> real_step real cp) ->
  cond_learn lb dom max policy inj cps = Ok ks -> In (n, k) ks ->
  1 <= max -> lib_nested lb = false -> real n = Some q ->
  (forall l, ~ unseen_guess dom (q_sig q) max cps n l) -> (forall l, ~ lost_restriction dom (q_sig q) max cps n l) ->
  forall s sg, injective_binding dom (q_sig q) sg -> k_applicable k s sg ->
    (forall x, In x (q_pre q) -> lit_at s sg x) /\
    (forall p args, c_after (k_rules k) s sg p args <-> c_after (q_rules q) s sg p args).
Proof. exact (fun W B RC GH RS E Hk => whole_safe lb dom inj max policy cps real W B RC GH RS ks n k E Hk q). Qed.
Print Assumptions C48_safe_partial.
