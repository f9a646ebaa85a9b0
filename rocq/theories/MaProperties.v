(** * Properties C20-C22: effect clauses and multi-agent SAM

    Only theorems; every proof is a reference to a lemma.  Specifications: StripsSpec.v, SamSpec.v, CnfSpec.v, MaSpec.v. *)
From Verif Require Import PreludeProofs MaModel MaSpec CnfProofs MaCnf MaProofs MaFinal MaSafety.

(** C20.  The clause object is never wrong and never forgets: after any history of truthful observations about
    known actions it accepts exactly the effect relations that agree with every observation. *)
Theorem C20_clauses_exact names ops k R0 R :
  Forall (truthful R0) ops -> cnf_run names ops = Ok k ->
  (satisfies R k <-> Forall (truthful R) ops).
Proof. exact (fun H0 E => cnf_exact R0 names ops k H0 E R). Qed.
Print Assumptions C20_clauses_exact.

(** No history of observations about known actions makes the clause object raise. *)
Theorem C20_clauses_total names ops :
  Forall (known_names names) ops -> exists k, cnf_run names ops = Ok k.
Proof. exact (cnf_run_total names ops). Qed.
Print Assumptions C20_clauses_total.

(** C20, whole runs of the learner: every clause contains a real effect and no recorded non-effect is one. *)
Theorem C20_learned_clauses_true dom policy obs M rep real key k :
  wf_domain dom -> blank_domain dom -> length (d_consts dom) <= 1 -> real_domain dom real ->
  good_joints dom (concat obs) -> real_joints real (concat obs) -> no_constant_joints dom (concat obs) ->
  learn_combined (init_ma dom policy) obs = Ok (M, rep) -> In (key, k) (m_cnfs M) ->
  (forall cl, In cl (n_clauses k) -> exists n l r, In (n, l) cl /\ real n = Some r /\ In l (a_eff r)) /\
  (forall n ls l r, dict_get (n_not k) n = Some ls -> In l ls -> real n = Some r -> ~ In l (a_eff r)).
Proof.
  exact (fun W B H1 RD GJ RJ NJ E Hin =>
    let S := whole_clauses dom real policy obs M W B H1 RD GJ RJ NJ (ex_intro _ rep E) key k Hin in
    conj (fun cl Hc => match proj1 S cl Hc with
            ex_intro _ n (ex_intro _ l (conj Hl (ex_intro _ r Hr))) => ex_intro _ n (ex_intro _ l (ex_intro _ r (conj Hl Hr))) end)
         (fun n ls l r Hd Hl Hr He => proj2 S n ls l Hd Hl (ex_intro _ r (conj Hr He)))).
Qed.
Print Assumptions C20_learned_clauses_true.

(** C21.  Extracted effects are certain: they hold in every relation that satisfies the clauses. *)
Theorem C21_extracted_effects_certain R k a pre l :
  satisfies R k -> In l (extract_action_effects k a pre) -> R a l /\ ~ In l pre.
Proof. exact (extract_sound R k a pre l). Qed.
Print Assumptions C21_extracted_effects_certain.

(** C21, second part.  Full statement: without [mentioned_once]; it is false (MaExamples.v). *)
Theorem C21_safe_action_complete_partial k a pre cl l :
  mentioned_once k a -> is_action_safe k a pre = true ->
  In cl (n_clauses k) -> In (a, l) cl -> In l (extract_action_effects k a pre) \/ In l pre.
Proof. exact (fun Ho Hs => is_action_safe_complete k a pre Ho Hs cl l). Qed.
Print Assumptions C21_safe_action_complete_partial.

(** The verdict is not needlessly strict: an action about which every clause is decided is safe. *)
Theorem C21_decided_action_safe k a pre :
  (forall cl l, In cl (n_clauses k) -> In (a, l) cl -> In [(a, l)] (n_clauses k) \/ In l pre) ->
  is_action_safe k a pre = true.
Proof. exact (is_action_safe_decided k a pre). Qed.
Print Assumptions C21_decided_action_safe.

(** C22.  Full statement: [safe_for] for every action kept, for any joint trajectories; it is false (MaExamples.v).
    Proved when each change is stated over the objects of the last call of its joint action and no joint action
    contains two calls of the same action. *)
Theorem C22_ma_safe_partial dom obs M rep real n a r :
  wf_domain dom -> blank_domain dom -> length (d_consts dom) <= 1 -> real_domain dom real ->
  good_joints dom (concat obs) -> real_joints real (concat obs) -> no_constant_joints dom (concat obs) ->
  (forall j, In j (concat obs) -> joint_learnable j -> seen_by_last dom real j /\ different_actions j) ->
  learn_combined (init_ma dom no_remove) obs = Ok (M, rep) ->
  dict_get (d_actions (s_dom (m_sam M))) n = Some a -> real n = Some r -> safe_for dom a r.
Proof.
  exact (fun W B H1 RD GJ RJ NJ Hj E => whole_safe dom real no_remove obs M W B H1 RD GJ RJ NJ (ex_intro _ rep E) n a r eq_refl Hj).
Qed.
Print Assumptions C22_ma_safe_partial.

(** Trajectories in which one agent acts at a time. *)
Theorem C22_one_agent_at_a_time_safe dom obs M rep real n a r :
  wf_domain dom -> blank_domain dom -> length (d_consts dom) <= 1 -> real_domain dom real ->
  good_joints dom (concat obs) -> real_joints real (concat obs) -> no_constant_joints dom (concat obs) ->
  (forall j, In j (concat obs) -> exists c, j_calls j = [c]) ->
  learn_combined (init_ma dom no_remove) obs = Ok (M, rep) ->
  dict_get (d_actions (s_dom (m_sam M))) n = Some a -> real n = Some r -> safe_for dom a r.
Proof.
  exact (fun W B H1 RD GJ RJ NJ Hj E => whole_single_safe dom real no_remove obs M W B H1 RD GJ RJ NJ (ex_intro _ rep E) n a r eq_refl Hj).
Qed.
Print Assumptions C22_one_agent_at_a_time_safe.

(** For any joint trajectories: learned effects are real. *)
Theorem C22_effects_real dom policy obs M rep real n a l :
  wf_domain dom -> blank_domain dom -> length (d_consts dom) <= 1 -> real_domain dom real ->
  good_joints dom (concat obs) -> real_joints real (concat obs) -> no_constant_joints dom (concat obs) ->
  learn_combined (init_ma dom policy) obs = Ok (M, rep) ->
  dict_get (d_actions (s_dom (m_sam M))) n = Some a -> In l (a_eff a) -> exists r, real n = Some r /\ In l (a_eff r).
Proof.
  exact (fun W B H1 RD GJ RJ NJ E => whole_effects_real dom real policy obs M W B H1 RD GJ RJ NJ (ex_intro _ rep E) n a l).
Qed.
Print Assumptions C22_effects_real.

(** For any joint trajectories: real preconditions are kept, so the learned action is applicable only where the real one is. *)
Theorem C22_preconditions_kept dom obs M rep real n a r l :
  wf_domain dom -> blank_domain dom -> length (d_consts dom) <= 1 -> real_domain dom real ->
  good_joints dom (concat obs) -> real_joints real (concat obs) -> no_constant_joints dom (concat obs) ->
  learn_combined (init_ma dom no_remove) obs = Ok (M, rep) ->
  dict_get (d_actions (s_dom (m_sam M))) n = Some a -> real n = Some r -> In l (a_pre r) -> In l (a_pre a).
Proof.
  exact (fun W B H1 RD GJ RJ NJ E => whole_pre_real dom real no_remove obs M W B H1 RD GJ RJ NJ (ex_intro _ rep E) n a r l eq_refl).
Qed.
Print Assumptions C22_preconditions_kept.

(** The learner does not raise on such trajectories. *)
Theorem C22_ma_total dom policy obs real :
  wf_domain dom -> blank_domain dom -> length (d_consts dom) <= 1 -> real_domain dom real ->
  good_joints dom (concat obs) -> real_joints real (concat obs) -> no_constant_joints dom (concat obs) ->
  exists M rep, learn_combined (init_ma dom policy) obs = Ok (M, rep).
Proof.
  exact (fun W B H1 RD GJ RJ NJ => match ma_learn_spec dom real policy obs W B H1 RD GJ RJ NJ with
    ex_intro _ _ (ex_intro _ _ (ex_intro _ M (conj _ (conj _ (conj _ E))))) => ex_intro _ M (ex_intro _ _ E) end).
Qed.
Print Assumptions C22_ma_total.

(** The model contains exactly the actions declared safe. *)
Theorem C22_model_is_safe_actions dom policy obs M rep real n :
  wf_domain dom -> blank_domain dom -> length (d_consts dom) <= 1 -> real_domain dom real ->
  good_joints dom (concat obs) -> real_joints real (concat obs) -> no_constant_joints dom (concat obs) ->
  learn_combined (init_ma dom policy) obs = Ok (M, rep) ->
  (In n (s_safe (m_sam M)) <-> exists a, dict_get (d_actions (s_dom (m_sam M))) n = Some a).
Proof.
  exact (fun W B H1 RD GJ RJ NJ E => whole_kept dom real policy obs M W B H1 RD GJ RJ NJ (ex_intro _ rep E) n).
Qed.
Print Assumptions C22_model_is_safe_actions.
