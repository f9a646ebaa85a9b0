(** * Properties C31, C32, C49, C50, C51: learning online from successes and failures

    Only theorems; every proof is a reference to lemmas.  Specifications: OnlineSpec.v, TrainSpec.v. *)
From Verif Require Import OnlineModel OnlineSpec TrainModel TrainSpec OnlineProofs OnlineJoint TrainProofs IntervalModel IntervalSpec IntervalProofs PreludeProofs.
Open Scope nat_scope.

(** C31.  The safe precondition consists of the literals true before every success, so it includes every precondition
    that agrees with the executions, in particular the real one. *)
Theorem C31_safe_precondition U data fl s :
  cond_in s (fst (get_safe_model fl (learned U data))) <->
  forall l, In l U -> (forall pre post, In (s_ok pre post) data -> In l pre) -> In l s.
Proof. exact (safe_condition_iff U data fl s). Qed.
Print Assumptions C31_safe_precondition.

Theorem C31_safe_includes_real U data fl s H :
  fits_pre U data H -> cond_in s (fst (get_safe_model fl (learned U data))) -> incl H s.
Proof. exact (safe_includes U data fl s H). Qed.
Print Assumptions C31_safe_includes_real.

(** The optimistic precondition holds exactly where some precondition that agrees with the executions holds. *)
Theorem C31_optimistic_precondition_exact U data fl s :
  (exists H, fits_pre U data H) ->
  (cond_in s (fst (get_optimistic_model fl (learned U data))) <-> exists H, fits_pre U data H /\ incl H s).
Proof. exact (optimistic_exact U data fl s). Qed.
Print Assumptions C31_optimistic_precondition_exact.

Theorem C31_optimistic_implied_by_real U data fl s H :
  fits_pre U data H -> incl H s -> cond_in s (fst (get_optimistic_model fl (learned U data))).
Proof. exact (fun Fi Hs => proj2 (optimistic_exact U data fl s (ex_intro _ H Fi)) (ex_intro _ H (conj Fi Hs))). Qed.
Print Assumptions C31_optimistic_implied_by_real.

(** The effects of the safe model are exactly those that every explanation of the executions shares. *)
Theorem C31_safe_effects_exact U data fl l :
  total_samples U data -> (exists E, fits_eff U data E) ->
  (In l (snd (get_safe_model fl (learned U data))) <-> forall E, fits_eff U data E -> In l E).
Proof. exact (fun T => must_exact U data T fl l). Qed.
Print Assumptions C31_safe_effects_exact.

(** After a success the effects of the optimistic model are exactly the possible ones: none that was refuted, all that
    occur in some explanation. *)
Theorem C31_optimistic_effects_exact U data fl l :
  total_samples U data -> (exists E, fits_eff U data E) -> (exists pre post, In (s_ok pre post) data) ->
  (In l (snd (get_optimistic_model fl (learned U data))) <-> exists E, fits_eff U data E /\ In l E).
Proof. exact (fun T => optimistic_effects_exact U data T fl l). Qed.
Print Assumptions C31_optimistic_effects_exact.

(** No real effect is among the excluded ones. *)
Theorem C31_real_effects_not_excluded U data E l :
  total_samples U data -> fits_eff U data E -> In l E -> ~ In l (o_noeff (learned U data)).
Proof. exact (fun T => eff_not_excluded U data T E l). Qed.
Print Assumptions C31_real_effects_not_excluded.

(** C32.  A state is declared applicable exactly if every precondition that agrees with the executions holds in it, and
    not applicable exactly if none of them does. *)
Theorem C32_applicable_exact U data s :
  (exists H, fits_pre U data H) ->
  (is_state_in_safe_model (learned U data) s = true <-> forall H, fits_pre U data H -> incl H s).
Proof. exact (safe_verdict_exact U data s). Qed.
Print Assumptions C32_applicable_exact.

Theorem C32_not_applicable_exact U data s :
  is_state_not_applicable (learned U data) s = true <-> forall H, fits_pre U data H -> ~ incl H s.
Proof. exact (reject_exact U data s). Qed.
Print Assumptions C32_not_applicable_exact.

Theorem C32_verdicts_correct U data s H :
  fits_pre U data H ->
  (is_state_in_safe_model (learned U data) s = true -> incl H s) /\
  (is_state_not_applicable (learned U data) s = true -> ~ incl H s) /\
  ~ (is_state_in_safe_model (learned U data) s = true /\ is_state_not_applicable (learned U data) s = true).
Proof. exact (verdicts_correct U data s H). Qed.
Print Assumptions C32_verdicts_correct.

(** C49.  Whatever is executed and reviewed, in any order: every failure is blamed on the discrete condition, blamed on
    the numeric condition, or kept as undecided, exactly once; blame is always justified by the real action; both
    learners have seen every success; the counters of the two decided reasons are the numbers of blamed failures. *)
Theorem C49_failures_attributed (N F : Type) (n_safe : N -> F -> bool) (n_add : N -> F -> option F -> N) (a : joint_action F) U n0 es :
  incl (j_pre a) U -> numeric_sound n_safe n_add n0 (j_num a) -> (forall e, In e es -> real_execution a e) ->
  exists data ds df nf,
    on_disc (on_run n_safe n_add U n0 es) = learned U data /\
    on_num (on_run n_safe n_add U n0 es) = fold_left (n_observe n_add) ds n0 /\
    sample_successes data = map fst (successes es) /\ datum_successes ds = map snd (successes es) /\
    sample_failures data = map fst df /\ datum_failures ds = map snd nf /\
    Permutation (failures es) (df ++ nf ++ on_undecided (on_run n_safe n_add U n0 es)) /\
    (forall sx, In sx df -> ~ incl (j_pre a) (fst sx)) /\ (forall sx, In sx nf -> ~ j_num a (snd sx)) /\
    times r_discrete (on_reasons (on_run n_safe n_add U n0 es)) = length df /\
    times r_numeric (on_reasons (on_run n_safe n_add U n0 es)) = length nf /\
    length (on_undecided (on_run n_safe n_add U n0 es)) <= times r_unknown (on_reasons (on_run n_safe n_add U n0 es)).
Proof. exact (fun H1 H2 => attributed n_safe n_add a U n0 H1 H2 es). Qed.
Print Assumptions C49_failures_attributed.

(** Hence the joint verdicts stay correct for the real action. *)
Theorem C49_applicable_sound (N F : Type) (n_safe : N -> F -> bool) (n_add : N -> F -> option F -> N) (a : joint_action F) U n0 es s x :
  incl (j_pre a) U -> numeric_sound n_safe n_add n0 (j_num a) -> (forall e, In e es -> real_execution a e) ->
  (is_applicable n_safe (on_disc (on_run n_safe n_add U n0 es)) (on_num (on_run n_safe n_add U n0 es)) s x = true -> j_applicable a s x) /\
  (is_state_not_applicable (on_disc (on_run n_safe n_add U n0 es)) s = true -> ~ j_applicable a s x).
Proof.
  exact (fun H1 H2 H3 => conj (applicable_sound n_safe n_add a U n0 H1 H2 es s x H3) (rejected_sound n_safe n_add a U n0 H1 H2 es s x H3)).
Qed.
Print Assumptions C49_applicable_sound.

(** After a review every failure still undecided is one that neither safe model accepts. *)
Theorem C49_review_complete (N F : Type) (n_safe : N -> F -> bool) (n_add : N -> F -> option F -> N) (st : online N F) :
  (forall n x y, n_safe (n_add n x None) y = n_safe n y) ->
  forall sx, In sx (on_undecided (eliminate_undecided n_safe n_add st)) ->
    is_state_in_safe_model (on_disc (eliminate_undecided n_safe n_add st)) (fst sx) = false /\
    n_safe (on_num (eliminate_undecided n_safe n_add st)) (snd sx) = false.
Proof. exact (review_fixpoint n_safe n_add st). Qed.
Print Assumptions C49_review_complete.

(** C50.  A sample is reported uninformative exactly if the executions already determine the outcome: every action that
    agrees with them can be executed there, or none can. *)
Theorem C50_uninformative_exact (N F : Type) (n_safe n_bad : N -> F -> bool) U data n (numfit : (F -> Prop) -> Prop) s x :
  (forall y, n_safe n y = true <-> forall Q, numfit Q -> Q y) ->
  (forall y, n_bad n y = true <-> forall Q, numfit Q -> ~ Q y) ->
  (exists H, fits_pre U data H) -> (exists Q, numfit Q) ->
  (is_sample_informative n_safe n_bad (learned U data) n s x = false <->
   (forall H Q, fits_pre U data H -> numfit Q -> incl H s /\ Q x) \/
   (forall H Q, fits_pre U data H -> numfit Q -> ~ (incl H s /\ Q x))).
Proof. exact (fun H1 H2 H3 H4 => uninformative_iff n_safe n_bad U data n numfit H1 H2 H3 H4 s x). Qed.
Print Assumptions C50_uninformative_exact.

(** C51.  Training from any traces of real executions never raises, keeps one learner per action, and each learner's
    discrete part has been told only true things about the real lifted action, including every usable success;
    whatever its joint safe model accepts, the real action can do. *)
Theorem C51_training_faithful (N F : Type) (n_safe : N -> F -> bool) (n_add : N -> F -> option F -> N) (n_init : string -> N)
    dom (real : string -> option (action * (F -> Prop))) traces :
  wf_domain dom -> real_actions dom real ->
  (forall trace, In trace traces -> good_trace dom trace) ->
  (forall trace t, In trace traces -> In t trace -> faithful real t) ->
  (forall n r q, real n = Some (r, q) -> numeric_sound n_safe n_add (n_init n) q) ->
  exists L, train n_safe n_add n_init dom traces = Ok L /\ dict_keys L = dict_keys (d_actions dom) /\
    forall n a r q, dict_get (d_actions dom) n = Some a -> real n = Some (r, q) ->
      exists st data, dict_get L n = Some st /\ on_disc st = learned (lifted_vocabulary dom (a_sig a) None) data /\
        fits_pre (lifted_vocabulary dom (a_sig a) None) data (a_pre r) /\
        fits_eff (lifted_vocabulary dom (a_sig a) None) data (a_eff r) /\
        total_samples (lifted_vocabulary dom (a_sig a) None) data /\
        (forall t, used traces n t -> cp_ok (t_cp t) = true ->
           let sg := call_assignment (a_sig a) (cp_call (t_cp t)) in
           exists p p', In (s_ok p p') data /\ view dom (a_sig a) (cp_prev (t_cp t)) sg p /\ view dom (a_sig a) (cp_next (t_cp t)) sg p') /\
        (forall p p', In (s_ok p p') data -> exists t, used traces n t /\ cp_ok (t_cp t) = true /\
           let sg := call_assignment (a_sig a) (cp_call (t_cp t)) in
           view dom (a_sig a) (cp_prev (t_cp t)) sg p /\ view dom (a_sig a) (cp_next (t_cp t)) sg p') /\
        (forall s sg ls x, view dom (a_sig a) s sg ls -> is_applicable n_safe (on_disc st) (on_num st) ls x = true -> can_execute r q sg s x).
Proof. exact (fun W RA => train_spec n_safe n_add n_init dom real W RA traces). Qed.
Print Assumptions C51_training_faithful.

(** So the safe model exported for an action, grounded in a world state, holds only where the real precondition does,
    and its effects are real effects. *)
Theorem C51_safe_model_sound (N F : Type) (n_safe : N -> F -> bool) (n_add : N -> F -> option F -> N) (n_init : string -> N)
    dom (real : string -> option (action * (F -> Prop))) traces :
  wf_domain dom -> real_actions dom real ->
  (forall trace, In trace traces -> good_trace dom trace) ->
  (forall trace t, In trace traces -> In t trace -> faithful real t) ->
  (forall n r q, real n = Some (r, q) -> numeric_sound n_safe n_add (n_init n) q) ->
  exists L, train n_safe n_add n_init dom traces = Ok L /\
    forall n a r q st fl sg s, dict_get (d_actions dom) n = Some a -> real n = Some (r, q) -> dict_get L n = Some st ->
      (f_holds (fun l => lit_true s (ground sg l)) (fst (get_safe_model fl (on_disc st))) -> forall l, In l (a_pre r) -> lit_true s (ground sg l)) /\
      ((forall l, In l (a_pre r) -> lit_true s (ground sg l)) -> f_holds (fun l => lit_true s (ground sg l)) (fst (get_optimistic_model fl (on_disc st)))) /\
      (forall l, In l (snd (get_safe_model fl (on_disc st))) -> In l (a_eff r)) /\
      ((exists t, used traces n t /\ cp_ok (t_cp t) = true) -> forall l, In l (a_eff r) -> In l (snd (get_optimistic_model fl (on_disc st)))).
Proof. exact (fun W RA => train_models n_safe n_add n_init dom real W RA traces). Qed.
Print Assumptions C51_safe_model_sound.

(** Actions with one numeric function: no assumption about the numeric learner is left.  Its safe model accepts exactly
    the values that every convex condition agreeing with the executions accepts; once two different successes were seen
    it rejects exactly those that none accepts. *)
Theorem C50_single_function_exact ds x :
  (exists Q, fits_num ds Q) ->
  (n1_safe (num_learned ds) x = true <-> forall Q, fits_num ds Q -> Q x) /\
  (two_successes ds -> (n1_bad (num_learned ds) x = true <-> forall Q, fits_num ds Q -> ~ Q x)).
Proof. exact (fun E => conj (n1_safe_exact ds x E) (fun T => n1_bad_exact ds x T E)). Qed.
Print Assumptions C50_single_function_exact.

Theorem C50_single_function_uninformative U data ds s x :
  (exists H, fits_pre U data H) -> (exists Q, fits_num ds Q) -> two_successes ds ->
  (is_sample_informative n1_safe n1_bad (learned U data) (num_learned ds) s x = false <->
   (forall H Q, fits_pre U data H -> fits_num ds Q -> incl H s /\ Q x) \/
   (forall H Q, fits_pre U data H -> fits_num ds Q -> ~ (incl H s /\ Q x))).
Proof.
  exact (fun E1 E2 T => uninformative_iff n1_safe n1_bad U data (num_learned ds) (fits_num ds)
           (fun y => n1_safe_exact ds y E2) (fun y => n1_bad_exact ds y T E2) E1 E2 s x).
Qed.
Print Assumptions C50_single_function_uninformative.

(** C49 and C51 for them: every convex numeric condition is learned soundly. *)
Theorem C49_single_function_sound Q : convex Q -> numeric_sound n1_safe n1_add n1_init Q.
Proof. exact (n1_numeric_sound Q). Qed.
Print Assumptions C49_single_function_sound.

(** C51: after training, a failure is still undecided only if neither safe model accepts it. *)
Theorem C51_training_reviewed (N F : Type) (n_safe : N -> F -> bool) (n_add : N -> F -> option F -> N) (n_init : string -> N) dom traces L :
  wf_domain dom -> (forall n x y, n_safe (n_add n x None) y = n_safe n y) -> (forall trace, In trace traces -> good_trace dom trace) ->
  train n_safe n_add n_init dom traces = Ok L ->
  forall n st sx, dict_get L n = Some st -> In sx (on_undecided st) ->
    is_state_in_safe_model (on_disc st) (fst sx) = false /\ n_safe (on_num st) (snd sx) = false.
Proof. exact (fun W Hn Gt E n st sx G => train_reviewed n_safe n_add n_init dom W traces L Hn Gt E n st G sx). Qed.
Print Assumptions C51_training_reviewed.
