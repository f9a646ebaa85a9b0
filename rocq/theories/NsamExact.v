(** * Proofs: without a list of fluents the learned conditions are exactly the means of the observations *)
From Coq Require Import Lia.
From Verif Require Import InsamSpec NumProofs MonoProofs HullProofs HullObserved HullSafe HullMean IncSafe VocabProofs SamProofs SamFinal SamResults NsamMatch NsamStore NsamHull NsamSafe NsamLoop NsamProofs OnumProofs OnumTrain OnumClaims InsamLoop InsamProofs Prelude PreludeProofs.
Open Scope string_scope. Open Scope list_scope. Open Scope nat_scope.
Local Notation value_in := NumSpec.value_in.

Lemma Forall2_map_same {A B} (R : B -> B -> Prop) (f g : A -> B) l : (forall x, In x l -> R (f x) (g x)) -> Forall2 R (map f l) (map g l).
Proof. induction l as [|x l IH]; intros H; constructor; [apply H; left; reflexivity|apply IH; intros y Y; apply H; right; exact Y]. Qed.

Section Hull.
Variable unit : positive.
Variable fit : list (list Q) -> list Q -> list Q * Q * bool.
Variable hull : list (list Q) -> option (list (list Q) * list Q).
Variable gram : list (list Q) -> list (list Q).
Variable complement : nat -> list (list Q) -> list (list Q).
Hypothesis U : (1 # unit < 1)%Q.
Hypothesis FIT : exact_fit unit fit.
Hypothesis EH : exact_hull unit hull.
Hypothesis EB : exact_basis unit gram complement.
Variable le : text -> text -> bool.
Variables (dom : domain) (sig : signature) (degree : nat).
Hypothesis PF : proper_functions dom.
Let V := lifted_functions_vocabulary dom sig None.
Let names := map term_text V.
Let ms := create_monomials le names degree.
Lemma conditions_of_means s es conds st qs ws : storage_ok le dom sig degree s es -> es <> [] -> (forall e, In e es -> proper_pair dom sig e) ->
  (forall e m, In e es -> In m ms -> clean unit (product (map (pair_value e) m))) -> weighing qs ws -> incl qs es ->
  (forall m, In m ms -> (product (map (value_in (by_text (state_fluents dom sig st))) m) == wmean qs ws (fun e => product (map (pair_value e) m)))%Q) ->
  construct_safe_linear_inequalities unit fit hull gram complement (st_hull s) None = Ok conds -> all_satisfied st conds.
Proof.
  intros SO NE PP CL W IQ M E. pose proof (names_NoDup dom sig) as NN. pose proof (names_functions dom sig PF) as FN. fold V names in NN, FN.
  assert (DV : V = [] \/ V <> []) by (destruct V; [left; reflexivity|right; discriminate]). destruct DV as [EV|NV].
  { pose proof (so_monomials _ _ _ _ _ _ SO) as SM. fold V names ms in SM. assert (EM : ms = []) by (apply (monomials_empty le names degree NN); unfold names; rewrite EV; reflexivity).
    rewrite (so_hull _ _ _ _ _ _ SO), SM, EM in E. unfold add_points in E. cbn [map] in E. rewrite empty_points in E. apply no_columns in E. subst conds. exact I. }
  destruct (hull_frame unit le dom sig degree PF s es SO NE NV PP CL) as (T & CD & RN & COLS & _ & RO & VP). fold V names ms in COLS, RO, VP. set (d := st_hull s) in *.
  assert (INS : incl names (dict_keys (by_text (state_fluents dom sig st)))) by (intros z Z; rewrite by_text_keys, state_fluents_keys; exact Z).
  pose proof (state_row le dom sig degree PF st (f_cols d) ltac:(intros c C; apply COLS; exact C)) as RS. fold V names ms in RS.
  set (x := map (value_in (create_grounded_monomials ms (by_text (state_fluents dom sig st)))) (f_cols d)) in *.
  eapply (means_satisfied unit fit hull gram complement d None conds st x); try eassumption; [apply map_length|]. cbn [chosen]. rewrite map_id.
  apply (hull_spread (map (fun e => map (value_in (point ms e)) (f_cols d)) qs)).
  { intros r R. apply in_map_iff in R. destruct R as (e & <- & R). destruct (RO e (IQ e R)) as (b & B & BE). exists b. split; [exact B|]. apply Forall2_flip in BE. eapply Forall2_imp; [|exact BE]. cbn beta. intros p q PQ. symmetry. exact PQ. }
  destruct W as (W1 & W2 & W3). exists ws. split; [rewrite map_length; exact W1|]. split; [exact W2|]. split; [exact W3|]. intros j J. unfold x in J |- *. rewrite map_length in J.
  rewrite (nth_indep _ 0%Q (value_in (create_grounded_monomials ms (by_text (state_fluents dom sig st))) [])) by (rewrite map_length; exact J). rewrite map_nth. set (c := nth j (f_cols d) []).
  assert (C : In c (f_cols d)) by (apply nth_In; exact J). pose proof C as C'. apply COLS in C'. apply in_map_iff in C'. destruct C' as (m & MC & MI). rewrite <- MC.
  eapply Qeq_trans; [exact (sample_value le names degree NN FN (by_text (state_fluents dom sig st)) m INS MI)|]. eapply Qeq_trans; [exact (M m MI)|]. unfold wmean. rewrite map_map. apply linear_same. intros e IE.
  rewrite (nth_indep _ 0%Q (value_in (point ms e) [])) by (rewrite map_length; exact J). rewrite map_nth. fold c. rewrite <- MC. symmetry. apply VP; [apply IQ; exact IE|exact MI].
Qed.
End Hull.

Section Run.
Variable le : text -> text -> bool.
Variables unit fine : positive.
Variable fit : list (list Q) -> list Q -> list Q * Q * bool.
Variable hull : list (list Q) -> option (list (list Q) * list Q).
Variable gram : list (list Q) -> list (list Q).
Variable complement : nat -> list (list Q) -> list (list Q).
Variable rank : list (list Q) -> nat.
Variables (dom : domain) (relevant : option (list (string * list text))) (unsafe : bool) (degree : nat) (policy : neg_policy) (obs : list (list ncomponent)).
Notation learn := (learn_numeric_model le unit fine fit hull gram complement rank).
Hypothesis IN : nsam_input dom obs.
Variables (N : nlearner) (report : list (string * nverdict)).
Hypothesis E : learn (init_nlearner dom relevant unsafe degree policy) obs = Ok (N, report).
Variables (n : string) (a0 : action) (conds effs : list text).
Hypothesis EO : exact_oracles unit fine fit hull gram complement.
Hypothesis G0 : dict_get (d_actions dom) n = Some a0.
Hypothesis GN : dict_get (n_numeric N) n = Some (conds, effs).
Hypothesis NONE : relevant = None.
Lemma run_parts : exists s es learned, Forall2 (pair_for dom (a_sig a0)) (of_action n obs) es /\ es <> [] /\ storage_ok le dom (a_sig a0) degree s es /\
  construct_safe_linear_inequalities unit fit hull gram complement (st_hull s) None = Ok learned /\ conds = match learned with Some cs => cs | None => [] end /\
  exists l' cc sf, construct_assignment_equations unit fine fit rank (st_effects s) unsafe None = Ok (l', effs, cc, sf).
Proof.
  destruct (run_unfold le unit fine fit hull gram complement rank dom relevant unsafe degree policy obs IN N report E) as (N2 & allowed & nums & st' & I & ES & EM & EA & EN). pose proof (ni_sam _ _ _ _ _ _ _ _ I) as SI.
  assert (KE : dict_keys (d_actions (s_dom (handle_negative_preconditions_policy (n_sam N2)))) = dict_keys (d_actions dom)) by (rewrite policy_keys; apply (si_keys _ _ _ _ _ SI)).
  destruct (make_actions_spec unit fine fit hull gram complement rank (with_sam N2 (handle_negative_preconditions_policy (n_sam N2))) _ _ _ _ _ _ ltac:(rewrite KE; apply (wf_acts _ (in_wf _ _ IN))) ltac:(intros k _; repeat split) EM) as (R1 & R2 & R3 & R4 & R5).
  set (N3 := with_sam N2 (handle_negative_preconditions_policy (n_sam N2))) in *.
  assert (GA : exists a, dict_get allowed n = Some a) by (apply dict_get_Some_iff; rewrite <- R3; rewrite EN in GN; eapply dict_get_key; exact GN).
  destruct GA as (a & GA). destruct (run_discrete le unit fine fit hull gram complement rank dom relevant unsafe degree policy obs IN N report E) as (L & rep & _ & RD). rewrite EA in RD. destruct (RD n a GA) as (EV & _). apply run_evidence in EV.
  destruct (R4 n a GA) as (b & conds' & effs' & GB & _ & GN' & CP & CE). rewrite EN, GN' in GN. injection GN as -> ->.
  destruct (ni_some _ _ _ _ _ _ _ _ I n a0 G0 EV) as (s & es & GS & F & SO).
  assert (NE : es <> []) by (intros ->; inversion F as [X|]; congruence).
  assert (RL : relevant_of N3 n = Ok None) by (unfold relevant_of; change (n_relevant N3) with (n_relevant N2); rewrite (ni_relevant _ _ _ _ _ _ _ _ I), NONE; reflexivity).
  unfold construct_safe_numeric_preconditions in CP. unfold effects_of, construct_safe_numeric_effects in CE. rewrite RL in CP, CE. cbn [bind] in CP, CE.
  unfold dict_lookup in CP, CE. change (n_storage N3) with (n_storage N2) in *. rewrite GS in CP, CE. cbn [bind] in CP, CE.
  change (n_unsafe N3) with (n_unsafe N2) in CE. rewrite (ni_unsafe _ _ _ _ _ _ _ _ I) in CE.
  destruct (construct_safe_linear_inequalities unit fit hull gram complement (st_hull s) None) as [learned|] eqn:CL; [|discriminate]. cbn [bind] in CP.
  exists s, es, learned. split; [rewrite OnumTrain.of_action_evid; exact F|]. split; [exact NE|]. split; [exact SO|]. split; [exact CL|]. split; [destruct learned; cbn [bind] in CP; congruence|].
  destruct (construct_assignment_equations unit fine fit rank (st_effects s) unsafe None) as [(((l' & ef) & cc) & sf)|]; [|discriminate]. cbn [bind] in CE. injection CE as <-. eauto.
Qed.
Theorem run_exact st : (forall cp, nevidence obs n cp -> clean_values unit dom (a_sig a0) degree cp) -> ((forall t, In t conds -> satisfied st t) <-> mean_of_observed dom (a_sig a0) degree obs n st).
Proof.
  intros CLV. destruct run_parts as (s & es & learned & F & NE & SO & CL & CD & _).
  assert (MEM : forall cp, In cp (of_action n obs) -> nevidence obs n cp) by (intros cp C; rewrite OnumTrain.of_action_evid in C; apply evid_In; exact C).
  assert (CPS : forall cp, In cp (of_action n obs) -> complete_fluents dom (a_sig a0) cp) by (intros cp C; eapply (in_complete _ _ IN); [exact G0|apply MEM, C]).
  assert (CLS : forall cp, In cp (of_action n obs) -> clean_values unit dom (a_sig a0) degree cp) by (intros cp C; apply CLV, MEM, C).
  assert (AS : (forall t, In t conds -> satisfied st t) <-> all_satisfied st learned) by (rewrite CD; destruct learned; [reflexivity|split; [intros _; exact Logic.I|intros _ t []]]).
  rewrite AS. unfold mean_of_observed, mean_state. split.
  - intros SAT.
    destruct (condition_means unit fine fit hull gram complement EO le dom (a_sig a0) degree None n None (in_functions _ _ IN) eq_refl st (of_action n obs) es F NE CPS CLS s SO learned CL SAT) as (qcs & qs & ws & (W1 & W2 & W3) & WQ & IQ & IE & FQ & M & MQ).
    exists (map (num_before (a_sig a0)) qcs), ws. split; [intros z Z; apply in_map_iff in Z; destruct Z as (cp & <- & Z); apply in_map, IQ, Z|]. split; [rewrite map_length; exact W1|]. split; [exact W2|]. split; [exact W3|].
    intros m (O1 & O2 & O3). unfold product_value. rewrite map_map. apply M; [|intros m' _; exact Logic.I]. split; [exact O1|]. split; [exact O2|]. intros t T. apply vocabulary_In, O3, T.
  - intros (qs & ws & INC & LEN & NN & S1 & M). destruct (incl_map_back _ _ _ INC) as (qcs & IC & ->). rewrite map_length in LEN.
    assert (PK : exists qes, incl qes es /\ Forall2 (pair_for dom (a_sig a0)) qcs qes).
    { clear LEN M INC. induction qcs as [|cp qcs IH]; [exists []; split; [intros ? []|constructor]|]. destruct IH as (qes & I1 & F1); [intros z Z; apply IC; right; exact Z|].
      assert (X : exists e, In e es /\ pair_for dom (a_sig a0) cp e).
      { pose proof (IC cp (or_introl eq_refl)) as C. clear - F C. induction F as [|c e cs es' P F IH]; [destruct C|]. destruct C as [->|C]; [exists e; split; [left; reflexivity|exact P]|]. destruct (IH C) as (e' & J & P'). exists e'. split; [right; exact J|exact P']. }
      destruct X as (e & X1 & X2). exists (e :: qes). split; [intros z [<-|Z]; [exact X1|apply I1, Z]|constructor; assumption]. }
    destruct PK as (qes & IE & FQ). assert (L : length qcs = length qes) by (eapply Forall2_length; exact FQ).
    assert (PP : forall e, In e es -> proper_pair dom (a_sig a0) e) by (intros x X; destruct (Forall2_In_l _ _ _ _ F X) as (cp & CP & P); eapply pair_proper; [exact P|apply CPS; exact CP]).
    destruct EO as [U _ (FIT & _) EH CH EB CB].
    eapply (conditions_of_means unit fit hull gram complement U FIT EH EB le dom (a_sig a0) degree (in_functions _ _ IN) s es learned st qes ws SO NE PP); [| |exact IE| |exact CL].
    + intros e m X MI. destruct (Forall2_In_l _ _ _ _ F X) as (cp & CP & P). destruct (monomial_tracked le dom (a_sig a0) degree m MI) as (m0 & -> & T). rewrite (before_products dom (a_sig a0) cp e m0 P (proj2 (proj2 T))). apply CLS; assumption.
    + split; [rewrite <- L; exact LEN|]. split; [exact NN|exact S1].
    + intros m MI. destruct (monomial_tracked le dom (a_sig a0) degree m MI) as (m0 & -> & T). assert (O : of_terms (lifted_functions_vocabulary dom (a_sig a0) None) degree m0) by (split; [apply T|split; [apply T|intros t X; apply vocabulary_In, T, X]]).
      rewrite map_map, (map_ext_in _ (term_value st)) by (intros t X; apply value_of_text, vocabulary_In, T, X). eapply Qeq_trans; [exact (M m0 O)|]. rewrite map_map.
      apply (wmean_pairs (pair_for dom (a_sig a0)) qcs qes FQ ws). intros cp e P _ _. rewrite (before_products dom (a_sig a0) cp e m0 P (proj2 (proj2 T))). reflexivity.
Qed.
End Run.
