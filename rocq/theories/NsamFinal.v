(** * Proofs: the properties of Numeric SAM in the words of its specification *)
From Verif Require Import NsamSpec VocabProofs SamProofs SamFinal SamResults NsamMatch NsamLoop NsamProofs NsamOwn Prelude PreludeProofs.
Open Scope string_scope. Open Scope list_scope. Open Scope nat_scope.

Lemma functions_matched dom a c (st : fluents) : wf_domain dom -> dict_get (d_actions dom) (c_name c) = Some a -> length (c_params c) = length (a_sig a) -> NoDup (c_params c) -> no_constant_args dom c ->
  (forall f, In (f, []) (d_funcs dom) -> dict_get st (f, []) <> None) ->
  exists m, match_state_functions dom c (numeric_state_snapshot st (parameterized_objects dom a c)) = Ok m /\
    forall l v, dict_get m l = Some v <-> nameable dom (a_sig a) l /\ dict_get st (fst l, map (call_assignment (a_sig a) c) (snd l)) = Some v.
Proof.
  intros WF G LEN ND NC NU. assert (GC : good_call dom a c).
  { constructor; [exact G| | | |exact LEN].
    - eapply wf_sigs; [exact WF|apply dict_get_In; exact G].
    - intros y Y. eapply (wf_disj _ WF); [apply dict_get_In; exact G|exact Y].
    - apply (wf_consts _ WF). }
  apply (match_snapshot dom a c GC ND NC st NU).
Qed.

Section Run.
Variable le : text -> text -> bool.
Variables unit fine : positive.
Variable fit : list (list Q) -> list Q -> list Q * Q * bool.
Variable hull : list (list Q) -> option (list (list Q) * list Q).
Variable gram : list (list Q) -> list (list Q).
Variable complement : nat -> list (list Q) -> list (list Q).
Variable rank : list (list Q) -> nat.
Variables (dom : domain) (relevant : option (list (string * list text))) (unsafe : bool) (degree : nat) (policy : neg_policy) (obs : list (list ncomponent)).
Notation learn := (learn_numeric_model le unit fine fit hull gram complement rank).
Hypothesis IN : nsam_input dom obs.
Variables (N : nlearner) (report : list (string * nverdict)).
Hypothesis E : learn (init_nlearner dom relevant unsafe degree policy) obs = Ok (N, report).

Lemma run_pair real n a0 a r conds effs np : exact_oracles unit fine fit hull gram complement -> dict_get (d_actions dom) n = Some a0 ->
  dict_get (d_actions (s_dom (n_sam N))) n = Some a -> dict_get (n_numeric N) n = Some (conds, effs) ->
  real_domain dom real -> real n = Some r -> real_components real (concat (comps obs)) -> policy_ok policy (concat (comps obs)) n r ->
  expressible_part dom (a_sig a0) degree relevant n np -> real_observations unit dom (a_sig a0) degree np obs n -> safe_pair dom a r conds np.
Proof.
  intros EO G0 GA GN RD R RC PO XP RO sg s g IB AP SAT.
  destruct (run_safe_discrete le unit fine fit hull gram complement rank dom relevant unsafe degree policy obs IN N report E n a0 G0 real a r RD RC PO GA R sg s IB AP) as (H1 & H2).
  destruct (run_numeric le unit fine fit hull gram complement rank dom relevant unsafe degree policy obs IN N report E n a0 conds effs np EO G0 GN XP RO (lifted_state sg g) SAT) as (H3 & _). auto.
Qed.
Lemma run_listed : map fst report = filter (fun n => match of_action n obs with [] => false | _ => true end) (dict_keys (d_actions dom)) /\
  (forall n, dict_get report n = Some nv_ok <-> exists a, dict_get (d_actions (s_dom (n_sam N))) n = Some a) /\
  (forall n, dict_get report n = Some nv_ok <-> exists x, dict_get (n_numeric N) n = Some x) /\
  (forall n v, dict_get report n = Some v -> v = nv_ok \/ v = nv_not_safe).
Proof.
  destruct (run_report le unit fine fit hull gram complement rank dom relevant unsafe degree policy obs IN N report E) as (R1 & R2 & R3 & R4).
  assert (ND : NoDup (map fst report)) by (rewrite R1; apply NoDup_filter, (wf_acts _ (in_wf _ _ IN))).
  assert (OKIFF : forall n, In n (map fst (filter reported report)) <-> dict_get report n = Some nv_ok).
  { intros n. split.
    - intros K. apply in_map_iff in K. destruct K as ((n' & v) & <- & K). apply filter_In in K. destruct K as (K & V). destruct v; try discriminate. apply dict_In_get; assumption.
    - intros K. apply dict_get_In in K. apply (in_map fst _ (n, nv_ok)). apply filter_In. split; [exact K|reflexivity]. }
  split; [rewrite R1; apply filter_ext; intros n; rewrite of_action_evid; reflexivity|].
  split; [intros n; rewrite <- OKIFF, <- R2; apply dict_get_Some_iff|]. split; [intros n; rewrite <- OKIFF, <- R3; apply dict_get_Some_iff|].
  intros n v V. apply dict_get_In in V. exact (R4 n v V).
Qed.
End Run.
Lemma no_functions le unit fine fit hull gram complement rank dom relevant unsafe degree policy obs : d_funcs dom = [] ->
  learn_numeric_model le unit fine fit hull gram complement rank (init_nlearner dom relevant unsafe degree policy) obs =
  match learn_action_model (init_learner dom policy true) (comps obs) with
  | Ok (L, rep) => Ok (with_sam (init_nlearner dom relevant unsafe degree policy) L, map (fun nv => (fst nv, nv_sam (snd nv))) rep)
  | Err e => Err e
  end.
Proof. intros H. unfold learn_numeric_model. cbn [n_sam init_nlearner s_dom init_learner]. rewrite H. unfold comps. destruct (learn_action_model _ _) as [(L & rep)|]; reflexivity. Qed.
