(** * Proofs: the properties of incremental Numeric SAM in the words of its specification *)
From Verif Require Import InsamSpec VocabProofs SamProofs SamFinal SamResults NsamMatch NsamStore NsamSafe NsamLoop NsamProofs NsamExact OnumProofs OnumTrain OnumClaims InsamLoop InsamProofs Prelude PreludeProofs.
Open Scope string_scope. Open Scope list_scope. Open Scope nat_scope.

Section Run.
Variable le : text -> text -> bool.
Variables unit fine : positive.
Variable fit : list (list Q) -> list Q -> list Q * Q * bool.
Variable hull : list (list Q) -> option (list (list Q) * list Q).
Variable schmidt : list (list Q) -> list (list Q) -> list (list Q).
Variable rank : list (list Q) -> nat.
Notation learn := (learn_incremental_model le unit fine fit hull schmidt rank).
Variables (dom : domain) (relevant : option (list (string * list text))) (unsafe : bool) (degree : nat) (policy : neg_policy) (obs : list (list ncomponent)).
Hypothesis EL : exact_libraries unit fit hull schmidt.
Hypothesis IM : insam_input unit fit le dom degree obs.
Local Notation IN := (im_base _ _ _ _ _ _ IM).
Variables (N : ilearner) (report : list (string * nverdict)).
Hypothesis E : learn (init_ilearner dom relevant unsafe degree policy) obs = Ok (N, report).

Lemma irun_safe_discrete n a0 real a r : dict_get (d_actions dom) n = Some a0 -> real_domain dom real -> real_components real (concat (comps obs)) -> policy_ok policy (concat (comps obs)) n r ->
  dict_get (d_actions (s_dom (is_sam N))) n = Some a -> real n = Some r -> safe_for dom a r.
Proof.
  intros G0 RD RC PO G R. destruct (irun_discrete le unit fine fit hull schmidt rank dom relevant unsafe degree policy obs EL IM N report E) as (L & rep & ES & H). destruct (H n a G) as (_ & b & GB & ->).
  assert (SF : safe_for dom b r) by (eapply (run_safe dom policy true (comps obs) L rep); try apply IN; eassumption).
  destruct (run_action dom policy true (comps obs) L rep (in_wf _ _ IN) (in_blank _ _ IN) (in_calls _ _ IN) (in_constants _ _ IN) ES n b GB) as (b0 & GB0 & LA).
  assert (b0 = a0) by congruence. subst b0. assert (SE : a_sig r = a_sig a0) by (destruct (StripsSpec.real_sig _ _ RD n a0 G0) as (r' & E' & Es); congruence).
  intros sg s0 IB (A1 & _). apply SF; [exact IB|]. split; [exact A1|]. intros x y XY. apply (la_ineq _ _ _ _ _ _ _ LA) in XY. destruct XY as (_ & BI & _ & _). rewrite SE in IB.
  destruct (before_in_In _ _ _ BI) as (IX & IY). intros EQ. apply (ib_inj _ _ _ IB) in EQ; [|apply in_app_iff; left; exact IX|apply in_app_iff; left; exact IY].
  revert EQ. apply (before_in_neq (a_sig a0)); [|exact BI]. eapply wf_sigs; [apply IN|apply dict_get_In; exact G0].
Qed.
Lemma irun_pair real n a0 a r conds effs np : (exists k, fine = (unit * k)%positive) -> exact_regression unit fit -> dict_get (d_actions dom) n = Some a0 ->
  dict_get (d_actions (s_dom (is_sam N))) n = Some a -> dict_get (is_numeric N) n = Some (conds, effs) ->
  real_domain dom real -> real n = Some r -> real_components real (concat (comps obs)) -> policy_ok policy (concat (comps obs)) n r ->
  expressible_part dom (a_sig a0) degree relevant n np -> (forall cp, nevidence obs n cp -> real_numeric dom (a_sig a0) np cp) -> safe_pair dom a r conds np.
Proof.
  intros FN RG G0 GA GN RD R RC PO XP RO sg s g IB AP SAT.
  destruct (irun_safe_discrete n a0 real a r G0 RD RC PO GA R sg s IB AP) as (H1 & H2).
  destruct (irun_numeric le unit fine fit hull schmidt rank dom relevant unsafe degree policy obs EL IM N report E n a0 conds effs G0 GN np XP RO FN RG (lifted_state sg g) SAT) as (H3 & _). auto.
Qed.
Lemma irun_listed : map fst report = filter (fun n => match of_action n obs with [] => false | _ => true end) (dict_keys (d_actions dom)) /\
  (forall n, dict_get report n = Some nv_ok <-> exists a, dict_get (d_actions (s_dom (is_sam N))) n = Some a) /\
  (forall n, dict_get report n = Some nv_ok <-> exists x, dict_get (is_numeric N) n = Some x) /\
  (forall n v, dict_get report n = Some v -> v = nv_ok \/ v = nv_not_safe).
Proof.
  destruct (irun_report le unit fine fit hull schmidt rank dom relevant unsafe degree policy obs EL IM N report E) as (R1 & R2 & R3 & R4).
  assert (ND : NoDup (map fst report)) by (rewrite R1; apply NoDup_filter, (wf_acts _ (in_wf _ _ IN))).
  assert (OKIFF : forall n, In n (map fst (filter reported report)) <-> dict_get report n = Some nv_ok).
  { intros n. split.
    - intros K. apply in_map_iff in K. destruct K as ((n' & v) & <- & K). apply filter_In in K. destruct K as (K & V). destruct v; try discriminate. apply dict_In_get; assumption.
    - intros K. apply dict_get_In in K. apply (in_map fst _ (n, nv_ok)). apply filter_In. split; [exact K|reflexivity]. }
  split; [rewrite R1; apply filter_ext; intros n; rewrite of_action_evid; reflexivity|].
  split; [intros n; rewrite <- OKIFF, <- R2; apply dict_get_Some_iff|]. split; [intros n; rewrite <- OKIFF, <- R3; apply dict_get_Some_iff|].
  intros n v V. apply dict_get_In in V. exact (R4 n v V).
Qed.
End Run.

Lemma ino_functions le unit fine fit hull schmidt rank dom relevant unsafe degree policy obs : d_funcs dom = [] ->
  learn_incremental_model le unit fine fit hull schmidt rank (init_ilearner dom relevant unsafe degree policy) obs =
  match learn_action_model (init_learner dom policy true) (comps obs) with
  | Ok (L, rep) => Ok (iwith_sam (init_ilearner dom relevant unsafe degree policy) L, map (fun nv => (fst nv, nv_sam (snd nv))) rep)
  | Err e => Err e
  end.
Proof. intros H. unfold learn_incremental_model. cbn [is_sam init_ilearner s_dom init_learner]. rewrite H. unfold comps. destruct (learn_action_model _ _) as [(L & rep)|]; reflexivity. Qed.

(** ** The batch learner *)
Section Batch.
Variable le : text -> text -> bool.
Variables unit fine : positive.
Variable fit : list (list Q) -> list Q -> list Q * Q * bool.
Variable hull : list (list Q) -> option (list (list Q) * list Q).
Variable schmidt : list (list Q) -> list (list Q) -> list (list Q).
Variable gram : list (list Q) -> list (list Q).
Variable complement : nat -> list (list Q) -> list (list Q).
Variable rank : list (list Q) -> nat.

Definition tables (s : istorage) : list (list text) * RegModel.learner := (ih_monomials s, ih_effects s).
Definition batch_tables (s : storage) : list (list text) * RegModel.learner := (st_monomials s, st_effects s).
Record alike (I : ilearner) (B : nlearner) : Prop :=
  { al_sam : is_sam I = n_sam B;
    al_degree : is_degree I = n_degree B;
    al_storage : forall n, option_map tables (dict_get (is_storage I) n) = option_map batch_tables (dict_get (n_storage B) n) }.
Lemma store_alike d c si sb prev next si' sb' : tables si = batch_tables sb -> istore unit fit hull schmidt d c si prev next = Ok si' -> store d c sb prev next = Ok sb' -> tables si' = batch_tables sb'.
Proof.
  unfold istore, store. intros T. destruct (match_state_functions d c prev) as [m1|]; [|discriminate]. destruct (match_state_functions d c next) as [m2|]; [|discriminate]. cbn [bind].
  unfold iadd_previous. destruct (IncModel.add_new_point unit fit hull schmidt (ih_hull si) _) as [h|]; [|discriminate]. cbn [bind]. intros X Y. injection X as <-. injection Y as <-.
  unfold tables, batch_tables in *. injection T as T1 T2. unfold iadd_next, add_to_next_state_storage, add_to_previous_state_storage. cbn [ih_monomials ih_effects st_monomials st_effects]. rewrite T1, T2. reflexivity.
Qed.
Lemma step_alike I B cp I' B' : alike I B -> handle_icomponent le unit fit hull schmidt I cp = Ok I' -> handle_ncomponent le B cp = Ok B' -> alike I' B'.
Proof.
  intros [A1 A2 A3]. unfold handle_icomponent, handle_ncomponent. rewrite A1. set (c := cp_call (nc_comp cp)). destruct (verify_parameter_duplication (n_sam B) c) as [(L1 & dup)|]; [|discriminate]. cbn [bind].
  destruct dup; [intros X Y; injection X as <-; injection Y as <-; constructor; [reflexivity|exact A2|exact A3]|].
  destruct (dict_lookup (d_actions (s_dom L1)) (c_name c)) as [a|]; [|discriminate]. cbn [bind]. destruct (triplet_snapshot (s_dom L1) (cp_prev (nc_comp cp)) (cp_next (nc_comp cp)) c) as [(prev & next)|]; [|discriminate]. cbn [bind].
  assert (SET : forall si sb L2, tables si = batch_tables sb -> alike (iwith_storage (iwith_sam I L2) (dict_set (is_storage I) (c_name c) si)) (with_storage (with_sam B L2) (dict_set (n_storage B) (c_name c) sb))).
  { intros si sb L2 T. constructor; [reflexivity|exact A2|]. intros n. cbn [is_storage iwith_storage n_storage with_storage]. rewrite !dict_get_set. destruct (eq_dec n (c_name c)); [cbn; rewrite T; reflexivity|apply A3]. }
  destruct (memb (c_name c) (s_observed L1)).
  - destruct (update_action L1 c prev next) as [L2|]; [|discriminate]. cbn [bind]. unfold dict_lookup. specialize (A3 (c_name c)).
    destruct (dict_get (is_storage I) (c_name c)) as [si|]; [|discriminate]. destruct (dict_get (n_storage B) (c_name c)) as [sb|]; [|discriminate]. cbn [bind]. cbn [option_map] in A3. injection A3 as T1 T2.
    destruct (istore unit fit hull schmidt (s_dom L2) c si _ _) as [si'|] eqn:EI; [|discriminate]. destruct (store (s_dom L2) c sb _ _) as [sb'|] eqn:EB; [|discriminate]. cbn [bind]. intros X Y. injection X as <-. injection Y as <-.
    apply SET. eapply store_alike; [|exact EI|exact EB]. unfold tables, batch_tables. rewrite T1, T2. reflexivity.
  - destruct (add_new_action L1 c prev next) as [L2|]; [|discriminate]. cbn [bind]. rewrite A2.
    destruct (istore unit fit hull schmidt (s_dom L2) c _ _ _) as [si'|] eqn:EI; [|discriminate]. destruct (store (s_dom L2) c _ _ _) as [sb'|] eqn:EB; [|discriminate]. cbn [bind]. intros X Y. injection X as <-. injection Y as <-.
    apply SET. eapply store_alike; [|exact EI|exact EB]. reflexivity.
Qed.
Lemma loop_alike cps : forall I B I' B', alike I B -> fold_res (icomp_step le unit fit hull schmidt) cps I = Ok I' -> fold_res (ncomp_step le) cps B = Ok B' -> alike I' B'.
Proof.
  induction cps as [|cp cps IH]; intros I B I' B' A EI EB; cbn [fold_res] in EI, EB; [injection EI as <-; injection EB as <-; exact A|].
  unfold icomp_step at 1 in EI. unfold ncomp_step at 1 in EB. destruct (cp_ok (nc_comp cp)); [|eapply IH; eassumption].
  destruct (handle_icomponent le unit fit hull schmidt I cp) as [I1|] eqn:E1; [|discriminate]. destruct (handle_ncomponent le B cp) as [B1|] eqn:E2; [|discriminate]. cbn [bind] in EI, EB.
  eapply IH; [eapply step_alike; [exact A|exact E1|exact E2]|exact EI|exact EB].
Qed.

Variables (dom : domain) (relevant : option (list (string * list text))) (unsafe : bool) (degree : nat) (policy : neg_policy) (obs : list (list ncomponent)).
Hypothesis EL : exact_libraries unit fit hull schmidt.
Hypothesis IM : insam_input unit fit le dom degree obs.
Local Notation IN := (im_base _ _ _ _ _ _ IM).
Variables (N : ilearner) (report : list (string * nverdict)) (B : nlearner) (report' : list (string * nverdict)).
Hypothesis E : learn_incremental_model le unit fine fit hull schmidt rank (init_ilearner dom relevant unsafe degree policy) obs = Ok (N, report).
Hypothesis E' : learn_numeric_model le unit fine fit hull gram complement rank (init_nlearner dom relevant unsafe degree policy) obs = Ok (B, report').

Lemma batch_same_effects n conds effs conds' effs' : In n (dict_keys (d_actions dom)) -> dict_get (is_numeric N) n = Some (conds, effs) -> dict_get (n_numeric B) n = Some (conds', effs') -> effs' = effs.
Proof.
  intros KD GI GB. pose proof E as X. unfold learn_incremental_model in X. pose proof E' as Y. unfold learn_numeric_model in Y. cbn [is_sam init_ilearner n_sam init_nlearner s_dom init_learner] in X, Y. pose proof (in_numeric _ _ IN) as NF. destruct (d_funcs dom) eqn:DF; [congruence|].
  fold (start dom policy true) in X, Y. destruct (iloop_done le unit fit hull schmidt dom relevant unsafe degree policy obs EL IM) as [(N2 & LI & I1)|(LI & _)]; rewrite LI in X; [|discriminate].
  destruct (loop_done le dom relevant unsafe degree policy obs IN) as (B2 & LB & I2 & _). rewrite LB in Y. cbn [bind] in X, Y.
  rewrite learn_icomponents_concat in LI. rewrite learn_ncomponents_concat in LB.
  assert (AL : alike N2 B2) by (eapply loop_alike; [|exact LI|exact LB]; constructor; reflexivity). destruct AL as [A1 _ A3].
  unfold create_incremental_model in X. unfold create_safe_action_model in Y. cbn [is_sam iwith_sam n_sam with_sam] in X, Y.
  destruct (create_incremental_actions _ _ _ _ _ _) as [(((al1 & nm1) & st1) & rp1)|] eqn:EM1; [|discriminate]. cbn [bind] in X. injection X as <- _.
  destruct (create_safe_actions _ _ _ _ _ _ _ _ _) as [(((al2 & nm2) & st2) & rp2)|] eqn:EM2; [|discriminate]. cbn [bind] in Y. injection Y as <- _. cbn [is_numeric n_numeric] in GI, GB.
  pose proof (iv_sam _ _ _ _ _ _ _ _ _ _ _ _ I1) as SI1. pose proof (ni_sam _ _ _ _ _ _ _ _ I2) as SI2.
  assert (K1 : dict_keys (d_actions (s_dom (handle_negative_preconditions_policy (is_sam N2)))) = dict_keys (d_actions dom)) by (rewrite policy_keys; apply (si_keys _ _ _ _ _ SI1)).
  assert (K2 : dict_keys (d_actions (s_dom (handle_negative_preconditions_policy (n_sam B2)))) = dict_keys (d_actions dom)) by (rewrite policy_keys; apply (si_keys _ _ _ _ _ SI2)).
  destruct (imake_actions_spec unit fine fit rank (iwith_sam N2 (handle_negative_preconditions_policy (is_sam N2))) _ _ _ _ _ _ ltac:(rewrite K1; apply (wf_acts _ (in_wf _ _ IN))) ltac:(intros k _; repeat split) EM1) as (_ & _ & R3 & R4 & _).
  destruct (make_actions_spec unit fine fit hull gram complement rank (with_sam B2 (handle_negative_preconditions_policy (n_sam B2))) _ _ _ _ _ _ ltac:(rewrite K2; apply (wf_acts _ (in_wf _ _ IN))) ltac:(intros k _; repeat split) EM2) as (_ & _ & T3 & T4 & _).
  assert (GA : exists a, dict_get al1 n = Some a) by (apply dict_get_Some_iff; rewrite <- R3; eapply dict_get_key; exact GI). destruct GA as (a & GA). destruct (R4 n a GA) as (b & c1 & e1 & _ & _ & GN1 & _ & CE1).
  assert (GA' : exists a, dict_get al2 n = Some a) by (apply dict_get_Some_iff; rewrite <- T3; eapply dict_get_key; exact GB). destruct GA' as (a' & GA'). destruct (T4 n a' GA') as (b' & c2 & e2 & _ & _ & GN2 & _ & CE2).
  rewrite GI in GN1. injection GN1 as <- <-. rewrite GB in GN2. injection GN2 as <- <-.
  unfold ieffects_of, construct_incremental_effects, irelevant_of in CE1. unfold effects_of, construct_safe_numeric_effects, relevant_of in CE2.
  cbn [is_relevant iwith_sam is_storage is_unsafe n_relevant with_sam n_storage n_unsafe] in CE1, CE2.
  rewrite (iv_relevant _ _ _ _ _ _ _ _ _ _ _ _ I1), (iv_unsafe _ _ _ _ _ _ _ _ _ _ _ _ I1) in CE1. rewrite (ni_relevant _ _ _ _ _ _ _ _ I2), (ni_unsafe _ _ _ _ _ _ _ _ I2) in CE2.
  specialize (A3 n). unfold dict_lookup in CE1, CE2.
  destruct (match relevant with Some m => _ | None => _ end) as [rel|] in CE1, CE2; [|discriminate]. cbn [bind] in CE1, CE2.
  destruct rel as [[|f fs]|]; cbn [bind] in CE1, CE2; [congruence| |];
    (destruct (dict_get (is_storage N2) n) as [s1|]; [|discriminate]; destruct (dict_get (n_storage B2) n) as [s2|]; [|discriminate]; cbn [option_map] in A3; injection A3 as _ T; cbn [bind] in CE1, CE2; rewrite T in CE1;
     destruct (construct_assignment_equations unit fine fit rank (st_effects s2) unsafe _) as [(((l' & ef) & cc) & sf)|]; [|discriminate]; cbn [bind] in CE1, CE2; congruence).
Qed.
Lemma batch_same_action n a a' : dict_get (d_actions (s_dom (is_sam N))) n = Some a -> dict_get (d_actions (s_dom (n_sam B))) n = Some a' -> a' = a.
Proof.
  intros GI GB. destruct (irun_discrete le unit fine fit hull schmidt rank dom relevant unsafe degree policy obs EL IM N report E) as (L & rep & ES & H).
  destruct (run_discrete le unit fine fit hull gram complement rank dom relevant unsafe degree policy obs IN B report' E') as (L' & rep' & ES' & H'). assert (L' = L) by congruence. subst L'.
  destruct (H n a GI) as (_ & b & G1 & ->). destruct (H' n a' GB) as (_ & b' & G2 & ->). congruence.
Qed.
Lemma batch_same_conditions n a0 conds effs conds' effs' st : relevant = None -> exact_oracles unit fine fit hull gram complement -> dict_get (d_actions dom) n = Some a0 ->
  dict_get (is_numeric N) n = Some (conds, effs) -> dict_get (n_numeric B) n = Some (conds', effs') ->
  ((forall t, In t conds -> satisfied st t) <-> (forall t, In t conds' -> satisfied st t)).
Proof.
  intros NONE EO G0 GI GB. rewrite (irun_exact le unit fine fit hull schmidt rank dom relevant unsafe degree policy obs EL IM N report E n a0 conds effs G0 GI st); [|rewrite NONE; intros (m & X & _); discriminate].
  symmetry. apply (run_exact le unit fine fit hull gram complement rank dom relevant unsafe degree policy obs IN B report' E' n a0 conds' effs' EO G0 GB NONE st).
  intros cp C m (T1 & T2 & T3). apply (nu_clean _ _ _ _ _ _ (im_numeric _ _ _ _ _ _ IM n a0 G0)); [apply in_map; rewrite of_action_evid; apply evid_In; exact C|]. split; [exact T1|]. split; [exact T2|]. intros t T. apply vocabulary_In, T3, T.
Qed.
End Batch.
