(** * Plans found with the safe domain *)
From Verif Require Import NoamSpec NoamLearn NoamRun NoamSolve OnumTrain OnumClaims OnumFinal SamFinal UcProofs CondFinal VocabProofs Prelude PreludeProofs.
From Coq Require Import Lia.
Open Scope string_scope. Open Scope list_scope. Open Scope nat_scope.

Section Plan.
Variable le : text -> text -> bool.
Variables unit fine : positive.
Variable fit : list (list Q) -> list Q -> list Q * Q * bool.
Variable hull : list (list Q) -> option (list (list Q) * list Q).
Variable schmidt : list (list Q) -> list (list Q) -> list (list Q).
Variable rank : list (list Q) -> nat.
Variables (dom : domain) (degree : nat) (traces : list (list ncomponent)) (L : numeric_learners) (fl : bool) (model : list (string * exported)).
Hypothesis EL : exact_libraries unit fit hull schmidt.
Hypothesis OL : online_input unit fit le dom degree traces.
Hypothesis TR : numeric_train le unit fit hull schmidt dom degree traces = Ok L.
Hypothesis CM : construct_safe_action_model unit fine fit rank fl dom L = Ok model.
Variable real : string -> option (action * numeric_part).
Hypothesis RN : real_numeric_actions dom degree real.
Hypothesis RS : forall n cp, In cp (of_action n traces) -> real_success dom real cp.
Hypothesis FINE : exists k, fine = (unit * k)%positive.
Hypothesis REG : exact_regression unit fit.
Hypothesis GU : guarded dom traces.
Variable E : environment.
Hypothesis RE : real_environment dom real E.

Lemma known_result a c e w : dict_get (d_actions dom) (c_name c) = Some a -> dict_get model (c_name c) = Some e -> length (c_params c) = length (a_sig a) -> NoDup (c_params c) -> no_constant_args dom c ->
  export_applicable e (call_assignment (a_sig a) c) (fst w) (fluents_state (snd w)) ->
  exists w', NoamModel.observe E w c = Ok (w', true) /\ predicted dom (a_sig a) e (call_assignment (a_sig a) c) w w'.
Proof.
  intros GA GE LN ND NC AP. set (sg := call_assignment (a_sig a) c) in *. destruct (rn_sig _ _ _ RN _ _ GA) as (r & np & ER & SG).
  assert (IB : injective_binding dom (a_sig a) sg) by exact (call_binding dom (c_name c) a (mkComp [] c [] true) (ol_wf _ _ _ _ _ _ OL) GA LN ND NC).
  assert (OB : of_action (c_name c) traces <> []).
  { destruct (GU _ _ GA) as [N|(l & ML)]; [exact N|]. intros Z. pose proof (model_literals le unit fine fit hull schmidt rank dom degree traces L fl model EL OL TR CM (c_name c) a e GA GE sg (fst w) (fluents_state (snd w)) AP) as AL. rewrite Z in AL.
    assert (A1 : lit_true (fst w) (ground sg l)) by (apply AL; split; [exact ML|intros cp []]). assert (A2 : lit_true (fst w) (ground sg (neg_lit l))) by (apply AL; split; [apply well_typed_neg; exact ML|intros cp []]).
    unfold lit_true in A1, A2. cbn in A1, A2. destruct (l_pos l); cbn in A2; contradiction. }
  pose proof (model_safe le unit fine fit hull schmidt rank dom degree traces L fl model EL OL TR CM (c_name c) a e GA GE OB real r np RN (RS (c_name c)) ER FINE REG) as SE.
  destruct (SE sg (fst w) (fluents_state (snd w))) as (PRE & NUM & AFT & GIV); [rewrite SG; exact IB|exact AP|].
  destruct (re_applicable _ _ _ RE c w r np ER) as (w' & AW); [rewrite SG; exact PRE|rewrite SG; exact NUM|]. exists w'. split.
  - unfold NoamModel.observe. rewrite (proj2 (memb_In _ _) (re_names _ _ _ RE _ (dict_get_key _ _ _ GA))). cbn [negb]. rewrite AW. reflexivity.
  - pose proof (re_frame _ _ _ RE c w w' r np AW ER) as FR. destruct (re_success _ _ _ RE c w w' AW) as (r' & np' & ER' & H). change (real (c_name c) = Some (r', np')) in ER'. rewrite ER in ER'. injection ER' as <- <-.
    cbn [transition nc_comp cp_call cp_prev cp_next] in H. rewrite SG in H, FR. fold sg in H, FR. destruct H as (_ & RES & RNM). split; [|split].
    + intros p args. rewrite (RES p args). symmetry. apply AFT.
    + intros t MT. exists (num_after np (lifted_state sg (fluents_state (snd w))) (fst t, snd t)). split; [apply GIV|]. destruct RNM as (_ & RV). specialize (RV t MT). destruct t as (f & args). exact RV.
    + exact FR.
Qed.
Lemma plan_executed : forall plan w, plan_solves dom model E w plan -> exists t w', NoamModel.execute_plan E w plan = Ok (t, w', true) /\ length t = length plan /\ en_goal E w' = Ok true.
Proof.
  induction plan as [|c plan IH]; intros w PS.
  - exists [], w. split; [reflexivity|]. split; [reflexivity|exact PS].
  - destruct PS as (a & e & GA & GE & LN & ND & NC & AP & NX). destruct (known_result a c e w GA GE LN ND NC AP) as (w1 & O & PD). destruct (IH w1 (NX w1 PD)) as (t & w' & X & LT & G).
    exists (transition w c w1 true :: t), w'. split; [cbn [NoamModel.execute_plan]; rewrite O; cbn [bind]; rewrite X; reflexivity|]. split; [cbn; lia|exact G].
Qed.

(** ** Solving with the safe domain *)
Variables (svm : list (list Q * bool) -> list Q * Q) (limit : nat) (rd : random) (starvation max_failed max_file : nat).
Variables (M : noam) (P : problem).
Hypothesis EM : nm_learners M = L.
Hypothesis EE : pr_env P = E.
Hypothesis TB : NoamLearn.tables dom (nm_failures M).
Hypothesis KEYS : In "sum_successful_actions" (info_keys M) /\ In "sum_failed_actions" (info_keys M).
Lemma solvers_first before sv after plan st0 : Forall (fun s => is_ok (fst (s model P)) = false) before -> sv model P = (st_ok, plan) ->
  use_solvers unit fit hull schmidt dom (before ++ sv :: after) st0 model P M = use_solvers unit fit hull schmidt dom (sv :: after) st0 model P M.
Proof.
  intros F SV. revert st0. induction F as [|s before N F IH]; intros st0; [reflexivity|]. cbn [app use_solvers]. destruct (s model P) as (st1 & p1). cbn [fst] in N. rewrite N. rewrite IH. cbn [use_solvers]. rewrite SV. reflexivity.
Qed.
Lemma safe_solves k before sv after plan total : uses_safe k -> Forall (fun s => is_ok (fst (s model P)) = false) before -> sv model P = (st_ok, plan) -> plan_solves dom model E (pr_init P) plan ->
  exists t w, plan_run E (pr_init P) plan t w true /\ length t = length plan /\ en_goal E w = Ok true /\
  let r := try_to_solve unit fine fit hull schmidt rank svm limit fl dom rd starvation max_failed max_file k (Some (before ++ sv :: after)) P M total in
  (forall M' goal n, r = Ok (M', (goal, n)) -> goal = true /\ n = length plan) /\
  (online_input unit fit le dom degree (traces ++ [t]) -> (exists M', r = Ok (M', (true, length plan))) \/ (r = Err RuntimeError /\ hull_failure hull)).
Proof.
  intros US F SV PS. destruct (plan_executed plan (pr_init P) PS) as (t & w & X & LT & G). exists t, w. split; [apply executed_plan; exact X|]. split; [exact LT|]. split; [exact G|]. cbv zeta.
  assert (RE0 : try_to_solve unit fine fit hull schmidt rank svm limit fl dom rd starvation max_failed max_file k (Some (before ++ sv :: after)) P M total =
    (let* M1 := noam_train_trace unit fit hull schmidt dom M t in let* M2 := finish max_file M1 P true true "ok" "irrelevant" in Ok (M2, (true, length plan)))).
  { assert (SW : solve_with unit fine fit hull schmidt rank svm limit fl dom true (before ++ sv :: after) P M = (let* M1 := noam_train_trace unit fit hull schmidt dom M t in Ok (M1, (st_ok, length plan, None)))).
    { unfold solve_with. rewrite EM, CM. cbn [bind]. rewrite (solvers_first before sv after plan st_no_solution F SV). cbn [use_solvers]. rewrite SV. cbn [is_ok]. rewrite EE, X. cbn [bind]. rewrite G. cbn [bind]. destruct (noam_train_trace unit fit hull schmidt dom M t); [|reflexivity]. cbn [bind]. rewrite LT. reflexivity. }
    unfold try_to_solve. destruct k; try (destruct US); rewrite SW; destruct (noam_train_trace unit fit hull schmidt dom M t); reflexivity. }
  rewrite RE0. split.
  - intros M' goal n. destruct (noam_train_trace unit fit hull schmidt dom M t) as [M1|]; [|discriminate]. cbn [bind]. destruct (finish max_file M1 P true true _ _); [|discriminate]. cbn [bind]. intros [= _ <- <-]. split; reflexivity.
  - intros OL'. pose proof (trace_lifts unit fit hull schmidt dom M t TB) as TL. pose proof (train_done le unit fit hull schmidt EL dom degree (traces ++ [t]) OL') as TD.
    assert (NT : numeric_train le unit fit hull schmidt dom degree (traces ++ [t]) = numeric_train_trace unit fit hull schmidt dom (nm_learners M) t).
    { unfold numeric_train. rewrite fold_res_app. unfold numeric_train in TR. rewrite TR. cbn [bind fold_res]. rewrite EM. destruct (numeric_train_trace unit fit hull schmidt dom L t); reflexivity. }
    destruct (noam_train_trace unit fit hull schmidt dom M t) as [M1|e] eqn:TT.
    + left. cbn [bind]. destruct TL as (_ & T1 & EM1). assert (FI : exists M2, finish max_file M1 P true true "ok" "irrelevant" = Ok M2).
      { unfold finish, end_episode. assert (K1 : nm_rec M1 = nm_rec M) by (rewrite EM1; reflexivity). rewrite K1. destruct KEYS as (K2 & K3). apply dict_get_Some_iff in K2. apply dict_get_Some_iff in K3. destruct K2 as (v2 & K2), K3 as (v3 & K3). rewrite K2, K3. cbn [bind]. eexists. reflexivity. }
      destruct FI as (M2 & ->). cbn [bind]. exists M2. reflexivity.
    + right. cbn [bind]. rewrite NT, TL in TD. destruct TD as [(L' & Z & _)|(Z & H)]; [discriminate|]. injection Z as ->. split; [reflexivity|exact H].
Qed.
End Plan.
