(** * Proofs about planners on a cluster *)
From Coq Require Import Lia Permutation.
From Verif Require CluProofs OcolProofs.
From Verif Require Import FaultFinal GenProofs SolverProofs CsolModel CsolSpec Prelude PreludeProofs.
Open Scope string_scope. Open Scope list_scope. Open Scope nat_scope.

(** ** Submission *)
Lemma stems_there m c : NoDup (map fst (m_files m)) -> problems_at_work m c (work_stems m c).
Proof.
  intros ND. split; [apply NoDup_filter, glob_NoDup; exact ND|]. intros s. unfold work_stems. rewrite filter_In, glob_In, prefix_app. tauto.
Qed.
Lemma at_work_join c cwd name : absolute cwd (join (cf_workdir c) name) = at_work c cwd name.
Proof. unfold absolute, at_work. rewrite resolve_join. reflexivity. Qed.
Lemma script_program code k : script_of code k = (code ++ program k)%string.
Proof. destruct k; reflexivity. Qed.
Lemma submit_once sbatch q j q' : submit_job sbatch q j = (q', None) -> forallb is_text (j_arguments j) = true /\ q_jobs q' = q_jobs q ++ [j].
Proof.
  unfold submit_job. destruct (forallb _ _); [|discriminate]. cbn [negb]. split; [reflexivity|]. destruct (sbatch _ j); [injection H as <-; reflexivity|]. destruct (sbatch _ j); [injection H as <-; reflexivity|discriminate].
Qed.
Lemma submit_accepted sbatch q j : accepting sbatch -> forallb is_text (j_arguments j) = true -> exists q', submit_job sbatch q j = (q', None).
Proof.
  intros A T. unfold submit_job. rewrite T. cbn [negb]. destruct (sbatch (q_calls q) j) eqn:E; [eexists; reflexivity|]. destruct (A (q_calls q) j) as [X|X]; [contradiction|]. destruct (sbatch (q_calls q + 1) j); [eexists; reflexivity|contradiction].
Qed.
Lemma arguments_ok k c cwd stem limit tolerance : given_as_texts k c limit tolerance ->
  exists args, solver_arguments k c cwd stem = Ok args /\ forallb is_text args = true /\ job_for k c cwd limit tolerance stem (mk_job (script_of (cf_code c) k) args).
Proof.
  intros (L & T). unfold solver_arguments. rewrite L. cbn [key bind argument_of]. unfold job_for. cbn [j_script j_arguments]. rewrite script_program, !at_work_join.
  destruct k; [eexists; repeat split; reflexivity| |]; (destruct T as [T|T]; [discriminate T|]); rewrite T; cbn [key bind argument_of]; eexists; repeat split; reflexivity.
Qed.
Lemma arguments_texts k c cwd stem args : solver_arguments k c cwd stem = Ok args -> forallb is_text args = true -> exists limit tolerance, given_as_texts k c limit tolerance.
Proof.
  unfold solver_arguments, given_as_texts. destruct (cf_timeout c) as [l|]; [|discriminate]. cbn [key bind]. destruct k.
  - intros E T. apply CluProofs.Ok_inj in E. subst args. destruct l as [l|]; [|discriminate T]. exists l, "". auto.
  - destruct (cf_tolerance c) as [t|]; [|discriminate]. cbn [key bind]. intros E T. apply CluProofs.Ok_inj in E. subst args. destruct l as [l|]; [|discriminate T]. destruct t as [t|]; [|discriminate T]. exists l, t. auto.
  - destruct (cf_tolerance c) as [t|]; [|discriminate]. cbn [key bind]. intros E T. apply CluProofs.Ok_inj in E. subst args. destruct l as [l|]; [|discriminate T]. destruct t as [t|]; [|discriminate T]. exists l, t. auto.
Qed.
Lemma submitted_jobs sbatch k c cwd limit tolerance : given_as_texts k c limit tolerance -> forall stems q q', submit_problems sbatch k c cwd stems q = (q', None) ->
  exists jobs, q_jobs q' = q_jobs q ++ jobs /\ Forall2 (job_for k c cwd limit tolerance) stems jobs.
Proof.
  intros G. induction stems as [|s stems IH]; intros q q' E.
  - injection E as <-. exists []. rewrite app_nil_r. split; [reflexivity|constructor].
  - cbn [submit_problems] in E. destruct (arguments_ok k c cwd s limit tolerance G) as (args & A & T & J). rewrite A in E. destruct (submit_job _ _ _) as [q1 [e|]] eqn:S; [discriminate E|].
    apply submit_once in S. destruct S as (_ & S). destruct (IH q1 q' E) as (jobs & EJ & F). exists (mk_job (script_of (cf_code c) k) args :: jobs). rewrite EJ, S, <- app_assoc. split; [reflexivity|constructor; assumption].
Qed.
Lemma submits_all sbatch k c cwd limit tolerance : accepting sbatch -> given_as_texts k c limit tolerance -> forall stems q, exists q', submit_problems sbatch k c cwd stems q = (q', None).
Proof.
  intros AC G. induction stems as [|s stems IH]; intros q; [exists q; reflexivity|]. cbn [submit_problems]. destruct (arguments_ok k c cwd s limit tolerance G) as (args & A & T & J). rewrite A.
  destruct (submit_accepted sbatch q (mk_job (script_of (cf_code c) k) args) AC T) as (q1 & E). rewrite E. apply IH.
Qed.
Theorem submission sbatch k c m limit tolerance : NoDup (map fst (m_files m)) -> accepting sbatch -> given_as_texts k c limit tolerance ->
  exists q stems, submit_solver sbatch k c m = (q, None) /\ problems_at_work m c stems /\ Forall2 (job_for k c (m_cwd m) limit tolerance) stems (q_jobs q).
Proof.
  intros ND AC G. unfold submit_solver. destruct (submits_all sbatch k c (m_cwd m) limit tolerance AC G (work_stems m c) (mk_queue 0 [])) as (q & E). exists q, (work_stems m c). split; [exact E|]. split; [apply stems_there; exact ND|].
  destruct (submitted_jobs sbatch k c _ limit tolerance G _ _ _ E) as (jobs & EJ & F). rewrite EJ. exact F.
Qed.
(** What a submission without an error has submitted *)
Theorem submitted_honest sbatch k c m q : NoDup (map fst (m_files m)) -> submit_solver sbatch k c m = (q, None) ->
  exists stems, problems_at_work m c stems /\ ((stems = [] /\ q_jobs q = []) \/ exists limit tolerance, given_as_texts k c limit tolerance /\ Forall2 (job_for k c (m_cwd m) limit tolerance) stems (q_jobs q)).
Proof.
  intros ND E. exists (work_stems m c). split; [apply stems_there; exact ND|]. unfold submit_solver in E. destruct (work_stems m c) as [|s stems] eqn:P; [left; injection E as <-; split; reflexivity|right].
  pose proof E as E'. cbn [submit_problems] in E'. destruct (solver_arguments k c (m_cwd m) s) as [args|] eqn:A; [|discriminate E']. destruct (submit_job _ _ _) as [q1 [e|]] eqn:S; [discriminate E'|]. apply submit_once in S. destruct S as (T & _).
  destruct (arguments_texts k c _ s args A T) as (l & t & G). exists l, t. split; [exact G|]. destruct (submitted_jobs sbatch k c _ l t G _ _ _ E) as (jobs & EJ & F). rewrite EJ. exact F.
Qed.
(** A number in the configuration file *)
Theorem number_refuted sbatch k c m n s : cf_timeout c = Some (Number n) -> (k = fast_downward \/ cf_tolerance c <> None) -> look m (resolve (m_cwd m) (cf_workdir c)) (cf_prefix c ++ s ++ ".pddl")%string <> None ->
  submit_solver sbatch k c m = (mk_queue 0 [], Some TypeError).
Proof.
  intros T K L. unfold submit_solver. assert (I : In (cf_prefix c ++ s)%string (work_stems m c)).
  { unfold work_stems. rewrite filter_In, glob_In, prefix_app. split; [|exists s; reflexivity]. rewrite OcolProofs.app_assoc_s. exact L. }
  destruct (work_stems m c) as [|s0 stems]; [destruct I|]. cbn [submit_problems]. unfold solver_arguments. rewrite T. cbn [key bind argument_of].
  destruct k; [reflexivity| |]; (destruct K as [K|K]; [discriminate K|]); destruct (cf_tolerance c); try contradiction; reflexivity.
Qed.

(** ** Running the jobs *)
Section Jobs.
Variables (directory : list string -> bool) (process : nat -> command -> outcome_of_run).
Variables (status_of : content -> string) (plan_of : content -> content) (ff_dir fd_dir : path).
Variables (sas_name : nat -> string) (sas_text : nat -> option content) (float : string -> res Q).
Notation run_job := (run_job directory process status_of plan_of ff_dir fd_dir sas_name sas_text float).
Notation run_jobs := (run_jobs directory process status_of plan_of ff_dir fd_dir sas_name sas_text float).

Lemma planner_script code k : planner_of code (code ++ program k)%string = Ok k.
Proof.
  unfold planner_of. rewrite !script_program.
  assert (D : forall k', (code ++ program k =? code ++ program k')%string = (program k =? program k')%string).
  { intros k'. destruct (String.eqb_spec (program k) (program k')) as [->|N]; [apply String.eqb_refl|]. apply String.eqb_neq. intros E. apply N. revert E. clear. induction code as [|a code IH]; intros E; [exact E|]. injection E. exact IH. }
  rewrite !D. destruct k; reflexivity.
Qed.
Lemma stem_at c cwd s : stem_of (at_work c cwd s) = s.
Proof. unfold stem_of, at_work. rewrite last_last. reflexivity. Qed.
(** Jobs one after the other, each with a file of its own *)
Lemma run_all handled solution (other : list string -> Prop) code cwd (P : string -> job -> Prop) (problem : string -> path) :
  (forall s, stem_of (problem s) = s) -> (forall s t, solution (problem s) = solution (problem t) -> s = t) -> forall stems jobs,
  (forall s, In s stems -> other (solution (problem s))) ->
  (forall s j m, In s stems -> P s j -> exists m' o k, run_job code cwd m j = Ok (m', (problem s, o)) /\ m_runs m' = m_runs m + k /\
     handled (m_runs m) (problem s) k o (dict_get (m_files m) (solution (problem s))) (dict_get (m_files m') (solution (problem s))) /\
     forall f, f <> solution (problem s) -> other f -> dict_get (m_files m') f = dict_get (m_files m) f) ->
  NoDup stems -> Forall2 P stems jobs -> forall m, exists m' report, run_jobs code cwd jobs m = Ok (m', report) /\ reported handled solution other (map problem stems) m m' report.
Proof.
  intros ST INJ stems. induction stems as [|s stems IH] using rev_ind; intros jobs OT ONE ND F m.
  - inversion F; subst. exists m, []. split; [reflexivity|apply reported_nil].
  - apply Forall2_app_inv_l in F. destruct F as (js & js' & F & F' & ->). inversion F' as [|? j ? ? J F'']; subst. inversion F''; subst.
    apply NoDup_app_iff in ND. destruct ND as (ND & _ & DIS). destruct (IH js) with (m := m) as (m1 & report & E & R); [intros x I; apply OT, in_app_iff; auto|intros x y m0 I; apply ONE, in_app_iff; auto|exact ND|exact F|].
    destruct (ONE s j m1) as (m2 & o & k & E2 & N & H & K); [apply in_app_iff; right; left; reflexivity|exact J|].
    unfold CsolModel.run_jobs in *. rewrite fold_res_app, E. cbn [bind fold_res fst snd]. rewrite E2. cbn [bind fst snd]. eexists m2, _. split; [reflexivity|]. rewrite map_app. cbn [map].
    apply (reported_snoc _ _ _ _ _ _ m1 m2 _ k); auto.
    + intros q I. apply in_map_iff in I. destruct I as (x & <- & I). assert (X : x <> s) by (intros ->; apply (DIS s); [exact I|left; reflexivity]). split; [intros X'; apply X, INJ, X'|rewrite !ST; exact X].
    + intros q I. apply in_map_iff in I. destruct I as (x & <- & I). apply OT, in_app_iff. auto.
    + apply OT, in_app_iff. right. left. reflexivity.
Qed.
Lemma flip_all {A B} (P : A -> B -> Prop) xs ys : Forall2 P xs ys -> Forall2 (fun y x => P x y) ys xs.
Proof. induction 1; constructor; assumption. Qed.
Lemma in_any_order {A B} (P : A -> B -> Prop) xs ys ys' : Forall2 P xs ys -> Permutation ys ys' -> exists xs', Permutation xs xs' /\ Forall2 P xs' ys'.
Proof.
  intros F PM. apply flip_all in F. destruct (Permutation_Forall2 PM F) as (xs' & PX & F'). exists xs'. split; [exact PX|]. apply (flip_all (fun y x => P x y)). exact F'.
Qed.

Lemma solution_at c cwd where_ d s t : resolve d (join where_ (solution_name (at_work c cwd s))) = resolve d (join where_ (solution_name (at_work c cwd t))) -> s = t.
Proof. intros E. apply solution_inj in E. rewrite !stem_at in E. exact E. Qed.

(** ENHSP *)
Theorem enhsp_jobs c cwd limit tolerance l t stems jobs m : NoDup stems -> Forall2 (job_for enhsp c cwd l t) stems jobs -> CluModel.int l = Ok limit -> float t = Ok tolerance ->
  let asked p := mk_command cwd (at_work c cwd (cf_domain c)) p (at_work c cwd (solution_name p)) limit tolerance in
  exists m' report, run_jobs (cf_code c) cwd jobs m = Ok (m', report) /\
    reported (enhsp_handled process asked) (fun p => resolve cwd (cf_workdir c) ++ [solution_name p]) (fun _ => True) (map (at_work c cwd) stems) m m' report.
Proof.
  intros ND F L T asked. apply (run_all _ _ _ _ _ (job_for enhsp c cwd l t)); auto.
  - intros s. apply stem_at.
  - intros x y E. rewrite <- !resolve_join in E. apply solution_at in E. exact E.
  - intros s j m0 _ (S & A). unfold CsolModel.run_job. rewrite S, planner_script. cbn [bind]. rewrite A. cbn [app solver_main]. rewrite L. cbn [bind]. rewrite T. cbn [bind].
    destruct (solve_enhsp_ok process (mk_machine cwd (m_files m0) (m_runs m0)) (at_work c cwd (cf_domain c)) (at_work c cwd s) (cf_workdir c) limit tolerance) as (m' & o & k & E & H & _ & R & K). rewrite E. exists m', o, k. cbn [m_cwd m_files m_runs] in *. split; [reflexivity|]. split; [exact R|].
    rewrite resolve_join in H, K. split; [|intros f N _; apply K; exact N].
    unfold enhsp_handled in *. rewrite at_work_join in H. exact H.
Qed.
(** Metric-FF: the directory of the problems is taken from the directory of the planner. *)
Theorem ff_jobs c cwd limit tolerance l t stems jobs m : NoDup stems -> Forall2 (job_for metric_ff c cwd l t) stems jobs -> CluModel.int l = Ok limit -> float t = Ok tolerance ->
  directory (resolve cwd ff_dir) = true -> writes_solutions process ->
  let there := resolve cwd ff_dir in
  let asked p := mk_command there (at_work c cwd (cf_domain c)) p (join (cf_workdir c) (solution_name p)) limit tolerance in
  exists m' report, run_jobs (cf_code c) cwd jobs m = Ok (m', report) /\
    reported (ff_handled process status_of plan_of asked) (fun p => resolve there (cf_workdir c) ++ [solution_name p]) (fun _ => True) (map (at_work c cwd) stems) m m' report.
Proof.
  intros ND F L T D W there asked. apply (run_all _ _ _ _ _ (job_for metric_ff c cwd l t)); auto.
  - intros s. apply stem_at.
  - intros x y E. rewrite <- !resolve_join in E. apply solution_at in E. exact E.
  - intros s j m0 _ (S & A). unfold CsolModel.run_job. rewrite S, planner_script. cbn [bind]. rewrite A. cbn [app solver_main]. rewrite L. cbn [bind]. rewrite T. cbn [bind].
    destruct (solve_ff directory process status_of plan_of ff_dir (mk_machine cwd (m_files m0) (m_runs m0)) (at_work c cwd (cf_domain c)) (at_work c cwd s) (cf_workdir c) limit tolerance) as (m' & o & E & H & _ & R & K); [exact D|apply W|]. rewrite E. cbn [bind]. exists m', o, 1. cbn [m_cwd m_files m_runs] in *. split; [reflexivity|]. split; [exact R|].
    rewrite resolve_join in H, K. split; [exact H|intros f N _; apply K; exact N].
Qed.
(** Fast Downward *)
Theorem fd_jobs c cwd limit l t stems jobs m : NoDup stems -> Forall2 (job_for fast_downward c cwd l t) stems jobs -> CluModel.int l = Ok limit ->
  let there := resolve cwd fd_dir in let temporary f := exists i, f = there ++ [sas_name i] in
  directory there = true -> directory cwd = true -> writes_solutions process -> always_ends process -> (forall s, In s stems -> ~ temporary (resolve cwd (cf_workdir c) ++ [solution_name (at_work c cwd s)])) ->
  let asked p := mk_command there (at_work c cwd (cf_domain c)) p (at_work c cwd (solution_name p)) limit 0 in
  exists m' report, run_jobs (cf_code c) cwd jobs m = Ok (m', report) /\
    reported (fd_handled_once process asked) (fun p => resolve cwd (cf_workdir c) ++ [solution_name p]) (fun f => ~ temporary f) (map (at_work c cwd) stems) m m' report.
Proof.
  intros ND F L there temporary D D' W AE NT asked. apply (run_all _ _ _ _ _ (job_for fast_downward c cwd l t)); auto.
  - intros s. apply stem_at.
  - intros x y E. rewrite <- !resolve_join in E. apply solution_at in E. exact E.
  - intros s j m0 I (S & A). subst there. unfold CsolModel.run_job. rewrite S, planner_script. cbn [bind]. rewrite A. cbn [app solver_main]. rewrite L. cbn [bind].
    assert (AS : forall p, mk_command (resolve cwd fd_dir) (absolute cwd (at_work c cwd (cf_domain c))) (absolute cwd (at_work c cwd s)) (absolute cwd (join (cf_workdir c) (solution_name p))) limit 0 = mk_command (resolve cwd fd_dir) (at_work c cwd (cf_domain c)) (at_work c cwd s) (at_work c cwd (solution_name p)) limit 0) by (intros p; rewrite at_work_join; reflexivity).
    destruct (AE (m_runs m0) (asked (at_work c cwd s))) as (code & EC).
    destruct (fd_once directory process sas_name sas_text fd_dir (mk_machine cwd (m_files m0) (m_runs m0)) (at_work c cwd (cf_domain c)) (at_work c cwd s) (cf_workdir c) limit (1 # 10)) with (code := code) as (m' & o & E & FA & R & _ & H & _ & K); cbn [m_cwd m_files m_runs] in *.
    + exact D.
    + exact D'.
    + rewrite resolve_join. intros X. apply (NT s I). exists (m_runs m0). exact X.
    + rewrite AS. exact EC.
    + intros ->. rewrite AS. apply W. exact EC.
    + rewrite E. cbn [bind]. exists m', o, 1. split; [reflexivity|]. split; [exact R|]. rewrite AS, resolve_join in H. rewrite resolve_join in K. split.
      * split; [reflexivity|]. split; [exists code; split; [exact EC|exact FA]|exact H].
      * intros f N NS. apply K; [exact N|]. intros ->. apply NS. exists (m_runs m0). reflexivity.
Qed.
End Jobs.
