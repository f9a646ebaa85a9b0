(** * Property C113: a directory of problems is given to the cluster, one job for each problem

    Only theorems; every proof is a reference to a lemma.  Specification: CsolSpec.v. *)
From Coq Require Import Permutation.
From Verif Require Import CsolModel CsolSpec CsolProofs CsolFinal Prelude PreludeProofs.
Open Scope string_scope. Open Scope list_scope. Open Scope nat_scope.

(** With the settings as texts, exactly one job is accepted for each problem of the working directory. *)
Theorem C113_submitted sbatch k c m limit tolerance : NoDup (map fst (m_files m)) -> accepting sbatch -> given_as_texts k c limit tolerance ->
  exists q stems, submit_solver sbatch k c m = (q, None) /\ problems_at_work m c stems /\ Forall2 (job_for k c (m_cwd m) limit tolerance) stems (q_jobs q).
Proof. exact (submission sbatch k c m limit tolerance). Qed.
Print Assumptions C113_submitted.
(** A submission that ends without an error has submitted one job for each problem, whatever [sbatch] answers. *)
Theorem C113_honest sbatch k c m q : NoDup (map fst (m_files m)) -> submit_solver sbatch k c m = (q, None) ->
  exists stems, problems_at_work m c stems /\ ((stems = [] /\ q_jobs q = []) \/ exists limit tolerance, given_as_texts k c limit tolerance /\ Forall2 (job_for k c (m_cwd m) limit tolerance) stems (q_jobs q)).
Proof. exact (submitted_honest sbatch k c m q). Qed.
Print Assumptions C113_honest.
(** A timeout that is a number in the configuration file: nothing is submitted. *)
Theorem C113_number_refuted sbatch k c m n s : cf_timeout c = Some (Number n) -> (k = fast_downward \/ cf_tolerance c <> None) -> look m (resolve (m_cwd m) (cf_workdir c)) (cf_prefix c ++ s ++ ".pddl")%string <> None ->
  submit_solver sbatch k c m = (mk_queue 0 [], Some TypeError).
Proof. exact (number_refuted sbatch k c m n s). Qed.
Print Assumptions C113_number_refuted.
(** The creation of trajectories is never submitted. *)
Theorem C113_trajectories_refuted sbatch c q : submit_trajectory_creation sbatch c q = (q, Some TypeError).
Proof. reflexivity. Qed.
Print Assumptions C113_trajectories_refuted.

Section C113.
Variables (directory : list string -> bool) (process : nat -> command -> outcome_of_run).
Variables (status_of : content -> string) (plan_of : content -> content) (ff_dir fd_dir : path).
Variables (sas_name : nat -> string) (sas_text : nat -> option content) (float : string -> res Q).
Notation run_jobs := (run_jobs directory process status_of plan_of ff_dir fd_dir sas_name sas_text float).

(** ENHSP: the jobs in any order, whatever is in the files when they run.  Each problem is asked about once (repeated as in C88); its plan is beside it;
    no other file changes. *)
Theorem C113_enhsp sbatch c m m1 l t limit tolerance q jobs : NoDup (map fst (m_files m)) -> given_as_texts enhsp c l t -> CluModel.int l = Ok limit -> float t = Ok tolerance ->
  submit_solver sbatch enhsp c m = (q, None) -> Permutation (q_jobs q) jobs ->
  let cwd := m_cwd m in
  let asked p := mk_command cwd (at_work c cwd (cf_domain c)) p (at_work c cwd (solution_name p)) limit tolerance in
  exists stems m' report, problems_at_work m c stems /\ run_jobs (cf_code c) cwd jobs m1 = Ok (m', report) /\
    reported (enhsp_handled process asked) (fun p => resolve cwd (cf_workdir c) ++ [solution_name p]) (fun _ => True) (map (at_work c cwd) stems) m1 m' report.
Proof.
  intros ND G L T E P cwd asked. destruct (submitted_order _ _ _ _ _ _ _ _ ND G E P) as (stems & PW & F).
  destruct (enhsp_jobs directory process status_of plan_of ff_dir fd_dir sas_name sas_text float c cwd limit tolerance l t stems jobs m1 (proj1 PW) F L T) as (m' & report & ER & RP). exists stems, m', report. auto.
Qed.
(** Metric-FF, with a working directory that is given from the root *)
Theorem C113_metric_ff sbatch c m m1 l t limit tolerance q jobs w : NoDup (map fst (m_files m)) -> given_as_texts metric_ff c l t -> CluModel.int l = Ok limit -> float t = Ok tolerance ->
  submit_solver sbatch metric_ff c m = (q, None) -> Permutation (q_jobs q) jobs -> directory (resolve (m_cwd m) ff_dir) = true -> writes_solutions process -> cf_workdir c = Abs w ->
  let asked p := mk_command (resolve (m_cwd m) ff_dir) (Abs (w ++ [cf_domain c])) p (Abs (w ++ [solution_name p])) limit tolerance in
  exists stems m' report, problems_at_work m c stems /\ run_jobs (cf_code c) (m_cwd m) jobs m1 = Ok (m', report) /\
    reported (ff_handled process status_of plan_of asked) (fun p => w ++ [solution_name p]) (fun _ => True) (map (fun s => Abs (w ++ [s])) stems) m1 m' report.
Proof.
  intros ND G L T E P D W A asked. destruct (submitted_order _ _ _ _ _ _ _ _ ND G E P) as (stems & PW & F).
  destruct (ff_jobs directory process status_of plan_of ff_dir fd_dir sas_name sas_text float c (m_cwd m) limit tolerance l t stems jobs m1 (proj1 PW) F L T D W) as (m' & report & ER & RP). exists stems, m', report. split; [exact PW|]. split; [exact ER|].
  revert RP. unfold at_work. rewrite A. exact (fun x => x).
Qed.
(** With one that is given from the current directory, no job of Metric-FF leaves a plan there (the directory of the planner is another one). *)
Theorem C113_relative_refuted sbatch c m m1 l t limit tolerance q jobs w : NoDup (map fst (m_files m)) -> given_as_texts metric_ff c l t -> CluModel.int l = Ok limit -> float t = Ok tolerance ->
  submit_solver sbatch metric_ff c m = (q, None) -> Permutation (q_jobs q) jobs -> directory (resolve (m_cwd m) ff_dir) = true -> writes_solutions process ->
  cf_workdir c = Rel w -> resolve (m_cwd m) ff_dir <> m_cwd m ->
  exists m' report, run_jobs (cf_code c) (m_cwd m) jobs m1 = Ok (m', report) /\ forall name, dict_get (m_files m') (m_cwd m ++ w ++ [name]) = dict_get (m_files m1) (m_cwd m ++ w ++ [name]).
Proof. exact (relative directory process status_of plan_of ff_dir fd_dir sas_name sas_text float sbatch c m m1 l t limit tolerance q jobs w). Qed.
(** Fast Downward: one run for each problem; only temporary files of the planner change besides. *)
Theorem C113_fast_downward sbatch c m m1 l t limit q jobs : NoDup (map fst (m_files m)) -> given_as_texts fast_downward c l t -> CluModel.int l = Ok limit ->
  submit_solver sbatch fast_downward c m = (q, None) -> Permutation (q_jobs q) jobs ->
  let cwd := m_cwd m in let there := resolve cwd fd_dir in let temporary f := exists i, f = there ++ [sas_name i] in
  directory there = true -> directory cwd = true -> writes_solutions process -> always_ends process -> (forall name, ~ temporary (resolve cwd (cf_workdir c) ++ [(name ++ ".solution")%string])) ->
  let asked p := mk_command there (at_work c cwd (cf_domain c)) p (at_work c cwd (solution_name p)) limit 0 in
  exists stems m' report, problems_at_work m c stems /\ run_jobs (cf_code c) cwd jobs m1 = Ok (m', report) /\
    reported (fd_handled_once process asked) (fun p => resolve cwd (cf_workdir c) ++ [solution_name p]) (fun f => ~ temporary f) (map (at_work c cwd) stems) m1 m' report.
Proof.
  intros ND G L E P cwd there temporary D D' W AE NT asked. destruct (submitted_order _ _ _ _ _ _ _ _ ND G E P) as (stems & PW & F).
  destruct (fd_jobs directory process status_of plan_of ff_dir fd_dir sas_name sas_text float c cwd limit l t stems jobs m1 (proj1 PW) F L D D' W AE) as (m' & report & ER & RP); [intros s _; apply NT|]. exists stems, m', report. auto.
Qed.
End C113.
Print Assumptions C113_enhsp.
Print Assumptions C113_metric_ff.
Print Assumptions C113_relative_refuted.
Print Assumptions C113_fast_downward.
