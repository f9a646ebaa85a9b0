(** * The jobs of a submission, in any order *)
From Coq Require Import Permutation.
From Verif Require Import SolverProofs CsolModel CsolSpec CsolProofs Prelude PreludeProofs.
Open Scope string_scope. Open Scope list_scope. Open Scope nat_scope.

Lemma at_work_perm m c stems stems' : Permutation stems stems' -> problems_at_work m c stems -> problems_at_work m c stems'.
Proof.
  intros P (ND & I). split; [exact (Permutation_NoDup P ND)|]. intros s. rewrite <- I. split; apply Permutation_in; [symmetry|]; exact P.
Qed.
Lemma submitted_order sbatch k c m limit tolerance q jobs : NoDup (map fst (m_files m)) -> given_as_texts k c limit tolerance -> submit_solver sbatch k c m = (q, None) -> Permutation (q_jobs q) jobs ->
  exists stems, problems_at_work m c stems /\ Forall2 (job_for k c (m_cwd m) limit tolerance) stems jobs.
Proof.
  intros ND G E P. destruct (submitted_jobs sbatch k c _ limit tolerance G _ _ _ E) as (js & EJ & F). cbn [q_jobs app] in EJ. rewrite <- EJ in F. destruct (in_any_order _ _ _ _ F P) as (stems & PS & F'). exists stems. split; [|exact F'].
  apply (at_work_perm m c (work_stems m c)); [exact PS|]. apply stems_there. exact ND.
Qed.
Section Final.
Variables (directory : list string -> bool) (process : nat -> command -> outcome_of_run).
Variables (status_of : content -> string) (plan_of : content -> content) (ff_dir fd_dir : path).
Variables (sas_name : nat -> string) (sas_text : nat -> option content) (float : string -> res Q).
Notation run_jobs := (run_jobs directory process status_of plan_of ff_dir fd_dir sas_name sas_text float).
Theorem relative sbatch c m m1 l t limit tolerance q jobs w : NoDup (map fst (m_files m)) -> given_as_texts metric_ff c l t -> CluModel.int l = Ok limit -> float t = Ok tolerance ->
  submit_solver sbatch metric_ff c m = (q, None) -> Permutation (q_jobs q) jobs -> directory (resolve (m_cwd m) ff_dir) = true -> writes_solutions process ->
  cf_workdir c = Rel w -> resolve (m_cwd m) ff_dir <> m_cwd m ->
  exists m' report, run_jobs (cf_code c) (m_cwd m) jobs m1 = Ok (m', report) /\ forall name, dict_get (m_files m') (m_cwd m ++ w ++ [name]) = dict_get (m_files m1) (m_cwd m ++ w ++ [name]).
Proof.
  intros ND G L T E P D W R NE. destruct (submitted_order _ _ _ _ _ _ _ _ ND G E P) as (stems & PW & F). destruct (ff_jobs directory process status_of plan_of ff_dir fd_dir sas_name sas_text float c (m_cwd m) limit tolerance l t stems jobs m1 (proj1 PW) F L T D W) as (m' & report & ER & _ & _ & K).
  exists m', report. split; [exact ER|]. intros name. apply K; [|exact I]. intros X. apply in_map_iff in X. destruct X as (p & X & _). rewrite R in X. cbn [resolve] in X. rewrite (app_assoc (m_cwd m)) in X. apply app_inj_tail in X. destruct X as (X & _). apply app_inv_tail in X. contradiction.
Qed.
End Final.
