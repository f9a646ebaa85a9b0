(** * C105: generating a data set *)
From Verif Require Import SolverModel SolverSpec GenModel GenSpec GenProofs Prelude PreludeProofs.
Open Scope string_scope. Open Scope list_scope. Open Scope nat_scope.

(** Every solution file becomes a trajectory, unless there is one or the plan cannot be executed; no other file changes. *)
Theorem C105_trajectories : forall domain problem parse_domain parse_problem execute name dir m text d,
  look m (resolve (m_cwd m) dir) name = Some text -> parse_domain text = Ok d ->
  (forall s, look m (resolve (m_cwd m) dir) (s ++ ".solution")%string <> None -> exists r, settled domain problem parse_problem execute d (look m (resolve (m_cwd m) dir)) s r) ->
  exists m', create_domain_trajectories domain problem parse_domain parse_problem execute name dir m = Ok m' /\
    m_cwd m' = m_cwd m /\ m_runs m' = m_runs m /\ settled_all domain problem parse_problem execute d (resolve (m_cwd m) dir) m m'.
Proof. exact create_settled. Qed.
Print Assumptions C105_trajectories.

(** Creating the trajectories again changes nothing. *)
Theorem C105_again : forall domain problem parse_domain parse_problem execute name dir m m', (forall s, name <> (s ++ ".trajectory")%string) ->
  create_domain_trajectories domain problem parse_domain parse_problem execute name dir m = Ok m' ->
  create_domain_trajectories domain problem parse_domain parse_problem execute name dir m' = Ok m'.
Proof. exact create_again. Qed.
Print Assumptions C105_again.

(** Fixing the solution files replaces each by what the planner's parser makes of it; no other file changes, and nothing for Fast Downward. *)
Theorem C105_fix : forall ff_fix enhsp_fix dir solver m, NoDup (map fst (m_files m)) ->
  let fixed := match solver with metric_ff => ff_fix | enhsp => enhsp_fix | fast_downward => fun text => Ok text end in
  (forall s text, look m (resolve (m_cwd m) dir) (s ++ ".solution")%string = Some text -> exists text', fixed text = Ok text') ->
  exists m', fix_solution_files ff_fix enhsp_fix dir solver m = Ok m' /\
    (forall s text text', look m (resolve (m_cwd m) dir) (s ++ ".solution")%string = Some text -> fixed text = Ok text' ->
       look m' (resolve (m_cwd m) dir) (s ++ ".solution")%string = Some text') /\
    (forall f, ~ (exists s, look m (resolve (m_cwd m) dir) (s ++ ".solution")%string <> None /\ f = resolve (m_cwd m) dir ++ [(s ++ ".solution")%string]) ->
       dict_get (m_files m') f = dict_get (m_files m) f).
Proof.
  intros ff_fix enhsp_fix dir solver m ND fixed H.
  assert (X : forall parse, (forall s text, look m (resolve (m_cwd m) dir) (s ++ ".solution")%string = Some text -> exists text', parse text = Ok text') -> exists m', fold_res (fix_file parse dir) (glob m dir ".solution") m = Ok m' /\
    (forall s text text', look m (resolve (m_cwd m) dir) (s ++ ".solution")%string = Some text -> parse text = Ok text' -> look m' (resolve (m_cwd m) dir) (s ++ ".solution")%string = Some text') /\
    (forall f, ~ (exists s, look m (resolve (m_cwd m) dir) (s ++ ".solution")%string <> None /\ f = resolve (m_cwd m) dir ++ [(s ++ ".solution")%string]) -> dict_get (m_files m') f = dict_get (m_files m) f)).
  { intros parse HP. destruct (fix_all parse dir (glob m dir ".solution") m (glob_NoDup m dir _ ND)) as (m' & E & _ & R & F).
    - intros s I. apply glob_In in I. destruct (look m (resolve (m_cwd m) dir) (s ++ ".solution")%string) as [st|] eqn:L; [|contradiction I; reflexivity]. destruct (HP s st L) as (st' & P). exists st, st'. split; [reflexivity|exact P].
    - exists m'. split; [exact E|]. split; [intros s st st' L P; apply (R s st st'); [apply glob_In; rewrite L; discriminate|exact L|exact P]|].
      intros f N. apply F. intros (s & I & ->). apply N. exists s. split; [apply glob_In; exact I|reflexivity]. }
  destruct solver; [|apply X; exact H|apply X; exact H]. exists m. split; [reflexivity|]. split; [intros s t t' L E; injection E as <-; exact L|reflexivity].
Qed.
Print Assumptions C105_fix.

(** The whole generation with ENHSP, whatever the working directory: the planner is run on exactly the problems of the directory with the prefix,
    and then every plan that is there has its trajectory. *)
Theorem C105_enhsp : forall domain problem parse_domain parse_problem execute directory process status plan_of ff fd sas_name sas_text m domain_path dir prefix limit text d,
  NoDup (map fst (m_files m)) -> look m (resolve (m_cwd m) dir) (stem_of domain_path) = Some text -> parse_domain text = Ok d ->
  (forall s, stem_of domain_path <> (s ++ ".solution")%string) -> usable domain problem parse_problem execute d m (resolve (m_cwd m) dir) prefix ->
  exists stems m1 report m', problem_stems m (resolve (m_cwd m) dir) prefix stems /\
    SolverSpec.reported (enhsp_handled process (fun p => mk_command (m_cwd m) (absolute (m_cwd m) domain_path) (absolute (m_cwd m) p) (absolute (m_cwd m) (join dir (solution_name p))) limit (1 # 10)))
      (fun p => resolve (m_cwd m) (join dir (solution_name p))) (fun _ => True) (map (join dir) stems) m m1 report /\
    generate_dataset domain problem parse_domain parse_problem execute directory process status plan_of ff fd sas_name sas_text enhsp domain_path dir prefix limit m = Ok m' /\
    settled_all domain problem parse_problem execute d (resolve (m_cwd m) dir) m1 m'.
Proof. intros. eapply generate_enhsp; eassumption. Qed.
Print Assumptions C105_enhsp.

(** With Metric-FF and a directory given from the root. *)
Theorem C105_metric_ff : forall domain problem parse_domain parse_problem execute directory process status plan_of ff fd sas_name sas_text m domain_path dir prefix limit text d,
  NoDup (map fst (m_files m)) -> directory ff = true -> writes_solutions process -> look m dir (stem_of domain_path) = Some text -> parse_domain text = Ok d ->
  (forall s, stem_of domain_path <> (s ++ ".solution")%string) -> usable domain problem parse_problem execute d m dir prefix ->
  exists stems m1 report m', problem_stems m dir prefix stems /\
    SolverSpec.reported (ff_handled process status plan_of (fun p => mk_command ff domain_path p (join (Abs dir) (solution_name p)) limit (1 # 10)))
      (fun p => resolve ff (join (Abs dir) (solution_name p))) (fun _ => True) (map (join (Abs dir)) stems) m m1 report /\
    generate_dataset domain problem parse_domain parse_problem execute directory process status plan_of (Abs ff) fd sas_name sas_text metric_ff domain_path (Abs dir) prefix limit m = Ok m' /\
    settled_all domain problem parse_problem execute d dir m1 m'.
Proof. intros. eapply generate_metric_ff; eassumption. Qed.
Print Assumptions C105_metric_ff.

(** With Fast Downward and a directory given from the root that is not the planner's. *)
Theorem C105_fast_downward : forall domain problem parse_domain parse_problem execute directory process status plan_of ff fd sas_name sas_text m domain_path dir prefix limit text d,
  NoDup (map fst (m_files m)) -> directory fd = true -> writes_solutions process -> always_ends process -> dir <> fd ->
  look m dir (stem_of domain_path) = Some text -> parse_domain text = Ok d ->
  (forall s, stem_of domain_path <> (s ++ ".solution")%string) -> usable domain problem parse_problem execute d m dir prefix ->
  exists stems m1 report m', problem_stems m dir prefix stems /\
    SolverSpec.reported (fd_handled process (fun p => mk_command fd (absolute fd domain_path) (absolute fd p) (absolute fd (join (Abs dir) (solution_name p))) limit 0))
      (fun p => resolve fd (join (Abs dir) (solution_name p))) (fun f => ~ exists j, f = fd ++ [sas_name j]) (map (join (Abs dir)) stems) m m1 report /\
    generate_dataset domain problem parse_domain parse_problem execute directory process status plan_of ff (Abs fd) sas_name sas_text fast_downward domain_path (Abs dir) prefix limit m = Ok m' /\
    settled_all domain problem parse_problem execute d dir m1 m'.
Proof. intros. eapply generate_fast_downward; eassumption. Qed.
Print Assumptions C105_fast_downward.

(** With Fast Downward and a directory given from the working directory the problems are looked for in the planner's directory. *)
Theorem C105_relative_refuted : forall domain problem parse_domain parse_problem execute directory process status plan_of ff fd sas_name sas_text m domain_path dir prefix limit,
  directory fd = true -> (forall n, look m (fd ++ dir) n = None) ->
  generate_dataset domain problem parse_domain parse_problem execute directory process status plan_of ff (Abs fd) sas_name sas_text fast_downward domain_path (Rel dir) prefix limit m = Err KeyError.
Proof. intros. apply generate_relative; assumption. Qed.
Print Assumptions C105_relative_refuted.
