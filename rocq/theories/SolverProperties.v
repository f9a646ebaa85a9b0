(** * Properties C87, C88 and C89: Metric-FF, ENHSP, Fast Downward

    Only theorems; every proof is a reference to a lemma.  Specification: SolverSpec.v. *)
From Verif Require Import SolverModel SolverSpec SolverProofs Prelude PreludeProofs.
Open Scope string_scope. Open Scope list_scope. Open Scope nat_scope.

(** One problem: one process, asked for this domain and problem in the directory of the planner; the answer follows from how
    it ends and what it leaves; the plan is kept exactly when the answer is "ok"; no other file changes. *)
Theorem C87_solve (directory : list string -> bool) (process : nat -> command -> outcome_of_run) (status_of : content -> string) (plan_of : content -> content)
  dir m domain problem where_ limit tolerance : directory (resolve (m_cwd m) dir) = true ->
  let cwd := resolve (m_cwd m) dir in
  let asked p := mk_command cwd domain p (join where_ (solution_name p)) limit tolerance in
  let file := resolve cwd (join where_ (solution_name problem)) in
  let old := dict_get (m_files m) file in
  let r := process (m_runs m) (asked problem) in
  (ru_end r = Exit 0%Z -> ru_solution r old <> None) ->
  exists m' o, solve_metric_ff directory process status_of plan_of dir m domain problem where_ limit tolerance = Ok (m', o) /\
    ff_handled process status_of plan_of asked (m_runs m) problem 1 o old (dict_get (m_files m') file) /\
    m_cwd m' = cwd /\ m_runs m' = m_runs m + 1 /\ forall f, f <> file -> dict_get (m_files m') f = dict_get (m_files m) f.
Proof. exact (solve_ff directory process status_of plan_of dir m domain problem where_ limit tolerance). Qed.
Print Assumptions C87_solve.

(** A directory of problems: one process per problem, in order; the report has exactly one entry per problem, with the
    answer of its own process. *)
Theorem C87_directory (directory : list string -> bool) (process : nat -> command -> outcome_of_run) (status_of : content -> string) (plan_of : content -> content)
  dir m domain where_ problems limit tolerance : directory dir = true -> writes_solutions process -> NoDup (map stem_of problems) ->
  let asked p := mk_command dir domain p (join where_ (solution_name p)) limit tolerance in
  exists m' report, execute_metric_ff directory process status_of plan_of (Abs dir) m domain where_ problems limit tolerance = Ok (m', report) /\
    reported (ff_handled process status_of plan_of asked) (fun p => resolve dir (join where_ (solution_name p))) (fun _ => True) problems m m' report.
Proof. exact (execute_ff directory process status_of plan_of dir m domain where_ problems limit tolerance). Qed.
Print Assumptions C87_directory.

(** ENHSP, one problem: up to four runs of the same command, repeated exactly while the output is not understood; the answer
    is that of the last run; only the solution file changes, and only by the planner. *)
Theorem C88_solve (process : nat -> command -> outcome_of_run) m domain problem where_ limit tolerance :
  let cwd := m_cwd m in
  let asked p := mk_command cwd (absolute cwd domain) (absolute cwd p) (absolute cwd (join where_ (solution_name p))) limit tolerance in
  let file := resolve cwd (join where_ (solution_name problem)) in
  exists m' o k, solve_enhsp process m domain problem where_ limit tolerance = (m', o) /\
    enhsp_handled process asked (m_runs m) problem k o (dict_get (m_files m) file) (dict_get (m_files m') file) /\
    m_cwd m' = cwd /\ m_runs m' = m_runs m + k /\ forall f, f <> file -> dict_get (m_files m') f = dict_get (m_files m) f.
Proof. exact (solve_enhsp_ok process m domain problem where_ limit tolerance). Qed.
Print Assumptions C88_solve.

(** A directory of problems. *)
Theorem C88_directory (process : nat -> command -> outcome_of_run) m domain where_ problems limit tolerance : NoDup (map stem_of problems) ->
  let cwd := m_cwd m in
  let asked p := mk_command cwd (absolute cwd domain) (absolute cwd p) (absolute cwd (join where_ (solution_name p))) limit tolerance in
  exists m' report, execute_enhsp process m domain where_ problems limit tolerance = (m', report) /\ m_cwd m' = cwd /\
    reported (enhsp_handled process asked) (fun p => resolve cwd (join where_ (solution_name p))) (fun _ => True) problems m m' report.
Proof. exact (execute_enhsp_ok process m domain where_ problems limit tolerance). Qed.
Print Assumptions C88_directory.

(** Fast Downward, one problem: the answer is that of the exit code; with "ok" the plan file loses its last line, the
    temporary file is gone and the working directory is as before.  Missing for the full statement: the same working
    directory after the other answers (refuted in SolverExamples.v). *)
Theorem C89_solve_partial (directory : list string -> bool) (process : nat -> command -> outcome_of_run) (sas_name : nat -> string) (sas_text : nat -> option content)
  dir m domain problem where_ limit tolerance :
  let cwd := m_cwd m in let there := resolve cwd dir in
  let asked p := mk_command there (absolute cwd domain) (absolute cwd p) (absolute cwd (join where_ (solution_name p))) limit 0 in
  let file := resolve cwd (join where_ (solution_name problem)) in
  let sas := there ++ [sas_name (m_runs m)] in
  let r := process (m_runs m) (asked problem) in
  let left := ru_solution r (dict_get (m_files m) file) in
  directory there = true -> directory cwd = true -> file <> sas ->
  forall code, ru_end r = Exit code -> (code = 0%Z -> left <> None) ->
  exists m' o, solve_fast_downward directory process dir sas_name sas_text m domain problem where_ limit tolerance = Ok (m', o) /\
    fd_answer code o /\ m_runs m' = m_runs m + 1 /\ m_cwd m' = match o with ok => cwd | _ => there end /\
    dict_get (m_files m') file = match o with ok => option_map (@removelast string) left | _ => left end /\
    (o = ok -> dict_get (m_files m') sas = None) /\
    forall f, f <> file -> f <> sas -> dict_get (m_files m') f = dict_get (m_files m) f.
Proof. exact (fd_once directory process sas_name sas_text dir m domain problem where_ limit tolerance). Qed.
Print Assumptions C89_solve_partial.

(** A directory of problems, the planner's directory given from the root: up to four runs per problem, repeated exactly while
    the exit code is not understood; one entry per problem in the report; no other file changes but the temporary ones. *)
Theorem C89_directory (directory : list string -> bool) (process : nat -> command -> outcome_of_run) (sas_name : nat -> string) (sas_text : nat -> option content)
  dir domain where_ limit : directory dir = true -> writes_solutions process -> always_ends process ->
  let asked p := mk_command dir (absolute dir domain) (absolute dir p) (absolute dir (join where_ (solution_name p))) limit 0 in
  let file p := resolve dir (join where_ (solution_name p)) in
  let temporary f := exists j, f = dir ++ [sas_name j] in
  forall m problems tolerance, NoDup (map stem_of problems) -> (forall p, In p problems -> ~ temporary (file p)) ->
  exists m' report, execute_fast_downward directory process (Abs dir) sas_name sas_text m domain where_ problems limit tolerance = Ok (m', report) /\
    m_cwd m' = dir /\ reported (fd_handled process asked) file (fun f => ~ temporary f) problems m m' report.
Proof. exact (execute_fd directory process sas_name sas_text dir domain where_ limit). Qed.
Print Assumptions C89_directory.
