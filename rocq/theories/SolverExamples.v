(** * Cases and counterexamples for C87, C88 and C89 *)
From Verif Require Import SolverModel SolverSpec SolverProofs SolverProperties Prelude PreludeProofs.
Open Scope string_scope. Open Scope list_scope. Open Scope nat_scope.

Definition home := ["home"].
Definition planner := ["home"; "planner"].
Definition exists_dir (d : list string) : bool := memb d [home; planner].
Definition dom := Abs ["home"; "domain"].
Definition pb (n : string) := Abs ["home"; n].
Definition here := Abs home.
Definition m0 : machine := mk_machine home [(["home"; "p1.solution"], ["an old plan"])] 0.
Definition keep (c : option content) := c.
Definition write (l : content) (_ : option content) := Some l.

(** ** Metric-FF: the parser says what the first line says *)
Definition first_line (c : content) : string := match c with [] => "" | l :: _ => l end.
Definition rest (c : content) : content := match c with [] => [] | _ :: l => l end.
(** The first process finds a plan, the second fails, the third is late. *)
Definition ff (i : nat) (_ : command) : outcome_of_run :=
  match i with
  | 0 => mk_run (Exit 0) "" "" (write ["ok"; "(move a b)"])
  | 1 => mk_run (Exit 1) "" "" (write ["segmentation fault"])
  | 2 => mk_run Late "" "" (write ["ok"])
  | _ => mk_run (Exit 2) "" "" (write ["no-solution"])
  end.

Example C87_run : exists m', execute_metric_ff exists_dir ff first_line rest (Abs planner) m0 dom here [pb "p1"; pb "p2"; pb "p3"; pb "p4"] 5 (1 # 10) =
    Ok (m', [("p1", "ok"); ("p2", "solver_error"); ("p3", "timeout"); ("p4", "no_solution")]) /\
  m_files m' = [(["home"; "p1.solution"], ["(move a b)"])].
Proof. eexists. vm_compute. split; reflexivity. Qed.

Example C87_solve_case : exists m' o, solve_metric_ff exists_dir ff first_line rest (Abs planner) m0 dom (pb "p1") here 5 (1 # 10) = Ok (m', o) /\
  dict_get (m_files m') ["home"; "p1.solution"] = Some ["(move a b)"].
Proof.
  destruct (C87_solve exists_dir ff first_line rest (Abs planner) m0 dom (pb "p1") here 5 (1 # 10) eq_refl) as (m' & o & E & _).
  { intros _. discriminate. }
  exists m', o. split; [exact E|]. vm_compute in E. injection E as <- _. reflexivity.
Qed.
Lemma ff_writes : writes_solutions ff.
Proof. intros [|[|[|i]]] c old E; try discriminate. Qed.
Example C87_directory_case : exists m' report, execute_metric_ff exists_dir ff first_line rest (Abs planner) m0 dom here [pb "p1"; pb "p2"] 5 (1 # 10) = Ok (m', report) /\
  map fst report = ["p1"; "p2"].
Proof.
  destruct (C87_directory exists_dir ff first_line rest planner m0 dom here [pb "p1"; pb "p2"] 5 (1 # 10) eq_refl ff_writes) as (m' & report & E & (K & _)).
  - cbn. repeat constructor; cbn; intuition discriminate.
  - exists m', report. split; [exact E|exact K].
Qed.

(** "A directory of problems is always worked through": with the default, relative, directory of the planner the second
    problem ends in an exception, although the planner works. *)
Theorem C87_relative_refuted : exists dir problems, NoDup (map stem_of problems) /\ exists_dir (resolve (m_cwd m0) dir) = true /\
  (forall p, In p problems -> exists m', solve_metric_ff exists_dir ff first_line rest dir m0 dom p here 5 (1 # 10) = Ok (m', ok)) /\
  execute_metric_ff exists_dir ff first_line rest dir m0 dom here problems 5 (1 # 10) = Err KeyError.
Proof.
  exists (Rel ["planner"]), [pb "p1"; pb "p2"]. split; [cbn; repeat constructor; cbn; intuition discriminate|]. split; [reflexivity|].
  split; [|vm_compute; reflexivity]. intros p [<-|[<-|[]]]; eexists; vm_compute; reflexivity.
Qed.
Print Assumptions C87_relative_refuted.

(** "no_solution is reported only when the planner declared it": an exit code 0 with any other text is enough. *)
Theorem C87_declared_refuted : exists process m', solve_metric_ff exists_dir process first_line rest (Abs planner) m0 dom (pb "p1") here 5 (1 # 10) = Ok (m', no_solution) /\
  forall i c old, option_map first_line (ru_solution (process i c) old) <> Some "no-solution".
Proof.
  exists (fun _ _ => mk_run (Exit 0) "" "" (write ["out of memory"])). eexists. split; [vm_compute; reflexivity|]. intros i c old. discriminate.
Qed.
Print Assumptions C87_declared_refuted.

(** ** ENHSP *)
(** Two runs end in an unknown error, the third solves the problem; on the second problem the goal is unreachable. *)
Definition enhsp (i : nat) (_ : command) : outcome_of_run :=
  match i with
  | 0 => mk_run (Exit 1) "" "java.lang.OutOfMemoryError" keep
  | 1 => mk_run (Exit 1) "" "java.lang.OutOfMemoryError" keep
  | 2 => mk_run (Exit 0) "... Problem Solved ..." "" (write ["(move a b)"])
  | _ => mk_run (Exit 255) "" "Goal is not reachable" keep
  end.
Example C88_run : execute_enhsp enhsp m0 dom here [pb "p2"; pb "p1"] 5 (1 # 10) =
  (mk_machine home [(["home"; "p1.solution"], ["an old plan"]); (["home"; "p2.solution"], ["(move a b)"])] 4, [("p2", "ok"); ("p1", "no_solution")]).
Proof. vm_compute. reflexivity. Qed.
Example C88_solve_case : exists m' o k, solve_enhsp enhsp m0 dom (pb "p2") here 5 (1 # 10) = (m', o) /\ m_runs m' = k /\ k = 3 /\ o = ok.
Proof.
  destruct (C88_solve enhsp m0 dom (pb "p2") here 5 (1 # 10)) as (m' & o & k & E & _ & _ & R & _).
  exists m', o, (m_runs m'). split; [exact E|]. split; [reflexivity|]. vm_compute in E. injection E as <- <-. split; reflexivity.
Qed.
Example C88_directory_case : exists m' report, execute_enhsp enhsp m0 dom here [pb "p2"; pb "p1"] 5 (1 # 10) = (m', report) /\ map fst report = ["p2"; "p1"].
Proof.
  destruct (C88_directory enhsp m0 dom here [pb "p2"; pb "p1"] 5 (1 # 10)) as (m' & report & E & _ & (K & _)).
  - cbn. repeat constructor; cbn; intuition discriminate.
  - exists m', report. split; [exact E|exact K].
Qed.

(** "A solution file of a problem that was not solved does not exist": an old one stays. *)
Theorem C88_stale_refuted : exists process m' o, solve_enhsp process m0 dom (pb "p1") here 5 (1 # 10) = (m', o) /\ o = no_solution /\
  dict_get (m_files m') ["home"; "p1.solution"] <> None.
Proof. exists (fun _ _ => mk_run (Exit 0) "Problem unsolvable" "" keep). eexists _, _. split; [vm_compute; reflexivity|]. split; [reflexivity|discriminate]. Qed.
Print Assumptions C88_stale_refuted.

(** ** Fast Downward *)
(** The first run fails, the second finds a plan; for the second problem the time is over. *)
Definition fd (i : nat) (_ : command) : outcome_of_run :=
  match i with
  | 0 => mk_run (Exit 1) "" "" keep
  | 1 => mk_run (Exit 0) "" "" (write ["(move a b)"; "(move b c)"; "; cost = 2"])
  | _ => mk_run (Exit 23) "" "" keep
  end.
Definition sas (i : nat) : string := match i with 0 => "a.sas" | 1 => "b.sas" | _ => "c.sas" end.
Definition sas_written (i : nat) : option content := match i with 1 => Some ["begin_version"] | 2 => Some ["begin_version"] | _ => None end.
Example C89_run : exists m', execute_fast_downward exists_dir fd (Abs planner) sas sas_written m0 dom here [pb "p2"; pb "p1"] 5 (1 # 10) =
    Ok (m', [("p2", "ok"); ("p1", "timeout")]) /\ m_runs m' = 3 /\
  dict_get (m_files m') ["home"; "p2.solution"] = Some ["(move a b)"; "(move b c)"] /\
  dict_get (m_files m') ["home"; "planner"; "b.sas"] = None /\ dict_get (m_files m') ["home"; "planner"; "c.sas"] = Some ["begin_version"].
Proof. eexists. split; [vm_compute; reflexivity|]. repeat split. Qed.
Example C89_solve_case : exists m' o, solve_fast_downward exists_dir (fun i => fd (i + 1)) (Rel ["planner"]) sas sas_written m0 dom (pb "p2") here 5 0 = Ok (m', o) /\
  m_cwd m' = home /\ dict_get (m_files m') ["home"; "p2.solution"] = Some ["(move a b)"; "(move b c)"].
Proof.
  destruct (C89_solve_partial exists_dir (fun i => fd (i + 1)) sas sas_written (Rel ["planner"]) m0 dom (pb "p2") here 5 0 eq_refl eq_refl) with (code := 0%Z)
    as (m' & o & E & _).
  - discriminate.
  - reflexivity.
  - discriminate.
  - exists m', o. split; [exact E|]. vm_compute in E. injection E as <- _. split; reflexivity.
Qed.
Lemma fd_writes : writes_solutions fd.
Proof. intros [|[|i]] c old E; discriminate. Qed.
Lemma fd_always : always_ends fd.
Proof. intros [|[|i]] c; eexists; reflexivity. Qed.
Example C89_directory_case : exists m' report, execute_fast_downward exists_dir fd (Abs planner) sas sas_written m0 dom here [pb "p2"; pb "p1"] 5 0 = Ok (m', report) /\
  map fst report = ["p2"; "p1"].
Proof.
  destruct (C89_directory exists_dir fd sas sas_written planner dom here 5 eq_refl fd_writes fd_always m0 [pb "p2"; pb "p1"] 0) as (m' & report & E & _ & (K & _)).
  - cbn. repeat constructor; cbn; intuition discriminate.
  - intros p [<-|[<-|[]]] (j & X); discriminate.
  - exists m', report. split; [exact E|exact K].
Qed.

(** "The working directory is as before": not after a failure.  With the default, relative, directory of the planner the
    next problem then ends in an exception. *)
Theorem C89_cwd_refuted : exists m' o, solve_fast_downward exists_dir fd (Rel ["planner"]) sas sas_written m0 dom (pb "p1") here 5 0 = Ok (m', o) /\
  m_cwd m' <> m_cwd m0 /\ solve_fast_downward exists_dir fd (Rel ["planner"]) sas sas_written m' dom (pb "p2") here 5 0 = Err KeyError.
Proof. eexists _, _. split; [vm_compute; reflexivity|]. split; [discriminate|reflexivity]. Qed.
Print Assumptions C89_cwd_refuted.

(** With that directory not even the first problem of a directory is solved. *)
Theorem C89_relative_refuted : exists dir, exists_dir (resolve (m_cwd m0) dir) = true /\
  execute_fast_downward exists_dir (fun i => fd (i + 1)) dir sas sas_written m0 dom here [pb "p2"] 5 0 = Err KeyError.
Proof. exists (Rel ["planner"]). split; reflexivity. Qed.
Print Assumptions C89_relative_refuted.

(** An old plan stays after a failure. *)
Theorem C89_stale_refuted : exists process m' o, solve_fast_downward exists_dir process (Abs planner) sas sas_written m0 dom (pb "p1") here 5 0 = Ok (m', o) /\
  o = no_solution /\ dict_get (m_files m') ["home"; "p1.solution"] <> None.
Proof. exists (fun _ _ => mk_run (Exit 12) "" "" keep). eexists _, _. split; [vm_compute; reflexivity|]. split; [reflexivity|discriminate]. Qed.
Print Assumptions C89_stale_refuted.
