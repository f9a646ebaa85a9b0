(** * Cases for C113 *)
From Coq Require Import Permutation.
From Verif Require Import SolverSpec CsolModel CsolSpec CsolProofs CsolFinal CsolProperties Prelude PreludeProofs.
Open Scope string_scope. Open Scope list_scope. Open Scope nat_scope.

(** Two problems with the prefix, another one, a domain and an old plan *)
Definition xfiles : list (list string * content) :=
  [(["home"; "robots"; "domain.pddl"], ["d"]); (["home"; "robots"; "pfile1.pddl"], ["a"]); (["home"; "robots"; "other.pddl"], ["x"]); (["home"; "robots"; "pfile2.pddl"], ["b"]); (["home"; "robots"; "pfile2.solution"], ["old"])].
Definition xm : machine := mk_machine ["home"] xfiles 0.
Definition xc (workdir : path) : configuration := mk_configuration "code" workdir "domain.pddl" "pfile" (Some (Text "30")) (Some (Text "0.1")).
(** [sbatch] refuses every job the first time. *)
Definition xsbatch (i : nat) (j : job) : option nat := if Nat.even i then None else Some i.
Definition xprocess (i : nat) (c : command) : outcome_of_run := mk_run (Exit 0) "Problem Solved" "" (fun _ => Some [stem_of (cm_problem c); "cost"]).
Definition xfloat (s : string) : res Q := if String.eqb s "0.1" then Ok (1 # 10) else Err ValueError.
Definition xrun := run_jobs (fun _ => true) xprocess (fun _ => "ok") (fun c => "a plan" :: c) (Abs ["ff"]) (Abs ["fd"]) (fun i => "sas") (fun i => Some ["sas"]) xfloat.
Lemma xkeys : NoDup (map fst (m_files xm)).
Proof. repeat constructor; cbn; intuition discriminate. Qed.
Lemma xaccepting : accepting xsbatch.
Proof. intros i j. unfold xsbatch. rewrite Nat.add_1_r, Nat.even_succ, <- Nat.negb_even. destruct (Nat.even i); [right|left]; discriminate. Qed.
Lemma xtexts k w : given_as_texts k (xc w) "30" "0.1".
Proof. split; [reflexivity|right; reflexivity]. Qed.
Lemma xwrites : writes_solutions xprocess /\ always_ends xprocess.
Proof. split; [intros i c old _; discriminate|intros i c; exists 0%Z; reflexivity]. Qed.

Example C113_submitted_case : NoDup (map fst (m_files xm)) /\ accepting xsbatch /\ given_as_texts enhsp (xc (Rel ["robots"])) "30" "0.1" /\
  submit_solver xsbatch enhsp (xc (Rel ["robots"])) xm = (mk_queue 4
    [mk_job "code/enhsp_solver.py" [PathText (Abs ["home"; "robots"; "domain.pddl"]); PathText (Abs ["home"; "robots"; "pfile1"]); PathText (Rel ["robots"]); Word "30"; Word "0.1"];
     mk_job "code/enhsp_solver.py" [PathText (Abs ["home"; "robots"; "domain.pddl"]); PathText (Abs ["home"; "robots"; "pfile2"]); PathText (Rel ["robots"]); Word "30"; Word "0.1"]], None).
Proof. split; [apply xkeys|]. split; [apply xaccepting|]. split; [apply xtexts|vm_compute; reflexivity]. Qed.
(** All the jobs, the last one first: both plans are beside their problems. *)
Example C113_enhsp_case : CluModel.int "30" = Ok 30 /\ xfloat "0.1" = Ok (1 # 10) /\
  exists q m', submit_solver xsbatch enhsp (xc (Rel ["robots"])) xm = (q, None) /\ Permutation (q_jobs q) (rev (q_jobs q)) /\
    xrun "code" ["home"] (rev (q_jobs q)) xm = Ok (m', [("pfile2", "ok"); ("pfile1", "ok")]) /\
    dict_get (m_files m') ["home"; "robots"; "pfile1.solution"] = Some ["pfile1"; "cost"] /\ dict_get (m_files m') ["home"; "robots"; "pfile2.solution"] = Some ["pfile2"; "cost"].
Proof. split; [reflexivity|]. split; [reflexivity|]. do 2 eexists. split; [vm_compute; reflexivity|]. split; [apply Permutation_rev|]. vm_compute. auto. Qed.
Example C113_metric_ff_case : writes_solutions xprocess /\ exists q m', submit_solver xsbatch metric_ff (xc (Abs ["home"; "robots"])) xm = (q, None) /\
    xrun "code" ["home"] (rev (q_jobs q)) xm = Ok (m', [("pfile2", "ok"); ("pfile1", "ok")]) /\ dict_get (m_files m') ["home"; "robots"; "pfile2.solution"] = Some ["a plan"; "pfile2"; "cost"].
Proof. split; [apply xwrites|]. do 2 eexists. split; [vm_compute; reflexivity|]. vm_compute. auto. Qed.
(** The plan is in a directory of the planner, the old one remains. *)
Example C113_relative_refuted_case : exists q m', submit_solver xsbatch metric_ff (xc (Rel ["robots"])) xm = (q, None) /\
    xrun "code" ["home"] (q_jobs q) xm = Ok (m', [("pfile1", "ok"); ("pfile2", "ok")]) /\ dict_get (m_files m') ["home"; "robots"; "pfile2.solution"] = Some ["old"] /\
    dict_get (m_files m') ["ff"; "robots"; "pfile2.solution"] = Some ["a plan"; "pfile2"; "cost"].
Proof. do 2 eexists. split; [vm_compute; reflexivity|]. vm_compute. auto. Qed.
Example C113_fast_downward_case : always_ends xprocess /\ (forall name, ~ exists i : nat, ["home"; "robots"] ++ [(name ++ ".solution")%string] = ["fd"] ++ [(fun _ : nat => "sas") i]) /\
  exists q m', submit_solver xsbatch fast_downward (xc (Rel ["robots"])) xm = (q, None) /\
    xrun "code" ["home"] (rev (q_jobs q)) xm = Ok (m', [("pfile2", "ok"); ("pfile1", "ok")]) /\ dict_get (m_files m') ["home"; "robots"; "pfile2.solution"] = Some ["pfile2"].
Proof. split; [apply xwrites|]. split; [intros name (i & E); discriminate E|]. do 2 eexists. split; [vm_compute; reflexivity|]. vm_compute. auto. Qed.
Example C113_number_refuted_case : look xm ["home"; "robots"] ("pfile" ++ "1" ++ ".pddl")%string <> None /\
  submit_solver xsbatch enhsp (mk_configuration "code" (Rel ["robots"]) "domain.pddl" "pfile" (Some (Number 30)) (Some (Text "0.1"))) xm = (mk_queue 0 [], Some TypeError).
Proof. split; [discriminate|vm_compute; reflexivity]. Qed.
