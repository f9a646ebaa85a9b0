(** * Examples for C105 *)
From Verif Require Import SolverModel SolverSpec GenModel GenSpec GenProofs GenProperties Prelude PreludeProofs.
Open Scope string_scope. Open Scope list_scope. Open Scope nat_scope.

(** A directory with two problems to solve, one with an old plan, and one with an old trajectory *)
Definition data := ["home"; "data"].
Definition planner := ["opt"; "planner"].
Definition exists_dir (d : list string) : bool := memb d [data; planner; ["home"]].
Definition files0 : list (list string * content) :=
  [(data ++ ["domain.pddl"], ["domain"]); (data ++ ["pfile1.pddl"], ["problem 1"]); (data ++ ["pfile2.pddl"], ["problem 2"]); (data ++ ["old.pddl"], ["problem 3"]); (data ++ ["old.solution"], ["(a)"; "(b)"]);
   (data ++ ["kept.pddl"], ["problem 4"]); (data ++ ["kept.solution"], ["(c)"]); (data ++ ["kept.trajectory"], ["old trajectory"]); (["home"; "pfile9.pddl"], ["elsewhere"])].
Definition m0 := mk_machine ["home"] files0 0.
Definition pdom (c : content) : res content := Ok c.
Definition pprob (d c : content) : res content := Ok c.
Definition exec (d p st : content) : res content := match st with [] => Err ValueError | "bad" :: _ => Err IndexError | _ => Ok (p ++ st) end.
Definition made (r : res machine) (names : list string) : list (option content) := match r with Ok m => map (look m data) names | Err _ => [] end.
Definition trajectories := ["pfile1.trajectory"; "pfile2.trajectory"; "old.trajectory"; "kept.trajectory"].

Lemma nodup0 : NoDup (map fst files0).
Proof. unfold files0. cbn [map fst]. repeat (constructor; [cbn; intros H; repeat (destruct H as [H|H]; [discriminate|]); exact H|]). constructor. Qed.
Lemma exec_fails p d st e : exec d p st = Err e -> e = ValueError \/ e = IndexError.
Proof.
  unfold exec. destruct st as [|l st]; [intros H; injection H as <-; left; reflexivity|]. intros H. right. destruct (String.string_dec l "bad") as [->|N]; [injection H as <-; reflexivity|]. exfalso.
  repeat (destruct l as [|[[] [] [] [] [] [] [] []] l]; try discriminate H). apply N. reflexivity.
Qed.
Lemma solutions0 s : look m0 data (s ++ ".solution")%string <> None -> s = "old" \/ s = "kept".
Proof.
  intros H. apply (glob_In m0 (Abs data)) in H. vm_compute in H. intuition congruence.
Qed.
Lemma usable0 : usable content content pprob exec ["domain"] m0 data "pfile".
Proof.
  split; [|split].
  - intros s H. apply solutions0 in H. destruct H as [-> | ->]; discriminate.
  - intros s pt _ _. exists pt. reflexivity.
  - intros p st e H. exact (exec_fails _ _ _ _ H).
Qed.
Lemma domain_name s : stem_of (Abs (data ++ ["domain.pddl"])) <> (s ++ ".solution")%string.
Proof. cbn. intros H. symmetry in H. apply strip_suffix_spec in H || (symmetry in H; apply strip_suffix_spec in H). vm_compute in H. discriminate. Qed.
Lemma stems0 stems : problem_stems m0 data "pfile" stems -> In "pfile1" stems /\ In "pfile2" stems.
Proof. intros (_ & H). split; apply H; (split; [eexists; reflexivity|discriminate]). Qed.

(** ** ENHSP: the first problem is solved, the second is not *)
Definition enhsp_process (i : nat) (c : command) : outcome_of_run :=
  match i with
  | 0 => mk_run (Exit 0) "Problem Solved" "" (fun _ => Some ["(move)"])
  | _ => mk_run (Exit 0) "Problem unsolvable" "" (fun f => f)
  end.
Definition run_enhsp := generate_dataset content content pdom pprob exec exists_dir enhsp_process (fun _ => "ok") (fun c => c) (Abs planner) (Abs planner) (fun _ => "sas") (fun _ => None) enhsp (Abs (data ++ ["domain.pddl"])) (Rel ["data"]) "pfile" 5 m0.
Example enhsp_made : made run_enhsp trajectories = [Some ["problem 1"; "(move)"]; None; Some ["problem 3"; "(a)"; "(b)"]; Some ["old trajectory"]].
Proof. vm_compute. reflexivity. Qed.
Example enhsp_case : exists stems m1 m', problem_stems m0 data "pfile" stems /\ run_enhsp = Ok m' /\ settled_all content content pprob exec ["domain"] data m1 m'.
Proof.
  destruct (C105_enhsp content content pdom pprob exec exists_dir enhsp_process (fun _ => "ok") (fun c => c) (Abs planner) (Abs planner) (fun _ => "sas") (fun _ => None) m0 (Abs (data ++ ["domain.pddl"])) (Rel ["data"]) "pfile" 5 ["domain"] ["domain"] nodup0 eq_refl eq_refl domain_name usable0)
    as (stems & m1 & report & m' & P & _ & E & S). exists stems, m1, m'. split; [exact P|]. split; [exact E|exact S].
Qed.
(** Trajectories alone, and again *)
Example trajectories_case : exists m', create_domain_trajectories content content pdom pprob exec "domain.pddl" (Rel ["data"]) m0 = Ok m' /\ settled_all content content pprob exec ["domain"] data m0 m' /\
  create_domain_trajectories content content pdom pprob exec "domain.pddl" (Rel ["data"]) m' = Ok m'.
Proof.
  destruct (C105_trajectories content content pdom pprob exec "domain.pddl" (Rel ["data"]) m0 ["domain"] ["domain"] eq_refl eq_refl) as (m' & E & _ & _ & S).
  - intros s H. apply solutions0 in H. destruct H as [-> | ->]; [eexists; eapply se_made; reflexivity|eexists; eapply se_kept; reflexivity].
  - exists m'. split; [exact E|]. split; [exact S|]. apply (C105_again content content pdom pprob exec "domain.pddl" (Rel ["data"]) m0); [|exact E].
    intros s H. apply strip_suffix_spec in H. vm_compute in H. discriminate.
Qed.

(** ** Metric-FF *)
Definition ff_process (i : nat) (c : command) : outcome_of_run :=
  match i with
  | 0 => mk_run (Exit 0) "" "" (fun _ => Some ["ok"; "(move)"])
  | _ => mk_run (Exit 0) "" "" (fun _ => Some ["ok"; "bad"])
  end.
Lemma ff_writes : writes_solutions ff_process. Proof. intros [|i] c old _; discriminate. Qed.
Definition run_ff := generate_dataset content content pdom pprob exec exists_dir ff_process (fun c => hd "" c) (@tl string) (Abs planner) (Abs planner) (fun _ => "sas") (fun _ => None) metric_ff (Abs (data ++ ["domain.pddl"])) (Abs data) "pfile" 5 m0.
Example ff_made : made run_ff trajectories = [Some ["problem 1"; "(move)"]; None; Some ["problem 3"; "(a)"; "(b)"]; Some ["old trajectory"]].
Proof. vm_compute. reflexivity. Qed.
Example ff_case : exists stems m1 m', problem_stems m0 data "pfile" stems /\ run_ff = Ok m' /\ settled_all content content pprob exec ["domain"] data m1 m'.
Proof.
  destruct (C105_metric_ff content content pdom pprob exec exists_dir ff_process (fun c => hd "" c) (@tl string) planner (Abs planner) (fun _ => "sas") (fun _ => None) m0 (Abs (data ++ ["domain.pddl"])) data "pfile" 5 ["domain"] ["domain"] nodup0 eq_refl ff_writes eq_refl eq_refl domain_name usable0)
    as (stems & m1 & report & m' & P & _ & E & S). exists stems, m1, m'. split; [exact P|]. split; [exact E|exact S].
Qed.

(** ** Fast Downward *)
Definition fd_process (i : nat) (c : command) : outcome_of_run :=
  match i with
  | 0 => mk_run (Exit 0) "" "" (fun _ => Some ["(move)"; "; cost = 1"])
  | _ => mk_run (Exit 12) "" "" (fun f => f)
  end.
Lemma fd_writes : writes_solutions fd_process. Proof. intros [|i] c old H; discriminate. Qed.
Lemma fd_ends : always_ends fd_process. Proof. intros [|i] c; eexists; reflexivity. Qed.
Definition run_fd dir := generate_dataset content content pdom pprob exec exists_dir fd_process (fun _ => "ok") (fun c => c) (Abs planner) (Abs planner) (fun _ => "sas") (fun _ => Some ["sas"]) fast_downward (Abs (data ++ ["domain.pddl"])) dir "pfile" 5 m0.
Example fd_made : made (run_fd (Abs data)) trajectories = [Some ["problem 1"; "(move)"]; None; Some ["problem 3"; "(a)"; "(b)"]; Some ["old trajectory"]].
Proof. vm_compute. reflexivity. Qed.
Example fd_case : exists stems m1 m', problem_stems m0 data "pfile" stems /\ run_fd (Abs data) = Ok m' /\ settled_all content content pprob exec ["domain"] data m1 m'.
Proof.
  destruct (C105_fast_downward content content pdom pprob exec exists_dir fd_process (fun _ => "ok") (fun c => c) (Abs planner) planner (fun _ => "sas") (fun _ => Some ["sas"]) m0 (Abs (data ++ ["domain.pddl"])) data "pfile" 5 ["domain"] ["domain"] nodup0 eq_refl fd_writes fd_ends ltac:(discriminate) eq_refl eq_refl domain_name usable0)
    as (stems & m1 & report & m' & P & _ & E & S). exists stems, m1, m'. split; [exact P|]. split; [exact E|exact S].
Qed.
(** The same directory, given from the working directory *)
Example relative_case : run_fd (Rel ["data"]) = Err KeyError.
Proof.
  apply C105_relative_refuted; [reflexivity|]. intros n. unfold look. apply dict_get_None. cbn. intros H. repeat (destruct H as [H|H]; [discriminate|]). exact H.
Qed.
(** Lower case for the plans of ENHSP: here, a fixed text *)
Example fix_case : exists m', fix_solution_files (fun c => Ok c) (fun c => Ok (map (fun _ => "(fixed)") c)) (Rel ["data"]) enhsp m0 = Ok m' /\ look m' data "old.solution" = Some ["(fixed)"; "(fixed)"].
Proof.
  destruct (C105_fix (fun c => Ok c) (fun c => Ok (map (fun _ => "(fixed)") c)) (Rel ["data"]) enhsp m0 nodup0) as (m' & E & R & _); [intros s t _; eexists; reflexivity|].
  exists m'. split; [exact E|]. exact (R "old" ["(a)"; "(b)"] _ eq_refl eq_refl).
Qed.
