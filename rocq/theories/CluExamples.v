(** * Cases that meet the hypotheses of CluProperties.v, and what does not hold *)
From Coq Require Import Lia.
From Verif Require FoldModel FoldSpec FoldExamples DfoldModel DfoldSpec.
From Verif Require Import CluModel CluSpec Prelude PreludeProofs.
Open Scope string_scope. Open Scope list_scope. Open Scope nat_scope.

Definition options0 := [("working_directory_path", "/data"); ("domain_file_name", "domain.pddl"); ("problems_prefix", "pfile"); ("polynom_degree", "1")].
Definition e0 := mk_experiment [3; 15] 15 (Some 30) None options0.
Example e0_configured : configured e0.
Proof.
  split; [intros k K; cbn in K |- *; tauto|]. split; [intros k K; cbn in K |- *; tauto|]. cbn. repeat constructor; cbn; tauto.
Qed.
Example e0_iterations : create_internal_iterations_list e0 = Ok [1; 2; 3; 4; 5; 6; 7; 8; 9; 10].
Proof. reflexivity. Qed.
Definition hundred := mk_experiment [3] 100 (Some 300) None options0.
Example hundred_iterations : create_internal_iterations_list hundred = Ok [1; 10; 20; 30; 40; 50; 60; 70; 80; 90; 100; 200].
Proof. vm_compute. reflexivity. Qed.

(** A cluster that accepts and shows everything *)
Definition yes_sbatch (i : nat) (_ : job) := Some i.
Definition yes_shown (_ _ : nat) := true.
Definition e1 := mk_experiment [3] 15 None (Some 10) options0.
Example numeric_run : exists l, numeric_main yes_sbatch yes_shown 1 "/code" "run.py" 2 [e0; e1] = Ok l /\ length l = 2 + 40 + 20 /\
  nth_error l 3 = Some (mk_job "/code/run.py" [Arg "fold_number" "0"; Arg "learning_algorithm" "3"; Arg "working_directory_path" "/data"; Arg "domain_file_name" "domain.pddl"; Arg "problems_prefix" "pfile"; Arg "polynom_degree" "1"; Arg "iteration_number" "2"] None).
Proof. eexists. split; [vm_compute; reflexivity|]. split; reflexivity. Qed.
Example multi_agent_run : exists l, multi_agent_main yes_sbatch yes_shown 1 "/code" "run.py" 2 [mk_experiment [1; 7] 15 (Some 30) None options0] = Ok l /\ length l = 1 + 44.
Proof. eexists. split; [vm_compute; reflexivity|]. reflexivity. Qed.
Example online_run : exists l, online_main yes_sbatch yes_shown 1 "/code" "run.py" 5 [mk_experiment [14; 22] 15 (Some 30) None options0] = Ok l /\ length l = 1 + 10.
Proof. eexists. split; [vm_compute; reflexivity|]. reflexivity. Qed.
(** A cluster that refuses the first call and accepts the second *)
Example refused_once : exists l, numeric_main (fun i _ => if i =? 0 then None else Some i) yes_shown 1 "/code" "run.py" 1 [e1] = Ok l /\ length l = 2 + 10.
Proof. eexists. split; [vm_compute; reflexivity|]. reflexivity. Qed.
Example e0_job : job_for "/code/run.py" e0 1 15 (Some 7) (mk_job "/code/run.py" (create_execution_arguments e0 1 15 ++ [Arg "iteration_number" "7"]) None).
Proof.
  split; [reflexivity|]. split; [reflexivity|]. split; [reflexivity|]. intros a. cbn. split.
  - intros [<-|[<-|[<-|[<-|[<-|[<-|[<-|[]]]]]]]]; [left; reflexivity|right; left; reflexivity|right; right; left..|right; right; right; exists 7; auto]; do 2 eexists; (split; [|reflexivity]); auto.
  - intros [->|[->|[(k & v & [H|[H|[H|[H|[]]]]] & ->)|(n & H & ->)]]]; auto 10; injection H as <- <- || injection H as <-; auto 10.
Qed.
Definition folders_job0 := mk_job "/code/folder_creation_for_parallel_execution.py"
  [Arg "working_directory_path" "/data"; Arg "domain_file_name" "domain.pddl"; Arg "learning_algorithms" "3,15"; Arg "internal_iterations" "1,2,3,4,5,6,7,8,9,10"; Arg "problem_prefix" "pfile"; Arg "experiment_size" "30"; Nothing] None.
Example e0_folders : folder_job "/code" true (e0, [1; 2; 3; 4; 5; 6; 7; 8; 9; 10]) folders_job0.
Proof. split; [reflexivity|]. split; [reflexivity|]. split; [intros k n [H|[H|[H|[]]]]; injection H as <- <-; eexists; split; reflexivity|]. split; [split; [intros H; cbn in H; repeat (destruct H as [H|H]; [discriminate H|]); contradiction|discriminate]|]. intros _ _. vm_compute. reflexivity. Qed.
(** Five problems and their trajectories *)
Definition five : list string := ["p0"; "p1"; "p2"; "p3"; "p4"].
Definition world5 := DfoldModel.mk_dworld nat (map (fun n => (n, 0)) ("domain.pddl" :: flat_map (fun s => [(s ++ ".trajectory")%string; (s ++ ".pddl")%string]) five)) [] [] DfoldModel.DNoFile.
Example world5_ready : DfoldSpec.dready nat "domain.pddl" (fun _ => five) world5 /\ 5 <= FoldSpec.used (length five) 30 /\ DfoldSpec.earlier_dsettings 5 (DfoldModel.dw_config _ world5).
Proof.
  split; [|split; [vm_compute; repeat constructor|exact I]]. split; [reflexivity|]. split; [reflexivity|]. split; [left; reflexivity|]. split; [vm_compute; repeat constructor; cbn; intuition discriminate|].
  intros x X y Y. cbn in X. destruct X as [<-|[<-|[<-|[<-|[<-|[]]]]]]; vm_compute in Y |- *; intuition (subst; auto 20).
Qed.

(** The numbers of trajectories are not bounded by the size of the training set. *)
Theorem C108_too_large_refuted : exists e its limit n, create_internal_iterations_list e = Ok its /\ training_limit e = Some limit /\ In n its /\ limit < n.
Proof. exists (mk_experiment [3] 15 (Some 10) None options0). do 2 eexists. exists 9. split; [reflexivity|]. split; [reflexivity|]. split; [cbn; tauto|]. cbn. lia. Qed.
Print Assumptions C108_too_large_refuted.

(** The whole training set need not be one of the numbers. *)
Theorem C108_whole_refuted : exists e its limit, create_internal_iterations_list e = Ok its /\ training_limit e = Some limit /\ ~ In limit its.
Proof.
  exists (mk_experiment [3] 15 (Some 100) None options0). do 2 eexists. split; [vm_compute; reflexivity|]. split; [reflexivity|]. cbn. intros H. repeat (destruct H as [H|H]; [discriminate H|]). exact H.
Qed.
Print Assumptions C108_whole_refuted.

(** A job that is accepted but ends before it is looked for is submitted again, with the same arguments. *)
Theorem C108_twice_refuted : exists shown l, numeric_main yes_sbatch shown 2 "/code" "run.py" 1 [e1] = Ok l /\ nth_error l 1 = nth_error l 2 /\ 2 < length l.
Proof. exists (fun i _ => negb (i =? 2)). eexists. split; [vm_compute; reflexivity|]. split; [reflexivity|]. cbn. lia. Qed.
Print Assumptions C108_twice_refuted.

(** With six folds, jobs of a fold are submitted that the job of the folds does not make. *)
Theorem C108_folds_refuted : exists l folders j name, numeric_main yes_sbatch yes_shown 1 "/code" "run.py" 6 [e1] = Ok l /\ nth_error l 0 = Some folders /\
  folder_creation (j_arguments folders) = Ok ([3], Some [1; 2; 3; 4; 5; 6; 7; 8; 9; 10], 100, 5) /\ In j l /\ numeric_runner (j_arguments j) = Ok (5, 3, 1, name).
Proof.
  do 4 eexists. split; [vm_compute; reflexivity|]. split; [reflexivity|]. split; [vm_compute; reflexivity|]. split; [eapply (nth_error_In _ 51); reflexivity|]. vm_compute. reflexivity.
Qed.
Print Assumptions C108_folds_refuted.

(** An algorithm that the experiment can run is refused by the program that submits it, after the folds were made. *)
Theorem C108_unlisted_refuted : exists e, numeric_main yes_sbatch yes_shown 1 "/code" "run.py" 1 [e] = Err KeyError /\
  exists r, numeric_runner (create_execution_arguments e 0 19 ++ [Arg "iteration_number" "1"]) = Ok r /\ ex_versions e = [19].
Proof. exists (mk_experiment [19] 15 None (Some 10) options0). split; [vm_compute; reflexivity|]. eexists. split; vm_compute; reflexivity. Qed.
Print Assumptions C108_unlisted_refuted.
