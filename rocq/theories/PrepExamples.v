(** * A case that meets the hypotheses of PrepProperties.v, and what does not hold *)
From Verif Require Import DfoldSpec FoldModel FoldSpec FoldExamples PrepModel PrepSpec PrepProofs Prelude PreludeProofs.
Open Scope string_scope. Open Scope list_scope. Open Scope nat_scope.

Definition pstems (d : dir nat) : list string := filter (fun s => memb (trajectory_file s) (map fst d)) ["p1"; "p2"; "p3"].
Definition pfiles : dir nat := [("domain.pddl", 0); ("p1.pddl", 1); ("p1.trajectory", 2); ("p1.solution", 3); ("p2.pddl", 4); ("p2.trajectory", 5); ("p2.solution", 6);
  ("p3.pddl", 7); ("p3.trajectory", 8); ("p3.solution", 9)].
Definition cw0 := mk_cworld nat (mk_dworld nat pfiles [] [] DNoFile) [].
(** One walk, for the first problem. *)
Definition pwalks (fold : nat) (test out : dir nat) : res (dir nat) := Ok (dict_set out "p1_random_walk.pddl" 10).
Example pwalks_ok : only_walks nat pwalks.
Proof.
  intros fold test out. eexists. split; [reflexivity|]. intros n N. apply dict_get_set_other. intros ->. apply N. exists "p1", "pddl". reflexivity.
Qed.
Example complete0 : complete nat "domain.pddl" "p" pstems pfiles.
Proof.
  split; [vm_compute; repeat constructor; cbn; intuition discriminate|]. split; [left; reflexivity|]. split; [|split; [|split]].
  - vm_compute. intros x [<-|[<-|[<-|[]]]] y Y; cbn in Y; intuition (subst; auto 20).
  - vm_compute. intros x [<-|[<-|[<-|[]]]] _; auto 20.
  - intros x I. vm_compute in I. destruct I as [<-|[<-|[<-|[]]]]; discriminate.
  - intros x (r & ->) E. discriminate E.
Qed.
Notation prepare := (prepare_experiment nat shuffle0 fifth0 "domain.pddl" pstems sample0).
Example prepare_case : 2 <= 3 <= used (length (pstems pfiles)) 0 /\ (exists l, Some [1; 2] = Some l /\ In 1 l) /\ [2] <> [] /\ ~ In 1 [2].
Proof. split; [vm_compute; split; repeat constructor|]. split; [exists [1; 2]; split; [reflexivity|left; reflexivity]|]. split; [discriminate|]. intros [X|[]]. discriminate X. Qed.
(** Three folds, two algorithms, one and two trajectories. *)
Example prepared0 : exists w, prepare 3 [4; 7] (Some [1; 2]) false pwalks "p" true 0 cw0 = Ok (w, None) /\
  option_map (map fst) (dict_get (cw_evaluation _ w) "fold_2") = Some ["p1_random_walk.pddl"; "p3.pddl"; "p3.solution"; "p3.trajectory"] /\
  option_map (map fst) (dict_get (dw_test _ (cw_base _ w)) "fold_2_4_1") = Some ["p3.pddl"] /\
  option_map (map fst) (dict_get (dw_train _ (cw_base _ w)) "fold_2_4_1") = Some ["domain.pddl"; "p1.trajectory"; "p1.pddl"].
Proof. eexists. split; [vm_compute; reflexivity|]. vm_compute. auto. Qed.
Example second0 : exists w w', prepare 3 [4; 7] None false pwalks "p" true 0 cw0 = Ok (w, None) /\
  prepare_experiment nat (fun n => rev (seq 0 n)) fifth0 "domain.pddl" pstems (fun l k => firstn k (rev l)) 3 [5] None true pwalks "p" false 2 w = Ok (w', None) /\
  option_map (map fst) (dict_get (dw_test _ (cw_base _ w')) "fold_2_5") = Some ["p3.pddl"].
Proof. do 2 eexists. split; [vm_compute; reflexivity|]. split; vm_compute; reflexivity. Qed.

(** A second run that asks for more folds than were recorded raises; with fewer, only these are prepared for evaluation, although the recorded ones are all created. *)
Theorem C101_more_folds_refuted : exists w w', prepare 2 [4] None false pwalks "p" true 0 cw0 = Ok (w, None) /\ prepare 3 [4] None false pwalks "p" true 0 w = Err KeyError /\
  prepare 3 [4] None false pwalks "p" true 0 cw0 = Ok (w', None) /\
  exists w'', prepare 2 [4] None false pwalks "p" true 0 w' = Ok (w'', None) /\ dict_get (dw_test _ (cw_base _ w'')) "fold_2_4" <> None.
Proof.
  do 2 eexists. split; [vm_compute; reflexivity|]. split; [vm_compute; reflexivity|]. split; [vm_compute; reflexivity|]. eexists. split; [vm_compute; reflexivity|]. vm_compute. discriminate.
Qed.
(** Numbers of trajectories that are only given in the second run. *)
Theorem C101_later_iterations_refuted : exists w, prepare 3 [4] None false pwalks "p" true 0 cw0 = Ok (w, None) /\ prepare 3 [4] (Some [1; 2]) false pwalks "p" true 0 w = Err KeyError.
Proof. eexists. split; vm_compute; reflexivity. Qed.
(** Evaluation directories are not emptied: after the settings were removed, a fold is evaluated with the trajectory of an item that it is trained on. *)
Definition forget (w : cworld nat) : cworld nat := mk_cworld nat (mk_dworld nat (dw_files _ (cw_base _ w)) (dw_train _ (cw_base _ w)) (dw_test _ (cw_base _ w)) DNoFile) (cw_evaluation _ w).
Theorem C101_stale_refuted : exists w w' train d, prepare 2 [4] None false pwalks "p" false 0 cw0 = Ok (w, None) /\ prepare 3 [4] None false pwalks "p" false 0 (forget w) = Ok (w', None) /\
  dict_get (dw_train _ (cw_base _ w')) "fold_0_4" = Some train /\ dict_get (cw_evaluation _ w') "fold_0" = Some d /\ dict_get train "p2.trajectory" = Some 5 /\ dict_get d "p2.trajectory" = Some 5.
Proof. do 4 eexists. split; [vm_compute; reflexivity|]. split; [vm_compute; reflexivity|]. split; [vm_compute; reflexivity|]. split; [vm_compute; reflexivity|]. vm_compute. auto. Qed.
(** A prefix that the name of the domain has: the domain is taken for a problem and has no plan. *)
Theorem C101_prefix_refuted : prepare 3 [4] None false pwalks "" false 0 cw0 = Err KeyError.
Proof. vm_compute. reflexivity. Qed.
