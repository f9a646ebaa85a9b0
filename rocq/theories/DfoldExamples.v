(** * A case that meets the hypotheses of DfoldProperties.v, and what does not hold *)
From Verif Require Import DfoldModel DfoldSpec FoldModel FoldSpec FoldExamples Prelude PreludeProofs.
Open Scope string_scope. Open Scope list_scope. Open Scope nat_scope.

Definition dw0 := mk_dworld nat files0 [] [] DNoFile.
Example dready0 : dready nat "domain.pddl" stems dw0.
Proof.
  split; [reflexivity|]. split; [reflexivity|]. split; [left; reflexivity|]. split.
  - vm_compute. repeat constructor; cbn; intuition discriminate.
  - vm_compute. intros x [<-|[<-|[<-|[]]]] y Y; cbn in Y; intuition (subst; auto 10).
Qed.
Example dpossible0 : dpossible fifth0 (used (length (stems files0)) 0) 3 false /\ earlier_dsettings 3 (dw_config nat dw0) /\ some_iteration (Some [1; 2]).
Proof. split; [vm_compute; repeat split; repeat constructor|]. split; [exact I|discriminate]. Qed.
Notation dcreate := (create_distributed_k_fold shuffle0 fifth0 nat "domain.pddl" stems sample0).
(** Three folds, two algorithms, one and two trajectories. *)
Example created : exists w, dcreate 3 false [4; 7] (Some [1; 2]) false dw0 0 true false = Ok (w, None) /\
  length (dw_train _ w) = 18 /\ option_map (map fst) (dict_get (dw_train _ w) "fold_2_7_1") = Some ["domain.pddl"; "a.trajectory"; "a.pddl"] /\
  option_map (map fst) (dict_get (dw_test _ w) "fold_2_7_1") = Some ["c.pddl"].
Proof. eexists. split; [vm_compute; reflexivity|]. vm_compute. auto. Qed.
Example loaded : exists w w', dcreate 3 false [4; 7] (Some [1; 2]) false dw0 0 true false = Ok (w, None) /\
  dcreate 9 true [5] None true (remove_dfolds _ w) 1 true false = Ok (w', None) /\
  option_map (map fst) (dict_get (dw_train _ w') "fold_2_5_1") = Some ["domain.pddl"; "a.trajectory"; "a.pddl"] /\ has_dir nat files0 (dw_test _ w') "fold_2_5_triplets" ["c.pddl"].
Proof.
  do 2 eexists. split; [vm_compute; reflexivity|]. split; [vm_compute; reflexivity|]. split; [vm_compute; reflexivity|].
  eexists. split; [vm_compute; reflexivity|]. intros n. cbn [dict_get]. unfold memb. cbn [existsb]. unfold Prelude.eqb. destruct (eq_dec n "c.pddl") as [->|]; reflexivity.
Qed.

(** The directory that the experiments with triplets read is not there after the folds were created from the files,
    whatever the flag says: it is only created when the settings are loaded. *)
Theorem C92_triplets_refuted : exists w, dcreate 3 false [4; 7] (Some [1; 2]) true dw0 0 true false = Ok (w, None) /\
  forall j a, j < 3 -> In a [4; 7] -> dict_get (dw_train _ w) (triplets_name j a) = None /\ dict_get (dw_test _ w) (triplets_name j a) = None.
Proof.
  eexists. split; [vm_compute; reflexivity|]. intros j a L [<-|[<-|[]]]; (destruct j as [|[|[|j]]]; [| | |lia]); split; vm_compute; reflexivity.
Qed.
(** Zero folds stand for one fold for each item in the other split; here they are refused. *)
Theorem C92_zero_folds_refuted : dcreate 0 false [4] None false dw0 0 true false = Err ValueError /\ exists x, create_k_fold shuffle0 fifth0 nat "domain.pddl" stems sample0 4 0 0 false true w0 = Ok x.
Proof. split; [vm_compute; reflexivity|eexists; vm_compute; reflexivity]. Qed.
(** An empty list of numbers of trajectories. *)
Theorem C92_no_iterations_refuted : dcreate 3 false [4] (Some []) false dw0 0 true false = Err IndexError.
Proof. vm_compute. reflexivity. Qed.
(** Creating fewer folds than were recorded: the settings cannot be saved and can no longer be read. *)
Theorem C92_resave_refuted : exists w w', dcreate 3 false [4] None false dw0 0 true false = Ok (w, None) /\
  dcreate 2 false [4] None false (remove_dfolds _ w) 0 false false = Ok (w', Some TypeError) /\
  forall n one algs it tr m load ig, dcreate n one algs it tr w' m load ig = Err ValueError.
Proof. do 2 eexists. split; [vm_compute; reflexivity|]. split; [vm_compute; reflexivity|]. reflexivity. Qed.
(** Directories that are left from before are kept: a problem of the test set is then also in the train directory. *)
Theorem C92_leftover_refuted : exists w w' train test, dw_config _ w = DNoFile /\ dcreate 3 false [4] None false w 0 true false = Ok (w', None) /\
  dict_get (dw_train _ w') "fold_0_4" = Some train /\ dict_get (dw_test _ w') "fold_0_4" = Some test /\ In "a.pddl" (map fst train) /\ In "a.pddl" (map fst test).
Proof.
  exists (mk_dworld nat files0 [("fold_0_4", [("a.pddl", 1)])] [] DNoFile). do 3 eexists. split; [reflexivity|]. split; [vm_compute; reflexivity|].
  split; [vm_compute; reflexivity|]. split; [vm_compute; reflexivity|]. vm_compute. auto.
Qed.
