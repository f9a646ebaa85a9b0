(** * Cases that meet the hypotheses of FoldProperties.v, and what does not hold *)
From Verif Require Import FoldModel FoldSpec DummyModel DummySpec Prelude PreludeProofs.
Open Scope string_scope. Open Scope list_scope. Open Scope nat_scope.

Definition shuffle0 (n : nat) := seq 0 n.
Definition fifth0 (n : nat) := (n + 4) / 5.
Definition sample0 (l : list string) (k : nat) := firstn k l.
Definition stems (d : dir nat) : list string := filter (fun s => memb (trajectory_file s) (map fst d)) ["a"; "b"; "c"].
Definition files0 : dir nat := [("domain.pddl", 0); ("a.pddl", 1); ("a.trajectory", 2); ("b.pddl", 3); ("b.trajectory", 4); ("c.pddl", 5); ("c.trajectory", 6)].
Definition w0 := mk_world nat files0 None None NoFile.
Example shuffle0_ok : shuffles shuffle0.
Proof. intros n. apply Permutation_refl. Qed.
Example sample0_ok : samples sample0.
Proof. intros l k K. split; [apply firstn_length_le; exact K|]. exists (skipn k l). unfold sample0. rewrite firstn_skipn. apply Permutation_refl. Qed.
Example ready0 : ready nat "domain.pddl" stems w0.
Proof.
  split; [reflexivity|]. split; [reflexivity|]. split; [left; reflexivity|]. split.
  - vm_compute. repeat constructor; cbn; intuition discriminate.
  - vm_compute. intros x [<-|[<-|[<-|[]]]] y Y; cbn in Y; intuition (subst; auto 10).
Qed.
Example possible0 : possible fifth0 (used (length (stems files0)) 0) 3 false /\ earlier_settings 3 (w_config nat w0) /\ fifth0 3 < 3.
Proof. vm_compute. repeat split; repeat constructor. Qed.
Notation create := (create_k_fold shuffle0 fifth0 nat "domain.pddl" stems sample0).
Example three_folds : exists seen w, create 4 3 0 false true w0 = Ok (seen, w, None) /\ length seen = 3 /\ w_train nat w = None.
Proof. do 2 eexists. split; [vm_compute; reflexivity|split; reflexivity]. Qed.

(** A train directory left from before is kept: a test item is also in the train directory. *)
Theorem C43_leftover_refuted : exists w seen w', w_test nat w = None /\ create 4 3 0 false true w = Ok (seen, w', None) /\
  exists train test, nth_error seen 0 = Some (Some train, Some test) /\ In "a.pddl" (map fst train) /\ In "a.pddl" (map fst test).
Proof.
  exists (mk_world nat files0 (Some [("a.pddl", 1)]) None NoFile). do 2 eexists. split; [reflexivity|]. split; [vm_compute; reflexivity|].
  do 2 eexists. split; [reflexivity|]. split; vm_compute; auto.
Qed.
(** Ignoring the settings of more folds: they cannot be written back, and the file can no longer be read. *)
Theorem C43_resave_refuted : exists w seen w', ready nat "domain.pddl" stems w /\ create 4 3 0 false true w0 = Ok (seen, w, None) /\
  (exists seen2, create 4 2 0 false false w = Ok (seen2, w', Some TypeError)) /\
  forall nexts n_split m one load, create nexts n_split m one load w' = Err ValueError.
Proof.
  do 3 eexists. split; [|split; [vm_compute; reflexivity|split; [eexists; vm_compute; reflexivity|]]].
  - apply ready0.
  - intros. reflexivity.
Qed.
(** A consumer that stops before the end leaves the directories and no settings. *)
Theorem C43_stop_early_refuted : exists seen w, create 3 3 0 false true w0 = Ok (seen, w, None) /\ length seen = 3 /\
  w_train nat w <> None /\ w_config nat w = NoFile.
Proof. do 2 eexists. split; [vm_compute; reflexivity|]. split; [reflexivity|]. split; [discriminate|reflexivity]. Qed.

(** ** Dummy actions *)
Definition first (_ : nat) (l : list nat) : nat := hd 0 l.
Example first_picks : picks_one first.
Proof. intros k [|x l] H; [congruence|left; reflexivity]. Qed.
Definition agents0 := ["a1"; "a2"].
Definition plan0 : list joint := [[("move", ["a1"]); ("nop", [])]; [("nop", []); ("load", ["a2"])]; [("move", ["a1"]); ("load", ["a2"])]].
Example plan0_named : named agents0 plan0.
Proof. intros j [<-|[<-|[<-|[]]]]; cbn; auto. Qed.
Example plan0_goal : insert_dummy_actions_to_plan first first (fun _ => true) (fun _ => true) agents0 plan0 true =
  Ok [[("move", ["a1"]); ("dummy-del-predicate-action", ["a2"])]; [("dummy-add-predicate-action", ["a1"]); ("load", ["a2"])]; [("move", ["a1"]); ("load", ["a2"])]].
Proof. reflexivity. Qed.
Example plan0_split : plan0 = [[("move", ["a1"]); ("nop", [])]] ++ [("nop", []); ("load", ["a2"])] :: [[("move", ["a1"]); ("load", ["a2"])]] /\
  idle [("nop", []); ("load", ["a2"])] /\ ~ idle [("move", ["a1"]); ("load", ["a2"])].
Proof. split; [reflexivity|]. split; [exists []; left; reflexivity|]. intros (ps & [X|[X|[]]]); discriminate X. Qed.
Example idle_plan : forall j, In j (firstn 2 plan0) -> idle j.
Proof. intros j [<-|[<-|[]]]; exists []; cbn; auto. Qed.
(** A joint action that gets no dummy is dropped from the plan: by the draw, or because no agent is idle. *)
Theorem C45_dropped_refuted : exists add plan plan', named agents0 plan /\
  insert_dummy_actions_to_plan first first add (fun _ => false) agents0 plan false = Ok plan' /\ length plan' < length plan /\
  exists j a, In j plan /\ In a j /\ fst a <> "nop" /\ forall j', In j' plan' -> ~ In a j'.
Proof.
  exists (fun _ => false), [[("pick", ["a1"]); ("nop", [])]; [("move", ["a1"]); ("load", ["a2"])]], [[("move", ["a1"]); ("load", ["a2"])]].
  split; [intros j [<-|[<-|[]]]; cbn; auto|]. split; [reflexivity|]. split; [cbn; auto|].
  exists [("pick", ["a1"]); ("nop", [])], ("pick", ["a1"]). split; [left; reflexivity|]. split; [left; reflexivity|]. split; [discriminate|].
  intros j' [<-|[]] [X|[X|[]]]; discriminate X.
Qed.
Theorem C45_busy_dropped_refuted : exists plan plan', named agents0 plan /\
  insert_dummy_actions_to_plan first first (fun _ => true) (fun _ => false) agents0 plan false = Ok plan' /\ length plan' < length plan.
Proof.
  exists [[("pick", ["a1"]); ("load", ["a2"])]; [("move", ["a1"]); ("nop", [])]], [[("move", ["a1"]); ("nop", [])]].
  split; [intros j [<-|[<-|[]]]; cbn; auto|]. split; [reflexivity|cbn; auto].
Qed.
