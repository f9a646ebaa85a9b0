(** * Cases of the properties of a fold of online learning, and inputs on which stronger claims are false *)
From Verif Require Import SemiExamples NoamExamples NoamSpec SemiSpec OcolSpec OnumExamples SvmExamples NumExamples IncExamples NsamExamples StripsExec Checks SamFinal NumProofs PilModel PilSpec PilFinal PilProperties Prelude PreludeProofs.
From Coq Require Import Lia.
Open Scope string_scope. Open Scope list_scope. Open Scope nat_scope.

(** ** Three problems; the directory has other files as well *)
Definition train0 : problem_dir :=
  [("pfile10.pddl", Ok (pr_init fill_problem, pr_env fill_problem)); ("robots.pddl", Err ValueError); ("pfile1.pddl", Ok (pr_init fill_problem, pr_env fill_problem));
   ("pfile2.pddl", Ok (pr_init robot_problem, stuck_env))].
Definition flearn k solvers d out := learn_model_online le0 unit0 fine0 fit0 hull0 schmidt0 rank0 svm_on 10 false nx_dom rd0 1000 1 100 5 20 2 solvers k "pfile" 3 0 d out.
Definition fmain k solvers d out := pil_main le0 unit0 fine0 fit0 hull0 schmidt0 rank0 svm_on 10 false nx_dom rd0 1000 1 100 5 20 2 solvers k "pfile" 3 0 d out.
Definition fold_cells (keys : list string) (x : string) (r : res (numeric_learners * results * option table)) : list (list (option cell)) :=
  match r with Ok (_, out, _) => match dict_get out x with Some t => map (fun row => map (dict_get row) keys) t | None => [] end | Err _ => [] end.
Definition planned_visit : visit := mk_visit true None None [] [] true true st_ok st_irrelevant.
Lemma keys0 : NoDup (dict_keys train0).
Proof. repeat constructor; cbn; intuition discriminate. Qed.
Lemma sets_train : action_sets_in train0.
Proof. intros x init E G. apply dict_get_In in G. destruct G as [G|[G|[G|[G|[]]]]]; try discriminate G; injection G as _ _ <-; cbn; repeat constructor; cbn; intuition discriminate. Qed.
Definition names_stats := ["problem_name"; "num_steps_in_episode"; "goal_reached"; "safe_model_solution_status"; "optimistic_model_solution_status"; "algorithm_type"; "fold_number"].
(** The tenth problem comes before the second one; only one robot can be filled in the last problem. *)
Example C102_case : fair rd0 /\ Forall plain_name (dict_keys (d_actions nx_dom)) /\ NoDup (dict_keys train0) /\ action_sets_in train0 /\
  (exists L out t, flearn (exploring noam_learner) [no_solver] train0 [("other.csv", [])] = Ok (L, out, Some t) /\ dict_keys out = ["other.csv"; "noam_learning_exploration_statistics_fold_3.csv"] /\ length t = 3) /\
  fold_cells names_stats "noam_learning_exploration_statistics_fold_3.csv" (flearn (exploring noam_learner) [no_solver] train0 []) =
   [[Some (CText "pfile1"); Some (CNat 1); Some (CBool true); Some (CText "no_solution"); Some (CText "no_solution"); Some (CText "noam_learning"); Some (CNat 3)];
    [Some (CText "pfile10"); Some (CNat 3); Some (CBool true); Some (CText "no_solution"); Some (CText "no_solution"); Some (CText "noam_learning"); Some (CNat 3)];
    [Some (CText "pfile2"); Some (CNat 3); Some (CBool false); Some (CText "no_solution"); Some (CText "no_solution"); Some (CText "noam_learning"); Some (CNat 3)]].
Proof.
  split; [apply fair0|]. split; [apply plain0|]. split; [apply keys0|]. split; [apply sets_train|]. split.
  - do 3 eexists. split; [vm_compute; reflexivity|]. split; reflexivity.
  - vm_compute. reflexivity.
Qed.
Example C102_semi_case : (exists L out, flearn semi_online [no_solver] train0 [] = Ok (L, out, None)) /\
  fold_cells names_stats "semi_online_exploration_statistics_fold_3.csv" (flearn semi_online [no_solver] train0 []) =
   [[Some (CText "pfile1"); Some (CNat 1); Some (CBool true); Some (CText "no_solution"); Some (CText "no_solution"); Some (CText "semi_online"); Some (CNat 3)];
    [Some (CText "pfile10"); Some (CNat 1); Some (CBool true); Some (CText "no_solution"); Some (CText "no_solution"); Some (CText "semi_online"); Some (CNat 3)];
    [Some (CText "pfile2"); Some (CNat 5); Some (CBool false); Some (CText "no_solution"); Some (CText "no_solution"); Some (CText "semi_online"); Some (CNat 3)]].
Proof. split; [do 2 eexists; vm_compute; reflexivity|vm_compute; reflexivity]. Qed.
Example C102_evaluated_case : (exists out t safe optimistic, fmain (exploring noam_learner) [no_solver] train0 [] = Ok (out, t, Some (safe, optimistic)) /\ dict_keys safe = ["fill"; "swap"]) /\
  (exists out t, fmain (exploring informative_svm) [no_solver; planner [mkCall "fill" ["r1"]]] train0 [] = Ok (out, t, None)) /\ exists out, fmain semi_online [no_solver] train0 [] = Ok (out, None, None).
Proof. split; [do 4 eexists; split; [vm_compute; reflexivity|reflexivity]|]. split; [do 2 eexists; vm_compute; reflexivity|eexists; vm_compute; reflexivity]. Qed.
Example C102_collected_case : explored [] "noam_learning" [] /\ ~ In 3 (map fst (@nil run_of)) /\ exists L out t, flearn (exploring noam_learner) [no_solver] train0 [] = Ok (L, out, t).
Proof. split; [|split; [intros []|do 3 eexists; vm_compute; reflexivity]]. split; [constructor|]. split; [constructor|]. split; [intros x []|intros run []]. Qed.

(** ** Safety and plans: the first plan is learned from, the second one is a plan of the learned domain *)
Definition train1 : problem_dir := [("pfile1.pddl", Ok (pr_init fill_problem, pr_env fill_problem)); ("pfile0.pddl", Ok (pr_init fill_problem, pr_env fill_problem))].
Definition planned : trial := mk_trial (Some [filled]) None [] true true st_ok st_irrelevant.
Definition fill0 (n : string) : problem := mk_problem n (pr_init fill_problem) (pr_env fill_problem).
Definition exported2 := let* L := numeric_train le0 unit0 fit0 hull0 schmidt0 nx_dom 0 [[filled]] in construct_safe_action_model unit0 fine0 fit0 rank0 false nx_dom L.
Definition model2 : list (string * exported) := match exported2 with Ok m => m | Err _ => [] end.
Lemma model2_ok : safe_after le0 unit0 fine0 fit0 hull0 schmidt0 rank0 false nx_dom 0 [[filled]] model2.
Proof.
  assert (E : exported2 = Ok model2) by (vm_compute; reflexivity). unfold exported2 in E. unfold safe_after.
  destruct (numeric_train le0 unit0 fit0 hull0 schmidt0 nx_dom 0 [[filled]]) as [L|]; [exists L; split; [reflexivity|exact E]|discriminate E].
Qed.
Definition exported3 := let* L := numeric_train le0 unit0 fit0 hull0 schmidt0 nx_dom 0 [] in construct_safe_action_model unit0 fine0 fit0 rank0 false nx_dom L.
Definition model3 : list (string * exported) := match exported3 with Ok m => m | Err _ => [] end.
Lemma model3_ok : safe_after le0 unit0 fine0 fit0 hull0 schmidt0 rank0 false nx_dom 0 [] model3.
Proof.
  assert (E : exported3 = Ok model3) by (vm_compute; reflexivity). unfold exported3 in E. unfold safe_after.
  destruct (numeric_train le0 unit0 fit0 hull0 schmidt0 nx_dom 0 []) as [L|]; [exists L; split; [reflexivity|exact E]|discriminate E].
Qed.
Lemma planned_ok n learned model : safe_after le0 unit0 fine0 fit0 hull0 schmidt0 rank0 false nx_dom 0 learned model ->
  tried (safe_after le0 unit0 fine0 fit0 hull0 schmidt0 rank0 false nx_dom 0) (optimistic_after le0 unit0 fine0 fit0 hull0 schmidt0 rank0 svm_on 10 false nx_dom 0) [planner [mkCall "fill" ["r1"]]] 5 20 noam_learner learned (fill0 n) planned.
Proof.
  intros SA. exists model, filled_world. split; [exact SA|]. split; [|left; repeat split].
  exists [], (planner [mkCall "fill" ["r1"]]), [], [mkCall "fill" ["r1"]], true. split; [reflexivity|]. split; [constructor|]. split; [reflexivity|]. split; [|left; split; [reflexivity|vm_compute; reflexivity]].
  apply (plan_go (pr_env fill_problem) robots (mkCall "fill" ["r1"]) filled_world [] []); [|constructor]. split; [left; reflexivity|vm_compute; reflexivity].
Qed.
Lemma solution2 : plan_solves nx_dom model2 (pr_env fill_problem) robots [mkCall "fill" ["r1"]].
Proof.
  do 2 eexists. split; [reflexivity|]. split; [vm_compute; reflexivity|]. split; [reflexivity|]. split; [repeat constructor; intros []|]. split; [intros x X []|]. split.
  - split.
    + intros f F. repeat (destruct F as [<-|F]; [apply lit_trueb_true; reflexivity|]). destruct F.
    + intros t T. repeat (destruct T as [<-|T]; [do 5 eexists; (split; [vm_compute; reflexivity|]); (split; [vm_compute; reflexivity|]); (split; [vm_compute; reflexivity|]); first [right; right; split; reflexivity|right; left; (split; [reflexivity|]); unfold Qle; cbn; lia|left; (split; [reflexivity|]); unfold Qle; cbn; lia]|]). destruct T.
  - intros w1 (H & _). cbn. unfold robot_goal. f_equal. apply negb_true_iff. destruct (lit_trueb (fst w1) (mkLit "ready" ["r1"] true)) eqn:E; [|reflexivity]. exfalso. apply lit_trueb_true in E. apply H in E. destruct E as [(l & [<-|[]] & P & _)|(_ & N)]; [discriminate P|].
    apply N. eexists. split; [left; reflexivity|]. split; reflexivity.
Qed.
Example C102_safe_case : (exists L out t, flearn (exploring noam_learner) [planner [mkCall "fill" ["r1"]]] train1 [] = Ok (L, out, t) /\ numeric_train le0 unit0 fit0 hull0 schmidt0 nx_dom 0 [[filled]; [filled]] = Ok L /\
    exists model e, construct_safe_action_model unit0 fine0 fit0 rank0 false nx_dom L = Ok model /\ dict_get model "fill" = Some e) /\
  NoDup (dict_keys train1) /\ action_sets_in train1 /\ problems_of train1 "pfile" [fill0 "pfile0"; fill0 "pfile1"] /\
  all_tried (safe_after le0 unit0 fine0 fit0 hull0 schmidt0 rank0 false nx_dom 0) (optimistic_after le0 unit0 fine0 fit0 hull0 schmidt0 rank0 svm_on 10 false nx_dom 0) [planner [mkCall "fill" ["r1"]]] 5 20 noam_learner [] [fill0 "pfile0"; fill0 "pfile1"] [planned; planned] /\
  real_dir nx_dom on_real train1 /\ exact_libraries unit0 fit0 hull0 schmidt0 /\ real_numeric_actions nx_dom 0 on_real /\ (exists j, fine0 = (unit0 * j)%positive) /\ exact_regression unit0 fit0 /\
  online_input unit0 fit0 le0 nx_dom 0 [[filled]; [filled]] /\ of_action "fill" [[filled]; [filled]] <> [] /\
  online_input unit0 fit0 le0 nx_dom 0 [[filled]] /\ guarded nx_dom [[filled]] /\ safe_after le0 unit0 fine0 fit0 hull0 schmidt0 rank0 false nx_dom 0 (concat (map tr_lesson [planned])) model2 /\
  plan_solves nx_dom model2 (pr_env (fill0 "pfile1")) (pr_init (fill0 "pfile1")) [mkCall "fill" ["r1"]].
Proof.
  split. { do 3 eexists. split; [vm_compute; reflexivity|]. split; [vm_compute; reflexivity|]. do 2 eexists. split; [vm_compute; reflexivity|]. reflexivity. }
  split; [repeat constructor; cbn; intuition discriminate|].
  assert (CASES : forall x init E, dict_get train1 x = Some (Ok (init, E)) -> E = pr_env fill_problem) by (intros x init E G; apply dict_get_In in G; destruct G as [G|[G|[]]]; injection G as _ _ <-; reflexivity).
  split; [intros x init E G; rewrite (CASES _ _ _ G); cbn; repeat constructor; cbn; intuition discriminate|].
  split. { exists ["pfile0.pddl"; "pfile1.pddl"]. split; [|repeat constructor]. change ["pfile0.pddl"; "pfile1.pddl"] with (problem_names train1 "pfile"). apply names_files. repeat constructor; cbn; intuition discriminate. }
  split. { split; [apply (planned_ok _ _ _ model3_ok)|]. split; [|exact I]. apply (planned_ok _ _ _ model2_ok). }
  split. { intros x init E G. rewrite (CASES _ _ _ G). apply problems1_real. left. reflexivity. }
  split; [apply libraries1|]. split; [apply on_actions|]. split; [exists 1000000%positive; reflexivity|]. split; [apply fit0_exact|].
  split; [apply robots_input; intros cp [<-|[<-|[]]]; left; reflexivity|]. split; [rewrite OnumTrain.of_action_evid; discriminate|]. split; [apply robots_input; intros cp [<-|[]]; left; reflexivity|]. split; [apply guarded0|]. split; [exact model2_ok|exact solution2].
Qed.
(** Semi-online: the third visit of [visits1]. *)
Lemma solution1 : plan_solves nx_dom model1 (pr_env fill_problem) robots [mkCall "fill" ["r1"]].
Proof.
  do 2 eexists. split; [reflexivity|]. split; [vm_compute; reflexivity|]. split; [reflexivity|]. split; [repeat constructor; intros []|]. split; [intros x X []|]. split.
  - split.
    + intros f F. repeat (destruct F as [<-|F]; [apply lit_trueb_true; reflexivity|]). destruct F.
    + intros t T. repeat (destruct T as [<-|T]; [do 5 eexists; (split; [vm_compute; reflexivity|]); (split; [vm_compute; reflexivity|]); (split; [vm_compute; reflexivity|]); first [right; right; split; reflexivity|right; left; (split; [reflexivity|]); unfold Qle; cbn; lia|left; (split; [reflexivity|]); unfold Qle; cbn; lia]|]). destruct T.
  - intros w1 (H & _). cbn. unfold robot_goal. f_equal. apply negb_true_iff. destruct (lit_trueb (fst w1) (mkLit "ready" ["r1"] true)) eqn:E; [|reflexivity]. exfalso. apply lit_trueb_true in E. apply H in E. destruct E as [(l & [<-|[]] & P & _)|(_ & N)]; [discriminate P|].
    apply N. eexists. split; [left; reflexivity|]. split; reflexivity.
Qed.
Example C99_plan_case : (exists M, srun1 = Ok M) /\ action_sets problems1 /\ real_problems nx_dom on_real problems1 /\
  all_visited (safe_after le0 unit0 fine0 fit0 hull0 schmidt0 rank0 false nx_dom 0) (optimistic_after le0 unit0 fine0 fit0 hull0 schmidt0 rank0 svm_on 10 false nx_dom 0) [planner [mkCall "fill" ["r1"]]] (dict_keys (d_actions nx_dom)) 2 100 5 20 2 0 [] [] [] problems1 visits1 /\
  problems1 = [fill_problem; second_problem] ++ fill_problem :: [] /\ visits1 = firstn 2 visits1 ++ nth 2 visits1 planned_visit :: [] /\ vi_planned (nth 2 visits1 planned_visit) = true /\
  (let learned := fst (lessons [] (firstn 2 visits1)) ++ snd (lessons [] (firstn 2 visits1)) in online_input unit0 fit0 le0 nx_dom 0 learned /\ guarded nx_dom learned /\ safe_after le0 unit0 fine0 fit0 hull0 schmidt0 rank0 false nx_dom 0 learned model1) /\
  plan_solves nx_dom model1 (pr_env fill_problem) (pr_init fill_problem) [mkCall "fill" ["r1"]].
Proof.
  split; [eexists; vm_compute; reflexivity|]. split; [intros P [<-|[<-|[<-|[]]]]; cbn; repeat constructor; cbn; intuition discriminate|]. split; [apply problems1_real|]. split; [apply visits1_ok|]. split; [reflexivity|]. split; [reflexivity|]. split; [reflexivity|]. split; [|exact solution1].
  split; [apply robots_input; intros cp [<-|[<-|[]]]; [left; reflexivity|right; right; left; vm_compute; reflexivity]|]. split; [apply guarded0|exact model1_ok].
Qed.

(** ** Failures *)
Example C102_unreadable_case : dict_get (train0 ++ [("pfile3.pddl", Err ValueError)]) "pfile3.pddl" = Some (Err ValueError) /\ is_problem "pfile" "pfile3.pddl" /\ NoDup (dict_keys (train0 ++ [("pfile3.pddl", Err ValueError)])).
Proof. split; [reflexivity|]. split; [exists "3"; reflexivity|repeat constructor; cbn; intuition discriminate]. Qed.
(** A learner whose convex hull fails for what was seen in the first problem: the fold raises in the second problem, and the rows of the first
    one are not in the results. *)
Theorem C102_hull_refuted : (exists L out t, flearn (exploring noam_learner) [no_solver] [("pfile1.pddl", Ok (pr_init robot_problem, pr_env robot_problem))] [] = Ok (L, out, Some t) /\ length t = 1) /\
  flearn (exploring noam_learner) [no_solver] [("pfile1.pddl", Ok (pr_init robot_problem, pr_env robot_problem)); ("pfile2.pddl", Ok (pr_init robot_problem, pr_env robot_problem))] [] = Err NotSafeError.
Proof. split; [do 3 eexists; split; [vm_compute; reflexivity|reflexivity]|vm_compute; reflexivity]. Qed.
(** Eleven problems: the second episode is not the second problem. *)
Definition eleven : problem_dir := map (fun i => (numbered_file "pfile" i, Ok (pr_init fill_problem, pr_env fill_problem))) (seq 0 11).
Example C102_order_case : NoDup (dict_keys eleven) /\ (forall x, In x (dict_keys eleven) /\ is_problem "pfile" x <-> exists i, i < 11 /\ x = numbered_file "pfile" i) /\
  problem_names eleven "pfile" = map (numbered_file "pfile") [0; 1; 10; 2; 3; 4; 5; 6; 7; 8; 9].
Proof.
  assert (K : dict_keys eleven = map (numbered_file "pfile") (seq 0 11)) by reflexivity. split; [|split].
  - rewrite K. apply FinFun.Injective_map_NoDup; [intros i j; apply numbered_inj|apply seq_NoDup].
  - intros x. rewrite K, in_map_iff. split; [intros ((i & <- & L) & _); exists i; split; [apply in_seq in L; lia|reflexivity]|]. intros (i & L & ->). split; [exists i; split; [reflexivity|apply in_seq; lia]|]. exists (decimal i). reflexivity.
  - vm_compute. reflexivity.
Qed.
Print Assumptions C102_hull_refuted.

(** ** Every algorithm and fold has its own file *)
Example C102_own_file_case : (exists L out t, flearn (exploring noam_learner) [no_solver] train0 [("goal_oriented_explorer_exploration_statistics_fold_3.csv", [[]])] = Ok (L, out, t) /\
    length (match dict_get out (statistics_file (algorithm_name (exploring noam_learner)) 3) with Some t => t | None => [] end) = 3 /\ dict_get out (statistics_file (algorithm_name (exploring goal_oriented)) 3) = Some [[]]) /\
  (exploring goal_oriented, 3) <> (exploring noam_learner, 3).
Proof. split; [do 3 eexists; split; [vm_compute; reflexivity|split; reflexivity]|discriminate]. Qed.
