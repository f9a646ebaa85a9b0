(** * Cases of the properties of semi-online learning, and inputs on which stronger claims are false *)
From Verif Require Import SemiSpec SemiProperties NoamExamples NoamSpec NoamProperties NoamSolve OnumExamples StripsExec Checks SamFinal NumProofs NumExamples IncExamples NsamExamples SvmExamples Prelude PreludeProofs.
From Coq Require Import Lia.
Open Scope string_scope. Open Scope list_scope. Open Scope nat_scope.

Definition srun min_episodes min_executions max_failed files solvers problems :=
  semi_run le0 unit0 fine0 fit0 hull0 schmidt0 rank0 svm_on 10 false nx_dom rd0 min_episodes min_executions 5 max_failed 2 files (Some solvers) 0 problems.
Definition cells (keys : list string) (r : res semi) : list (list (option cell)) := match r with Ok M => map (fun row => map (dict_get row) keys) (r_rows world call (se_rec M)) | Err _ => [] end.
Definition queue (r : res semi) : list string := match r with Ok M => se_queue M | Err _ => [] end.
Lemma plain0 : Forall plain_name (dict_keys (d_actions nx_dom)).
Proof. repeat constructor. Qed.

(** ** Three problems: an exploration, a plan that fails, a plan that succeeds *)
Definition rows0 := ["problem_name"; "sum_failed_actions"; "num_steps_in_episode"; "goal_reached"; "solver_solved_problem"; "safe_model_solution_status"; "optimistic_model_solution_status"].
Definition other_problem : problem := mk_problem "other" done_world (mk_env ["fill"; "swap"] robot_apply [mkCall "fill" ["r2"]; mkCall "swap" ["r1"; "r2"]] (fun w => Ok (negb (lit_trueb (fst w) (mkLit "ready" ["r2"] true))))).
Definition problems0 : list problem := [robot_problem; other_problem; robot_problem].
Definition srun0 := srun 1 100 20 ["robots"; "other"] [no_solver; planner [mkCall "fill" ["r1"]]] problems0.
Lemma sets_problems : action_sets problems0.
Proof. intros P [<-|[<-|[<-|[]]]]; cbn; repeat constructor; cbn; intuition discriminate. Qed.
Example C99_case : fair rd0 /\ Forall plain_name (dict_keys (d_actions nx_dom)) /\ action_sets problems0 /\ (exists M, srun0 = Ok M) /\
  cells rows0 srun0 =
   [[Some (CText "robots"); Some (CNat 4); Some (CNat 9); Some (CBool false); Some (CBool false); Some (CText "no_solution"); Some (CText "no_solution")];
    [Some (CText "other"); Some (CNat 0); Some (CNat 1); Some (CBool true); Some (CBool false); Some (CText "not_applicable"); Some (CText "not_applicable")];
    [Some (CText "robots"); Some (CNat 0); Some (CNat 0); Some (CBool true); Some (CBool true); Some (CText "ok"); Some (CText "irrelevant")]] /\ queue srun0 = [].
Proof. split; [apply fair0|]. split; [apply plain0|]. split; [apply sets_problems|]. split; [eexists; vm_compute; reflexivity|]. split; vm_compute; reflexivity. Qed.

(** ** Safety: two robots are filled in explorations, then one by a plan *)
Definition filled_world : world := ([("ready", [["r2"]])], nx_fl (3 * 1 + 1) 2).
Definition both_filled : world := match robot_apply (mkCall "fill" ["r2"]) filled_world with Ok w => w | Err _ => robots end.
Definition fill_problem : problem := mk_problem "robots" robots (mk_env ["fill"; "swap"] robot_apply [mkCall "fill" ["r1"]; mkCall "fill" ["r2"]] robot_goal).
Definition second_problem : problem := mk_problem "second" filled_world (mk_env ["fill"; "swap"] robot_apply [mkCall "fill" ["r2"]] (fun w => Ok (negb (lit_trueb (fst w) (mkLit "ready" ["r2"] true))))).
Definition problems1 : list problem := [fill_problem; second_problem; fill_problem].
Lemma problems1_real : real_problems nx_dom on_real problems1.
Proof. destruct robots_real as [H1 H2 H3 H4]. intros P [<-|[<-|[<-|[]]]]; constructor; assumption. Qed.
Definition step1 : episode_step := mk_step world call robots (mkCall "fill" ["r1"]) filled_world true.
Definition step2 : episode_step := mk_step world call filled_world (mkCall "fill" ["r2"]) both_filled true.
Definition visits1 : list visit :=
  [mk_visit false None None [[step1]] [[step1]] true false st_no_solution st_no_solution;
   mk_visit false None None [[step2]] [[step2]] true false st_no_solution st_no_solution;
   mk_visit true (Some [filled]) None [] [] true true st_ok st_irrelevant].
Definition srun1 := srun 2 100 20 ["robots"; "second"] [planner [mkCall "fill" ["r1"]]] problems1.
Lemma first_visit before P s w' : failures before < 20 -> round_at (pr_env P) (pr_init P) [s] w' -> en_goal (pr_env P) w' = Ok true ->
  explores 5 20 before P (pr_init P) (mk_visit false None None [[s]] [[s]] true false st_no_solution st_no_solution).
Proof.
  intros F R G. split; [reflexivity|]. exists [w']. split; [econstructor; [exact R|constructor]|]. split; [cbn; lia|]. split.
  - intros rs r rs' E. destruct rs as [|? rs]; [cbn [concat]; rewrite app_nil_r; exact F|destruct rs; discriminate E].
  - exists [], w'. split; [reflexivity|]. split; [exact G|constructor].
Qed.
Lemma one_round E w c w' : real_outcome E w c w' true -> In c (en_actions E) -> NoDup (c_params c) -> round_at E w [mk_step world call w c w' true] w'.
Proof.
  intros O IC ND. split; [constructor; [|constructor]|].
  - split; [reflexivity|]. split; [exact O|]. split; assumption.
  - exists [], (mk_step world call w c w' true). split; [reflexivity|]. split; [constructor|]. split; [reflexivity|discriminate].
Qed.
Definition exported1 := let* L := numeric_train le0 unit0 fit0 hull0 schmidt0 nx_dom 0 [[as_component step1]; [as_component step2]] in construct_safe_action_model unit0 fine0 fit0 rank0 false nx_dom L.
Definition model1 : list (string * exported) := match exported1 with Ok m => m | Err _ => [] end.
Lemma model1_ok : safe_after le0 unit0 fine0 fit0 hull0 schmidt0 rank0 false nx_dom 0 [[as_component step1]; [as_component step2]] model1.
Proof.
  assert (E : exported1 = Ok model1) by (vm_compute; reflexivity). unfold exported1 in E. unfold safe_after.
  destruct (numeric_train le0 unit0 fit0 hull0 schmidt0 nx_dom 0 [[as_component step1]; [as_component step2]]) as [L|]; [exists L; split; [reflexivity|exact E]|discriminate E].
Qed.
Lemma visits1_ok : all_visited (safe_after le0 unit0 fine0 fit0 hull0 schmidt0 rank0 false nx_dom 0) (optimistic_after le0 unit0 fine0 fit0 hull0 schmidt0 rank0 svm_on 10 false nx_dom 0) [planner [mkCall "fill" ["r1"]]] (dict_keys (d_actions nx_dom)) 2 100 5 20 2 0 [] [] [] problems1 visits1.
Proof.
  split; [|split; [|split; [|exact I]]].
  - split; [|split].
    + split; [discriminate|]. intros [H|H]; [cbn in H; lia|]. specialize (H "fill" (or_introl eq_refl)). cbn in H. lia.
    + split; [reflexivity|cbn; lia].
    + do 4 (split; [reflexivity|]). apply (first_visit _ fill_problem step1 filled_world); [cbn; lia| |vm_compute; reflexivity].
      apply one_round; [split; [left; reflexivity|vm_compute; reflexivity]|left; reflexivity|repeat constructor; intros []].
  - split; [|split].
    + split; [discriminate|]. intros [H|H]; [cbn in H; lia|]. specialize (H "fill" (or_introl eq_refl)). vm_compute in H. lia.
    + split; [reflexivity|cbn; lia].
    + do 4 (split; [reflexivity|]). apply (first_visit _ second_problem step2 both_filled); [cbn; lia| |vm_compute; reflexivity].
      apply one_round; [split; [left; reflexivity|vm_compute; reflexivity]|left; reflexivity|repeat constructor; intros []].
  - split; [|split].
    + split; [intros _; left; cbn; lia|reflexivity].
    + reflexivity.
    + exists model1, filled_world. split; [|split; [|left; repeat split]].
      { exact model1_ok. }
      exists [], (planner [mkCall "fill" ["r1"]]), [], [mkCall "fill" ["r1"]], true. split; [reflexivity|]. split; [constructor|]. split; [reflexivity|]. split; [|left; split; [reflexivity|]].
      * apply (plan_go (pr_env fill_problem) robots (mkCall "fill" ["r1"]) filled_world [] []); [|constructor]. split; [left; reflexivity|vm_compute; reflexivity].
      * vm_compute. reflexivity.
Qed.
Example C99_safe_case : (exists M, srun1 = Ok M /\ numeric_train le0 unit0 fit0 hull0 schmidt0 nx_dom 0 (fst (lessons [] visits1)) = Ok (se_learners M) /\
    exists model e, construct_safe_action_model unit0 fine0 fit0 rank0 false nx_dom (se_learners M) = Ok model /\ dict_get model "fill" = Some e /\ length (ex_conditions e) = 2) /\
  action_sets problems1 /\ all_visited (safe_after le0 unit0 fine0 fit0 hull0 schmidt0 rank0 false nx_dom 0) (optimistic_after le0 unit0 fine0 fit0 hull0 schmidt0 rank0 svm_on 10 false nx_dom 0) [planner [mkCall "fill" ["r1"]]] (dict_keys (d_actions nx_dom)) 2 100 5 20 2 0 [] [] [] problems1 visits1 /\ lessons [] visits1 = ([[filled]; [as_component step2]; [filled]], []) /\
  real_problems nx_dom on_real problems1 /\ exact_libraries unit0 fit0 hull0 schmidt0 /\ real_numeric_actions nx_dom 0 on_real /\ (exists j, fine0 = (unit0 * j)%positive) /\ exact_regression unit0 fit0 /\
  online_input unit0 fit0 le0 nx_dom 0 (fst (lessons [] visits1)) /\ of_action "fill" (fst (lessons [] visits1)) <> [].
Proof.
  split. { eexists. split; [vm_compute; reflexivity|]. split; [vm_compute; reflexivity|]. do 2 eexists. split; [vm_compute; reflexivity|]. split; reflexivity. }
  split; [intros P [<-|[<-|[<-|[]]]]; cbn; repeat constructor; cbn; intuition discriminate|].
  split; [apply visits1_ok|]. split; [reflexivity|]. split; [apply problems1_real|]. split; [apply libraries1|]. split; [apply on_actions|]. split; [exists 1000000%positive; reflexivity|]. split; [apply fit0_exact|].
  split; [apply robots_input; intros cp [<-|[<-|[<-|[]]]]; [left; reflexivity|right; right; left; vm_compute; reflexivity|left; reflexivity]|]. rewrite OnumTrain.of_action_evid. discriminate.
Qed.

(** ** Names *)
Example C99_names_case : word_name "pfile_1" /\ search_name (trajectory_stem "trajectory_my_episode_2_episode_12_part_0.trajectory") = Some "my_episode_2".
Proof.
  split; [|vm_compute; reflexivity]. split; [discriminate|]. intros s1 c s2 E. repeat (destruct s1 as [|? s1]; [injection E as <- _; reflexivity|injection E as _ E]). destruct s1; discriminate E.
Qed.
(** A hyphen in the name of a problem: the trajectories are written, but not read again. *)
Definition hyphen_problem : problem := mk_problem "pfile-1" robots robot_env.
Theorem C99_hyphen_refuted : (exists M, srun 1 100 20 ["pfile-1"] [no_solver] [hyphen_problem] = Ok M) /\
  srun 1 100 20 ["pfile-1"] [no_solver] [hyphen_problem; hyphen_problem] = Err AttributeError /\ exists M, srun 1 100 20 ["robots"] [no_solver] [robot_problem; robot_problem] = Ok M.
Proof. split; [eexists; vm_compute; reflexivity|]. split; [vm_compute; reflexivity|]. eexists. vm_compute. reflexivity. Qed.

(** ** Failed steps *)
Example C99_exhausted_case : exists M, srun 10 100 1 ["robots"] [no_solver] [robot_problem; robot_problem; robot_problem] = Ok M /\
  map (number_in "sum_failed_actions") (r_rows world call (se_rec M)) = [1; 0; 0] /\ map (number_in "num_steps_in_episode") (r_rows world call (se_rec M)) = [3; 0; 0].
Proof. eexists. split; [vm_compute; reflexivity|]. split; vm_compute; reflexivity. Qed.
(** The failed steps of an episode are allowed only once: the second exploration ends at once although none of its steps failed, no goal was
    reached and there are actions. *)
Theorem C99_failures_per_episode_refuted : exists M r1 r2, srun 10 100 1 ["robots"] [no_solver] [robot_problem; robot_problem] = Ok M /\ r_rows world call (se_rec M) = [r1; r2] /\
  number_in "num_steps_in_episode" r1 = 3 /\ dict_get r2 "num_steps_in_episode" = Some (CNat 0) /\ dict_get r2 "sum_failed_actions" = Some (CNat 0) /\ dict_get r2 "goal_reached" = Some (CBool false) /\ injective_actions robot_env <> [].
Proof. do 3 eexists. split; [vm_compute; reflexivity|]. split; [vm_compute; reflexivity|]. split; [vm_compute; reflexivity|]. split; [vm_compute; reflexivity|]. split; [vm_compute; reflexivity|]. split; [vm_compute; reflexivity|]. discriminate. Qed.
(** ** Waiting *)
(** The last explorations are never learned from: what was learned is what was known before the first problem, looked at once more. *)
Theorem C99_waiting_refuted : exists M, srun 10 100 20 ["robots"] [no_solver] [robot_problem] = Ok M /\ length (se_queue M) = 5 /\
  numeric_train le0 unit0 fit0 hull0 schmidt0 nx_dom 0 [[]] = Ok (se_learners M).
Proof. eexists. split; [vm_compute; reflexivity|]. split; vm_compute; reflexivity. Qed.
(** Plans that were executed do not count as executions of their actions: three robots were filled and learned from, but two count for the
    question whether to plan. *)
Theorem C99_plans_not_counted_refuted : exists M, srun1 = Ok M /\ numeric_train le0 unit0 fit0 hull0 schmidt0 nx_dom 0 (fst (lessons [] visits1)) = Ok (se_learners M) /\
  length (of_action "fill" (fst (lessons [] visits1))) = 3 /\ map (number_in "num_fill_success") (r_rows world call (se_rec M)) = [1; 1; 0] /\
  get_number_successful_action_executions world call (se_rec M) "fill" = Ok 2.
Proof. eexists. split; [vm_compute; reflexivity|]. split; [vm_compute; reflexivity|]. split; [rewrite OnumTrain.of_action_evid; reflexivity|]. split; vm_compute; reflexivity. Qed.

Print Assumptions C99_hyphen_refuted. Print Assumptions C99_failures_per_episode_refuted. Print Assumptions C99_waiting_refuted. Print Assumptions C99_plans_not_counted_refuted.
