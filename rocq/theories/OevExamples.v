(** * Cases of the evaluation of folds of online learning *)
From Verif Require Import PilExamples SemiExamples NoamExamples NoamSpec SemiSpec OcolSpec OnumExamples SvmExamples NumExamples IncExamples NsamExamples OevModel OevSpec OevProofs OevFinal OevProperties Prelude PreludeProofs.
From Coq Require Import Lia.
Open Scope string_scope. Open Scope list_scope. Open Scope nat_scope.

Definition nl := newline.
(** Three problems; two trajectories with lines of actions; a recorded trajectory has another name *)
Definition etrain : texts :=
  [("robots.pddl", "(define)"); ("pfile1.pddl", "a"); ("pfile10.pddl", "b"); ("pfile2.pddl", "c");
   ("pfile1.trajectory", ("[0, 1]: (fill r1)" ++ nl ++ "[1, 2]: (swap r1 r2)" ++ nl ++ "end")%string); ("pfile2.trajectory", ("[0, 1]: (fill r2)" ++ nl)%string);
   ("trajectory_3.trajectory", "[0, 1]: (fill r2)")].
(** The same as the project writes them *)
Definition ftrain : texts := [("pfile1.pddl", "a"); ("pfile1.trajectory", ("((:init (ready r1))" ++ nl ++ "(operator: (fill r1))" ++ nl ++ "(:state (full r1))" ++ nl ++ ")")%string)].
Definition etest : texts := [("pfile7.pddl", "x"); ("pfile8.pddl", "y"); ("pfile7.solution", "an old plan")].
Definition emeasure (c : calculator) (alg : string) (d : nat) (domain : string) (n : nat) (policy : string) : res table :=
  Ok [[("learning_algorithm", CText alg); ("policy", CText policy); ("action_name", CText "fill"); ("num_trajectories", CNat n)]].
(** The first problem is solved; a plan that is there already is tried, and is not applicable in the optimistic domain. *)
Definition evalidate (domain : string) (test : texts) : res row :=
  Ok [("ok", CNat (match dict_get test "pfile7.pddl" with Some _ => 1 | None => 0 end));
      ("not_applicable", CNat (match dict_get test "pfile7.solution" with Some _ => if String.eqb domain "safe text" then 0 else 1 | None => 0 end))].
Definition einit (d : texts) : res nat := Ok (length d).
Definition eevaluate alg out := evaluate nat einit emeasure evalidate "robots" "robots" "pfile" alg 3 "safe text" "optimistic text" etrain etest [] out.

Lemma apart_robots : apart "pfile" "robots".
Proof. intros kind [<-|[<-|[]]] (y & E); discriminate E. Qed.
Lemma problems_counted : count_of (is_problem "pfile") (dict_keys etrain) 3.
Proof. change 3 with (length (filter (glob_match ["pfile"; ".pddl"]) (dict_keys etrain))). apply count_filter; [apply problem_pattern|repeat constructor; cbn; intuition discriminate]. Qed.
Lemma trajectories_counted : count_of (is_trajectory "pfile") (dict_keys etrain) 2.
Proof. change 2 with (length (filter (glob_match ["pfile"; ".trajectory"]) (dict_keys etrain))). apply count_filter; [apply trajectory_pattern|repeat constructor; cbn; intuition discriminate]. Qed.
Definition estats : row := [("ok", CNat 1); ("not_applicable", CNat 0)].
Lemma tools_work alg : alg = "noam_learning" \/ alg = "goal_oriented_explorer" -> tools_answer nat einit emeasure evalidate alg 3 "safe text" "optimistic text" etest []
  [[("learning_algorithm", CText alg); ("policy", CText "no_remove"); ("action_name", CText "fill"); ("num_trajectories", CNat 3)]]
  [[("learning_algorithm", CText alg); ("policy", CText "hard"); ("action_name", CText "fill"); ("num_trajectories", CNat 3)]] estats estats.
Proof.
  intros A. assert (SS : solver_stats estats).
  { split; [repeat constructor; cbn; intuition discriminate|]. intros k I. cbn in I. destruct I as [<-|[<-|[]]]; (split; [cbn; tauto|cbn; intuition discriminate]). }
  split; [exists 0; split; [reflexivity|]; split; reflexivity|]. split; [reflexivity|]. split; [|split; [|split; exact SS]].
  - intros test' (C & K). unfold evalidate. rewrite (C "pfile7.solution") by (exists "pfile7"; reflexivity). rewrite (K "pfile7.pddl"); [reflexivity|]. intros P. apply plan_pattern in P. discriminate P.
  - destruct A as [-> | ->]; (constructor; [|constructor; [|constructor]]); intros k I; cbn in I; destruct I as [<-|[<-|[<-|[<-|[]]]]]; cbn; tauto.
Qed.
Example C112_evaluation_case : NoDup (dict_keys etrain) /\ apart "pfile" "robots" /\ count_of (is_problem "pfile") (dict_keys etrain) 3 /\ count_of (is_trajectory "pfile") (dict_keys etrain) 2 /\
  (exists rows rows', tools_answer nat einit emeasure evalidate "noam_learning" 3 "safe text" "optimistic text" etest [] rows rows' estats estats) /\
  exists train' t, eevaluate "noam_learning" [("noam_learning_exploration_statistics_fold_3.csv", [])] =
    (train', [("pfile7.pddl", "x"); ("pfile8.pddl", "y")], [("noam_learning_exploration_statistics_fold_3.csv", []); ("noam_learning_robots_numeric_learning_performance_stats_fold_3_3.csv", t);
       ("noam_learning_problem_solving_stats_fold_3_3_trajectories.csv", map (fun p => [("learning_algorithm", CText "noam_learning"); ("num_trajectories", CNat 2); ("num_trajectory_triplets", CNat 2); ("policy", CText p); ("learning_time", CNat 0);
          ("solver", CText "['metric_ff', 'enhsp']"); ("ok", CNat 1); ("not_applicable", CNat 0)]) ["no_remove"; "hard"])], None) /\ length t = 2 /\ dict_get train' "robots_safe_learned_domain.pddl" = Some "safe text".
Proof.
  split; [repeat constructor; cbn; intuition discriminate|]. split; [apply apart_robots|]. split; [apply problems_counted|]. split; [apply trajectories_counted|]. split; [do 2 eexists; apply tools_work; left; reflexivity|].
  do 2 eexists. split; [vm_compute; reflexivity|]. split; reflexivity.
Qed.
(** The solvers fail on the second domain: the measures are written, the plans of the test set are gone, the file of the solvers is not there. *)
Example C112_own_files_case : exists train' t, evaluate nat einit emeasure (fun d test => if String.eqb d "safe text" then evalidate d test else Err RuntimeError) "robots" "robots" "pfile" "noam_learning" 3 "safe text" "optimistic text" etrain etest [] [] =
  (train', [("pfile7.pddl", "x"); ("pfile8.pddl", "y")], [("noam_learning_robots_numeric_learning_performance_stats_fold_3_3.csv", t)], Some RuntimeError).
Proof. do 2 eexists. vm_compute. reflexivity. Qed.
(** Three lines with actions in two trajectories; two are reported (above).  In the format of the project: none. *)
Lemma lines_are text : lines_of text (lines text).
Proof. apply lines_spec. Qed.
Example C112_triplets_case : (exists counts, all_triplets "pfile" etrain counts /\ In ("pfile1.trajectory", 2) counts /\ In ("pfile2.trajectory", 1) counts) /\
  (forall x text, is_trajectory "pfile" x -> dict_get ftrain x = Some text -> project_format text) /\ extract_num_triplets ftrain (used_trajectories "pfile" ftrain) = Ok 0.
Proof.
  split; [|split; [|reflexivity]].
  - exists [("pfile1.trajectory", 2); ("pfile2.trajectory", 1)]. split; [|split; cbn; auto]. split; [repeat constructor; cbn; intuition discriminate|]. split.
    + intros x. change (map fst [("pfile1.trajectory", 2); ("pfile2.trajectory", 1)]) with (filter (glob_match ["pfile"; ".trajectory"]) (dict_keys etrain)). rewrite filter_In, trajectory_pattern. tauto.
    + intros x n [E|[E|[]]]; injection E as <- <-; do 2 eexists; (split; [reflexivity|]); (split; [apply lines_are|]).
      * exact (count_spec action_line action_text (lines ("[0, 1]: (fill r1)" ++ nl ++ "[1, 2]: (swap r1 r2)" ++ nl ++ "end")%string) action_line_iff).
      * exact (count_spec action_line action_text (lines ("[0, 1]: (fill r2)" ++ nl)%string) action_line_iff).
  - intros x text T G. apply dict_get_In in G. destruct G as [G|[G|[]]]; injection G as <- <-; [apply trajectory_pattern in T; discriminate T|]. eexists. split; [apply lines_are|]. cbn. do 4 (apply Forall_cons; [first [left; reflexivity|right; eexists; left; reflexivity|right; eexists; right; reflexivity]|]). apply Forall_nil.
Qed.

(** ** Two folds *)
Lemma string_length_app a b : String.length (a ++ b)%string = String.length a + String.length b.
Proof. induction a as [|c a IH]; [reflexivity|]. cbn. rewrite IH. reflexivity. Qed.
Definition efolds : list fold_input := [mk_fold 3 train0 etrain etest []; mk_fold 0 train1 ftrain etest []].
Definition escripts solvers a fs := pil_scripts le0 unit0 fine0 fit0 hull0 schmidt0 rank0 svm_on 10 false nx_dom rd0 1000 1 100 5 20 2 solvers nat einit emeasure evalidate "robots" "robots" "pfile" (fun _ => "a domain") a 0 fs [].
Definition en (fold : nat) : nat := if fold =? 3 then 3 else 1.
Lemma efolds_ready : Forall (fold_ready "pfile" en) efolds.
Proof.
  constructor; [|constructor; [|constructor]].
  - split; [apply keys0|]. split; [apply sets_train|]. split; [repeat constructor; cbn; intuition discriminate|apply problems_counted].
  - split; [repeat constructor; cbn; intuition discriminate|]. split; [intros x init E G; apply dict_get_In in G; destruct G as [G|[G|[]]]; injection G as _ _ <-; cbn; repeat constructor; cbn; intuition discriminate|]. split; [repeat constructor; cbn; intuition discriminate|].
    change (en (fi_fold _)) with (length (filter (glob_match ["pfile"; ".pddl"]) (dict_keys ftrain))). apply count_filter; [apply problem_pattern|repeat constructor; cbn; intuition discriminate].
Qed.
Lemma robots_harmless : harmless_title "robots".
Proof. intros x y. split; intros E; discriminate E. Qed.
Example C112_files_case : fair rd0 /\ Forall plain_name (dict_keys (d_actions nx_dom)) /\ apart "pfile" "robots" /\ harmless_title "robots" /\ NoDup (map fi_fold efolds) /\ efolds <> [] /\ Forall (fold_ready "pfile" en) efolds /\
  exists out, escripts [no_solver] (exploring noam_learner) efolds = Some out /\ dict_keys out =
    ["noam_learning_exploration_statistics_fold_3.csv"; "noam_learning_robots_numeric_learning_performance_stats_fold_3_3.csv"; "noam_learning_problem_solving_stats_fold_3_3_trajectories.csv";
     "noam_learning_exploration_statistics_fold_0.csv"; "noam_learning_robots_numeric_learning_performance_stats_fold_0_1.csv"; "noam_learning_problem_solving_stats_fold_0_1_trajectories.csv"].
Proof.
  split; [apply fair0|]. split; [apply plain0|]. split; [apply apart_robots|]. split; [apply robots_harmless|]. split; [repeat constructor; cbn; intuition discriminate|]. split; [discriminate|]. split; [apply efolds_ready|].
  eexists. split; vm_compute; reflexivity.
Qed.
Definition gfolds : list fold_input := [mk_fold 3 train1 etrain etest []; mk_fold 0 train1 ftrain etest []].
(** The other algorithm: the measures are in files that no collection asks for. *)
Example C112_goal_oriented_case : plain_title "robots" /\ Forall (fold_ready "pfile" en) gfolds /\ exists out, escripts [planner [mkCall "fill" ["r1"]]] (exploring goal_oriented) gfolds = Some out /\ dict_keys out =
    ["goal_oriented_explorer_exploration_statistics_fold_3.csv"; "goal_oriented_explorer_robots_3_3_semantic_performance.csv"; "goal_oriented_explorer_problem_solving_stats_fold_3_3_trajectories.csv";
     "goal_oriented_explorer_exploration_statistics_fold_0.csv"; "goal_oriented_explorer_robots_0_1_semantic_performance.csv"; "goal_oriented_explorer_problem_solving_stats_fold_0_1_trajectories.csv"].
Proof.
  split; [intros x y E; apply (f_equal String.length) in E; rewrite !string_length_app in E; cbn in E; lia|]. split.
  { pose proof efolds_ready as R. inversion R as [|? ? (_ & _ & R1 & R2) R']; subst. inversion R' as [|? ? R3 _]; subst. constructor; [|constructor; [exact R3|constructor]]. destruct R3 as (R3 & R4 & _). split; [exact R3|]. split; [exact R4|]. split; assumption. }
  eexists. split; vm_compute; reflexivity.
Qed.
(** A script whose two domains are told apart *)
Example C112_script_case : fold_ready "pfile" en (mk_fold 0 train1 ftrain etest []) /\
  exists out, pil_script le0 unit0 fine0 fit0 hull0 schmidt0 rank0 svm_on 10 false nx_dom rd0 1000 1 100 5 20 2 [no_solver] nat einit emeasure evalidate "robots" "robots" "pfile" (fun x => if length x =? 0 then "no actions" else "a domain") (exploring noam_learner) 0 (mk_fold 0 train1 ftrain etest []) [] = (out, None) /\ length out = 3.
Proof.
  split; [pose proof efolds_ready as R; inversion R as [|? ? _ R']; subst; inversion R' as [|? ? R3 _]; subst; exact R3|]. eexists. split; vm_compute; reflexivity.
Qed.
