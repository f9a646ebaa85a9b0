(** * Cases of the properties of collecting the results of online learning, and inputs on which stronger claims are false *)
From Coq Require Import Lia.
From Verif Require Import SemiSpec SemiExamples NoamExamples EpisodeSpec OcolModel OcolSpec OcolProofs OcolTable OcolFinal OcolProperties Prelude PreludeProofs.
Open Scope string_scope. Open Scope list_scope. Open Scope nat_scope.

(** ** Files of runs *)
Definition simple_row (n : nat) (e : ending) : row :=
  [("episode_number", CNat n); ("goal_reached", CBool (e_goal e)); ("safe_model_solution_status", CText (e_safe e)); ("optimistic_model_solution_status", CText (e_optimistic e))].
Definition simple_rows (es : list ending) : table := map (fun it => simple_row (fst it) (snd it)) (combine (seq 1 (length es)) es).
Definition directory (d : results) (alg : string) (runs : list run_of) : results := fold_left (fun d run => export_statistics d alg (fst run) (simple_rows (snd run))) runs d.
Lemma simple_holds alg fold es : holds_run alg fold es (summarized alg fold (simple_rows es)).
Proof.
  unfold holds_run, simple_rows. generalize 1. induction es as [|e es IH]; intros n; [exact I|]. cbn [length seq combine map summarized EpisodeSpec.numbered fst snd]. split; [apply summarized_row; reflexivity|]. rewrite Nat.add_1_r. apply IH.
Qed.
Lemma directory_explored alg : forall runs d runs0, explored d alg runs0 -> NoDup (map fst runs0 ++ map fst runs) -> explored (directory d alg runs) alg (runs0 ++ runs).
Proof.
  induction runs as [|(f & es) runs IH]; intros d runs0 E ND; [rewrite app_nil_r; exact E|]. cbn [directory fold_left fst snd map] in *. change (runs0 ++ (f, es) :: runs) with (runs0 ++ [(f, es)] ++ runs). rewrite app_assoc. apply IH.
  - apply export_one; [exact E| |apply simple_holds]. apply NoDup_remove_2 in ND. intros X. apply ND. apply in_app_iff. left. exact X.
  - rewrite map_app, <- app_assoc. exact ND.
Qed.
Lemma directory_other alg alg' : (forall f, ~ is_statistics alg (statistics_file alg' f)) -> forall runs d runs0, explored d alg runs0 -> explored (directory d alg' runs) alg runs0.
Proof. intros N. induction runs as [|run runs IH]; intros d runs0 E; [exact E|]. apply IH. apply explored_set; [apply N|exact E]. Qed.
Lemma nothing alg : explored [] alg [].
Proof. split; [constructor|]. split; [constructor|]. split; [intros x []|intros run []]. Qed.
Lemma in_directory alg runs : NoDup (map fst runs) -> explored (directory [] alg runs) alg runs.
Proof. intros N. exact (directory_explored alg runs [] [] (nothing alg) N). Qed.

Definition won : ending := mk_end "p" true true "ok" "irrelevant" 0%Q true.
Definition found : ending := mk_end "p" true false "no_solution" "no_solution" 0%Q true.
Definition wandered : ending := mk_end "p" true false "not_applicable" "not_applicable" 0%Q true.
Definition lost : ending := mk_end "p" false false "no_solution" "no_solution" 0%Q true.
(** Two folds of one algorithm, one of them shorter, and one fold of another one. *)
Definition noam_runs : list run_of := [(1, [won]); (0, [lost; won])].
Definition semi_runs : list run_of := [(0, [lost; wandered; won])].
Definition runs0 (alg : string) : list run_of := if String.eqb alg "noam_learning" then noam_runs else semi_runs.
Definition files0 : results := directory (directory [] "noam_learning" noam_runs) "semi_online" semi_runs.
Lemma noam0 : explored files0 "noam_learning" noam_runs.
Proof. apply directory_other; [intros f (y & E); discriminate E|]. apply in_directory. repeat constructor; cbn; intuition discriminate. Qed.
Lemma semi0 : explored files0 "semi_online" semi_runs.
Proof. apply (directory_explored "semi_online" semi_runs _ []); [|repeat constructor; intros []]. apply directory_other; [intros f (y & E); discriminate E|apply nothing]. Qed.

(** ** The collected episodes *)
Definition columns (keys : list string) (t : table) : list (list (option cell)) := map (fun r => map (dict_get r) keys) t.
Definition unified0 (alg : string) : option table := match export_unified_statistics_to_csv files0 "u.csv" "robots" alg with Ok (_, u) => Some u | Err _ => None end.
Definition keys0 := ["fold"; "fold_number"; "episode_number"; "not_solved"; "optimistic_not_applicable"; "optimistic_solved"; "safe_solved"; "aggregated_success"].
Example C100_unified_case : explored files0 "noam_learning" noam_runs /\ noam_runs <> [] /\ Permutation (map fst noam_runs) (seq 0 2) /\ (forall run, In run noam_runs -> snd run <> []) /\
  option_map (columns keys0) (unified0 "noam_learning") =
    Some [[Some (CNat 0); Some (CNat 0); Some (CNat 1); Some (CBool true); Some (CNat 0); Some (CNat 0); Some (CNat 0); Some (CNat 0)];
          [Some (CNat 0); Some (CNat 0); Some (CNat 2); Some (CBool false); Some (CNat 0); Some (CNat 0); Some (CNat 1); Some (CNat 1)];
          [Some (CNat 1); Some (CNat 1); Some (CNat 1); Some (CBool false); Some (CNat 0); Some (CNat 0); Some (CNat 1); Some (CNat 1)]].
Proof. split; [apply noam0|]. split; [discriminate|]. split; [apply perm_swap|]. split; [intros run [<-|[<-|[]]]; discriminate|vm_compute; reflexivity]. Qed.
Example C100_no_files_case : explored files0 "goal_oriented_explorer" [] /\ export_unified_statistics_to_csv files0 "u.csv" "robots" "goal_oriented_explorer" = Err ValueError.
Proof. split; [|vm_compute; reflexivity]. do 2 (apply directory_other; [intros f (y & E); discriminate E|]). apply nothing. Qed.
Example C100_row_case : exists r r', collected_row 3 wandered r r' /\ stack r' = Some 2.
Proof.
  destruct (with_columns_spec "semi_online" 3 1 wandered (dict_set (dict_set (simple_row 1 wandered) "algorithm_type" (CText "semi_online")) "fold_number" (CNat 3)) 3) as (r' & _ & C); [apply summarized_row; reflexivity|].
  exists (dict_set (dict_set (simple_row 1 wandered) "algorithm_type" (CText "semi_online")) "fold_number" (CNat 3)), r'. split; [exact C|]. exact (C100_stack _ _ _ _ C).
Qed.

(** ** The table *)
Definition collected0 : option table := match collect_results_for_all_algorithms files0 ["noam_learning"; "semi_online"] "robots" "u.csv" with Ok d => dict_get d "aggregated_success_by_algorithm.csv" | Err _ => None end.
Example C100_table_case : (forall alg, In alg ["noam_learning"; "semi_online"] -> explored files0 alg (runs0 alg) /\ runs0 alg <> []) /\
  (forall alg alg', In alg ["noam_learning"; "semi_online"] -> In alg' ["noam_learning"; "semi_online"] -> ~ is_statistics alg' ("robots" ++ "_" ++ alg ++ "_" ++ "u.csv")%string) /\
  option_map (columns ["episode_number"; "noam_learning"; "semi_online"]) collected0 =
    Some [[Some (CNat 1); Some (CNum (inject_Z 1 / inject_Z 2)%Q); Some (CNum (inject_Z 0 / inject_Z 1)%Q)];
          [Some (CNat 2); Some (CNum (inject_Z 1 / inject_Z 1)%Q); Some (CNum (inject_Z 1 / inject_Z 1)%Q)];
          [Some (CNat 3); None; Some (CNum (inject_Z 1 / inject_Z 1)%Q)]].
Proof.
  split; [|split].
  - intros alg [<-|[<-|[]]]; (split; [|discriminate]); [apply noam0|apply semi0].
  - intros alg alg' [<-|[<-|[]]] [<-|[<-|[]]] (y & E); discriminate E.
  - vm_compute. reflexivity.
Qed.

(** ** The recorder and a semi-online run *)
Definition calls0 : list (op nat string) := [Grounded _ _ 2; Step _ _ "move" true 0 1; End _ _ won; Step _ _ "move" false 1 1; End _ _ lost].
Example C100_recorded_case : Forall plain_name ["move"] /\ Forall (legal nat string (fun c => c) ["move"]) calls0 /\ (exists r, run nat string (fun c => c) 5 ["move"] calls0 = Ok r) /\ map snd (fst (episodes nat string calls0)) = [won; lost].
Proof. split; [repeat constructor|]. split; [repeat constructor|]. split; [eexists; vm_compute; reflexivity|reflexivity]. Qed.
Definition semi_file : results := match srun0 with Ok M => export_statistics [] "semi_online" 0 (r_rows world call (se_rec M)) | Err _ => [] end.
Definition semi_table : option table := match export_unified_statistics_to_csv semi_file "u.csv" "robots" "semi_online" with Ok (_, u) => Some u | Err _ => None end.
(** In the second episode a plan was not applicable, but the goal was reached: it is counted in two categories. *)
Example C100_semi_case : option_map (columns ["problem_name"; "goal_reached"; "not_solved"; "optimistic_not_applicable"; "optimistic_solved"; "safe_solved"; "aggregated_success"]) semi_table =
  Some [[Some (CText "robots"); Some (CBool false); Some (CBool true); Some (CNat 0); Some (CNat 0); Some (CNat 0); Some (CNat 0)];
        [Some (CText "other"); Some (CBool true); Some (CBool false); Some (CNat 1); Some (CNat 1); Some (CNat 0); Some (CNat 1)];
        [Some (CText "robots"); Some (CBool true); Some (CBool false); Some (CNat 0); Some (CNat 0); Some (CNat 1); Some (CNat 1)]].
Proof. vm_compute. reflexivity. Qed.

(** ** The evaluation *)
Definition evaluated : results := [(semantic_name "noam_learning" "robots" (fun _ => 5) 0, [[("x", CNat 7)]]); (solving_name "noam_learning" (fun _ => 5) 0, [[("y", CNat 8)]])].
Example C100_evaluation_case : files_of evaluated (is_semantic "noam_learning") (semantic_name "noam_learning" "robots" (fun _ => 5)) any_table [(0, tt)] /\
  files_of evaluated (is_solving "noam_learning") (solving_name "noam_learning" (fun _ => 5)) any_table [(0, tt)] /\
  collect_test_set_solving_statistics evaluated "noam_learning" "robots" = Ok (evaluated ++ [("robots_noam_learning_combined_test_set_solving_statistics.csv", [[("y", CNat 8); ("fold", CNat 0)]])]).
Proof.
  assert (N : NoDup (dict_keys evaluated)) by (repeat constructor; cbn; intuition discriminate). split; [|split; [|vm_compute; reflexivity]].
  - split; [exact N|]. split; [repeat constructor; intros []|]. split.
    + intros x [<-|[<-|[]]] B; [exists (0, tt); split; [left; reflexivity|reflexivity]|]. apply semantic_pattern in B. vm_compute in B. discriminate B.
    + intros run [<-|[]]. split; [apply semantic_pattern; vm_compute; reflexivity|]. eexists. split; [vm_compute; reflexivity|exact I].
  - split; [exact N|]. split; [repeat constructor; intros []|]. split.
    + intros x [<-|[<-|[]]] B; [|exists (0, tt); split; [left; reflexivity|reflexivity]]. apply solving_pattern in B. vm_compute in B. discriminate B.
    + intros run [<-|[]]. split; [apply solving_pattern; vm_compute; reflexivity|]. eexists. split; [vm_compute; reflexivity|exact I].
Qed.

(** ** Refuted claims *)
(** The label of an episode is not always its fold: with eleven folds, the file of fold 10 comes before that of fold 2. *)
Definition eleven : list run_of := map (fun f => (f, [won])) (seq 0 11).
Theorem C100_labels_refuted : exists d d' u, explored d "noam_learning" eleven /\ export_unified_statistics_to_csv d "u.csv" "robots" "noam_learning" = Ok (d', u) /\
  exists r, In r u /\ dict_get r "fold_number" = Some (CNat 10) /\ dict_get r "fold" = Some (CNat 2).
Proof.
  exists (directory [] "noam_learning" eleven). eexists. eexists. split; [apply in_directory; cbn; repeat constructor; cbn; intuition discriminate|]. split; [vm_compute; reflexivity|].
  eexists. split; [do 2 right; left; reflexivity|]. split; vm_compute; reflexivity.
Qed.
(** Nor with two folds if the run of one between them has no file. *)
Theorem C100_missing_refuted : exists d d' u, explored d "noam_learning" [(0, [won]); (2, [won])] /\ export_unified_statistics_to_csv d "u.csv" "robots" "noam_learning" = Ok (d', u) /\
  exists r, In r u /\ dict_get r "fold_number" = Some (CNat 2) /\ dict_get r "fold" = Some (CNat 1).
Proof.
  exists (directory [] "noam_learning" [(0, [won]); (2, [won])]). eexists. eexists. split; [apply in_directory; repeat constructor; cbn; intuition discriminate|]. split; [vm_compute; reflexivity|].
  eexists. split; [right; left; reflexivity|]. split; vm_compute; reflexivity.
Qed.
(** An episode can be in two categories. *)
Theorem C100_categories_refuted : exists u r, semi_table = Some u /\ In r u /\ dict_get r "optimistic_not_applicable" = Some (CNat 1) /\ dict_get r "optimistic_solved" = Some (CNat 1) /\ stack r = Some 2.
Proof. eexists. eexists. split; [vm_compute; reflexivity|]. split; [right; left; reflexivity|]. repeat split; vm_compute; reflexivity. Qed.
(** An episode whose goal was reached by exploring, without any plan, counts as a success of a solver. *)
Theorem C100_solver_refuted : exists d d' u r, explored d "semi_online" [(0, [found])] /\ export_unified_statistics_to_csv d "u.csv" "robots" "semi_online" = Ok (d', u) /\ In r u /\
  e_solver found = false /\ dict_get r "aggregated_success_solver" = Some (CNat 1).
Proof.
  exists (directory [] "semi_online" [(0, [found])]). eexists. eexists. eexists. split; [apply in_directory; repeat constructor; intros []|]. split; [vm_compute; reflexivity|]. split; [left; reflexivity|]. split; vm_compute; reflexivity.
Qed.
(** The script fails although all results of the requested algorithm are there. *)
Theorem C100_main_refuted : exists d, explored d "semi_online" semi_runs /\ (exists d', collect_results_for_all_algorithms d ["semi_online"] "robots" "u.csv" = Ok d') /\ collect_main d ["semi_online"] "robots" "u.csv" = Err ValueError.
Proof. exists (directory [] "semi_online" semi_runs). split; [apply in_directory; repeat constructor; intros []|]. split; [eexists; vm_compute; reflexivity|vm_compute; reflexivity]. Qed.
Print Assumptions C100_labels_refuted. Print Assumptions C100_missing_refuted. Print Assumptions C100_categories_refuted. Print Assumptions C100_solver_refuted. Print Assumptions C100_main_refuted.
