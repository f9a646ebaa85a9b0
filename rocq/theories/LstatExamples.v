(** * Learning statistics and collected results: examples *)
From Verif Require Import LstatModel LstatSpec CollectModel CollectSpec.
Open Scope string_scope. Open Scope list_scope. Open Scope nat_scope.

Definition ex_float (s : string) : res Q := if Prelude.eqb s "1.5" then Ok (3 # 2)%Q else Err ValueError.
Definition ex_model : domain_actions :=
  [("move", mk_action "move" [mk_lit "(at ?a)" true; mk_lit "(not (busy ?r))" false] [mk_lit "(at ?b)" true]); ("wait", mk_action "wait" [] [mk_lit "(waited ?r)" true])].
Definition ex_learned : domain_actions := [("move", mk_action "move" [mk_lit "(at ?a)" true; mk_lit "(ok ?r)" true] [mk_lit "(at ?b)" true])].
Definition ex_used : list observation := [[Single "move"; Joint ["move"; "wait"]]; [Single "move"]].
Definition ex_report : option (list (string * string)) := Some [("learning_time", "1.5"); ("move", "OK")].
Definition ex_show (v : value) : string := match v with SText s => s | SNat n => decimal n | SNum _ => "number" | SList _ => "list" end.
Definition ex_add := AddStats ex_used ex_learned ex_report "no_remove".
Example ex_hypotheses : well_named ex_model /\ Forall (sound ex_float) [ex_add; Clear; ex_add; Export 0 (Some 2); ex_add].
Proof.
  assert (S : sound ex_float ex_add).
  { split.
    - split; [repeat constructor; intros []|]. intros n a [E|[]]. injection E as <- <-. reflexivity.
    - exists (3 # 2)%Q. unfold timed, ex_report. eexists _, _. split; [reflexivity|]. split; reflexivity. }
  split.
  - split; [constructor; [intros [X|[]]; discriminate X|constructor; [intros []|constructor]]|]. intros n a [E|[E|[]]]; injection E as <- <-; reflexivity.
  - repeat (apply Forall_cons; [first [exact S|exact I]|]). apply Forall_nil.
Qed.
Example ex_history : history [ex_add; Clear; ex_add; Export 0 (Some 2); ex_add] = ([ex_add], [ex_add; ex_add]).
Proof. reflexivity. Qed.
Example ex_rows : match run_operations ex_float (fun _ => 4) (fun _ => 0) "sam" "rovers" ex_model ex_show (new_manager, []) [ex_add; Clear; ex_add; Export 0 (Some 2)] with
  | ((m, d), None) => length (m_action m) = 2 /\ length (m_merged_action m) = 2 /\ map fst d = ["sam_rovers_action_stats_fold_0_2.csv"] /\
      map (fun r => dict_get r "num_triplets_action_appeared") (m_action m) = [Some (SNat 3); Some (SNat 1)] /\
      map (fun r => dict_get r "num_trajectory_triplets") (m_action m) = [Some (SNat 3); Some (SNat 3)] /\
      map (fun r => dict_get r "num_ground_truth_negative_preconditions") (m_action m) = [Some (SNat 1); Some (SNat 0)]
  | _ => False
  end.
Proof. vm_compute. repeat split. Qed.

(** An action that was not learned gets recall 1, although a learned action that misses everything gets 0. *)
Definition ex_recall (learned : domain_actions) : list (option value) :=
  map (fun r => dict_get r "action_recall") (m_action (fst (add_to_action_stats ex_float (fun _ => 0) (fun _ => 0) "sam" "rovers" [("wait", mk_action "wait" [] [mk_lit "(waited ?r)" true])]
    [] learned ex_report "no_remove" new_manager))).
Theorem C93_unlearned_recall_refuted : ex_recall [] = [Some (SNum 1)] /\ exists q, ex_recall [("wait", mk_action "wait" [] [])] = [Some (SNum q)] /\ (q == 0)%Q.
Proof. split; [reflexivity|]. eexists. split; [reflexivity|]. reflexivity. Qed.
Print Assumptions C93_unlearned_recall_refuted.

(** ** Collected results *)
Definition c_results (s : subject) : rows string := [[("learning_algorithm", s_alg s); ("policy", decimal (s_fold s))]].
Definition c_show (s : string) := s.
Definition c_runs : list subject :=
  flat_map (fun k => [mk_subject k "b" 1 (Some 10); mk_subject k "a" 0 (Some 2); mk_subject k "a" 1 (Some 10); mk_subject k "b" 0 (Some 10); mk_subject k "a" 0 (Some 10);
    mk_subject k "b" 1 (Some 2); mk_subject k "b" 0 (Some 2); mk_subject k "a" 1 (Some 2)]) [Numeric; Solving; Actions; Semantic].
Example c_reportable : reportable string c_results c_runs.
Proof.
  intros s r I X. destruct X as [<-|[]]. destruct s as [k a f i]. intros x [<-|[<-|[]]]; destruct k; vm_compute; tauto.
Qed.
Example c_complete : forall k j, In j (jobs 2 [2; 10] ["a"; "b"]) -> In (subject_of k true j) c_runs.
Proof. intros k j I. vm_compute in I. repeat (destruct I as [<-|I]; [destruct k; vm_compute; tauto|]). destruct I. Qed.
Example c_collected : exists d2, collecting ["a"; "b"] 2 [2; 10] "dom" None Semantic false (fst (perform_all string c_show "dom" c_results c_runs [])) = (d2, None) /\
  option_map (fun f => map (firstn 4) (csv_lines f)) (dict_get d2 "semantic_performance_combined_statistics.csv") =
    Some [["0"; ""; "0"; "a"]; ["0"; ""; "0"; "b"]; ["0"; ""; "0"; "a"]; ["0"; ""; "0"; "b"]; ["1"; ""; "1"; "a"]; ["1"; ""; "1"; "b"]; ["1"; ""; "1"; "a"]; ["1"; ""; "1"; "b"]].
Proof. eexists. split; vm_compute; reflexivity. Qed.
Example c_missing_case : In (1, 3, "a") (jobs 2 [2; 3] ["a"]) /\ ~ In (subject_of Solving true (1, 3, "a")) c_runs.
Proof. split; [vm_compute; tauto|]. intros I. vm_compute in I. repeat (destruct I as [X|I]; [discriminate X|]). destruct I. Qed.
(** One run without iteration, two iterations: its only row is there twice. *)
Definition t_runs : list subject := [mk_subject Solving "a" 0 None].
Example t_hypotheses : reportable string c_results t_runs /\ forall j, In j (jobs 1 [2; 10] ["a"]) -> In (subject_of Solving false j) t_runs.
Proof.
  split; [|intros j I; vm_compute in I; repeat (destruct I as [<-|I]; [left; reflexivity|]); destruct I].
  intros s r I X. destruct X as [<-|[]]. destruct I as [<-|[]]. intros x [<-|[<-|[]]]; vm_compute; tauto.
Qed.
Theorem C94_triplets_refuted : exists d2, collecting ["a"] 1 [2; 10] "dom" None Solving true (fst (perform_all string c_show "dom" c_results t_runs [])) = (d2, None) /\
  option_map (fun f => map (firstn 2) (csv_lines f)) (dict_get d2 "solving_combined_statistics_with_triplets.csv") = Some [["0"; "a"]; ["0"; "a"]].
Proof. eexists. split; vm_compute; reflexivity. Qed.
Print Assumptions C94_triplets_refuted.
Example c_names : forall a, In a ["sam_learning"; "ma_sam"; "ma_sam_plus"] -> count_digits a = 0.
Proof. intros a I. repeat (destruct I as [<-|I]; [reflexivity|]). destruct I. Qed.
