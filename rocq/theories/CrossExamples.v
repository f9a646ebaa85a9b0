(** * Cases for CrossProperties.v *)
From Verif Require Import CrossSpec CrossProofs CrossFinal CrossProperties FoldProofs EpisodeProofs LstatProofs PreludeProofs.
Open Scope string_scope. Open Scope list_scope. Open Scope nat_scope.

(** Listing a directory. *)
Fixpoint strip (s : string) : option string :=
  if string_dec s ".trajectory" then Some "" else match s with EmptyString => None | String c s => option_map (String c) (strip s) end.
Lemma str_len (a b : string) : String.length (a ++ b)%string = String.length a + String.length b.
Proof. induction a as [|c a IH]; [reflexivity|]. cbn. rewrite IH. reflexivity. Qed.
Lemma strip_app x : strip (x ++ ".trajectory") = Some x.
Proof.
  induction x as [|c x IH]; [reflexivity|]. cbn [append strip]. destruct (string_dec _ _) as [E|E].
  - exfalso. apply (f_equal String.length) in E. cbn in E. rewrite str_len in E. cbn in E. lia.
  - rewrite IH. reflexivity.
Qed.
Lemma strip_some s x : strip s = Some x -> s = (x ++ ".trajectory")%string.
Proof.
  revert x. induction s as [|c s IH]; intros x; cbn [strip]; destruct (string_dec _ _) as [E|E]; intros H; try discriminate H; try (injection H as <-; exact E).
  destruct (strip s) as [y|]; [|discriminate H]. injection H as <-. cbn. f_equal. apply IH. reflexivity.
Qed.
Definition listing (d : files) : list string := to_set (flat_map (fun k => match strip k with Some x => [x] | None => [] end) (dict_keys d)).
Definition anyhow (_ _ : string) : Prop := True.
Lemma sorted_anyhow l : StronglySorted anyhow l.
Proof. induction l as [|x l IH]; constructor; [exact IH|]. apply Forall_forall. intros; exact Logic.I. Qed.
Lemma listing_ok : lists_trajectories anyhow listing.
Proof.
  intros d. split; [apply to_set_NoDup|]. split; [apply sorted_anyhow|]. intros x. unfold listing. rewrite to_set_In, in_flat_map. split.
  - intros (k & K & X). destruct (strip k) as [y|] eqn:E; [|destruct X]. destruct X as [<-|[]]. apply strip_some in E. rewrite <- E. exact K.
  - intros K. exists (x ++ ".trajectory")%string. split; [exact K|]. rewrite strip_app. left. reflexivity.
Qed.

(** Three problems; a learner that remembers the observations; measures that tell what they were given. *)
Definition the_files : files :=
  [("domain.pddl", "D"); ("p1.pddl", "P1"); ("p1.trajectory", "T1"); ("p2.pddl", "P2"); ("p2.trajectory", "T2"); ("p3.pddl", "P3"); ("p3.trajectory", "T3")].
Definition the_world : world string := mk_world string the_files None None NoFile.
Definition parse_partial_ex (t : string) : res string := Ok t.
Definition parse_observation_ex (_ p t : string) : res string := Ok (p ++ t)%string.
Definition the_report : learning_report := [("learning_time", "1")].
Definition learn_ex (d : string) (os : list string) : res (string * option learning_report) := Ok ((d ++ String.concat "," os)%string, Some the_report).
Definition validate_ex (t : string) (test : files) (_ : list string) (_ : Q) : res (list (string * LstatModel.value)) := Ok [("solver", LstatModel.SText (t ++ " on " ++ String.concat " " (dict_keys test)))].
Definition init_ex (test : files) : res (list string) := Ok (dict_keys test).
Definition measure_ex (c : list string) (t : string) (_ : nat) (_ : string) : res (rows LstatModel.value) := Ok [[("action_name", LstatModel.SText (t ++ " on " ++ String.concat " " c))]].
Definition the_model : domain_actions := [("move", mk_action "move" [] [])].
Definition show_ex (v : LstatModel.value) : string := match v with LstatModel.SText s => s | _ => "-" end.
Definition float_ex (_ : string) : res Q := Ok 1%Q.
Definition shuffle_ex (n : nat) : list nat := seq 0 n.
Definition sample_ex (l : list string) (k : nat) : list string := firstn k l.

Definition run_ex := run_cross_validation string string parse_partial_ex parse_observation_ex learn_ex (fun d => d) (fun _ => "toy") (fun _ => the_model) (fun _ => [Single "move"])
  validate_ex (list string) init_ex measure_ex listing float_ex (fun _ => 0) (fun _ => 0) show_ex "sam" false "toy" the_model "domain.pddl" "soft" shuffle_ex (fun n => 1) sample_ex 0.

Example ex_hypotheses :
  shuffles shuffle_ex /\ samples sample_ex /\ lists_trajectories anyhow listing /\ (forall x, "domain.pddl" <> (x ++ ".trajectory")%string) /\ well_named the_model /\
  ready string "domain.pddl" listing the_world /\ w_config _ the_world = NoFile /\
  tools_work string string parse_partial_ex parse_observation_ex learn_ex (fun _ => the_model) validate_ex (list string) init_ex measure_ex float_ex false "domain.pddl" "soft"
    (w_files _ the_world) (listing (w_files _ the_world)) /\
  2 <= (if 0 =? 0 then length (listing (w_files _ the_world)) else 0) <= length (listing (w_files _ the_world)).
Proof.
  split; [intros n; apply Permutation_refl|]. split.
  { intros l k K. split; [unfold sample_ex; rewrite firstn_length; lia|]. exists (skipn k l). unfold sample_ex. rewrite firstn_skipn. apply Permutation_refl. }
  split; [exact listing_ok|]. split.
  { intros x E. exact (pddl_not_trajectory x "domain" (eq_sym E)). }
  assert (WN : well_named the_model).
  { split; [constructor; [intros []|constructor]|]. intros n a [E|[]]. injection E as <- <-. reflexivity. }
  split; [exact WN|]. split.
  { split; [reflexivity|]. split; [reflexivity|]. split; [left; reflexivity|]. split; [apply (proj1 (listing_ok _))|].
    intros x X. assert (L : listing (w_files _ the_world) = ["p1"; "p2"; "p3"]) by reflexivity. rewrite L in X.
    destruct X as [<-|[<-|[<-|[]]]]; intros y [<-|[<-|[]]]; cbn; tauto. }
  split; [reflexivity|]. split.
  { split; [|split; [|split]].
    - exists "D", "D". split; [reflexivity|]. split; [reflexivity|]. split; [intros x p t _ _ _; eexists; reflexivity|].
      intros used. eexists _, _, 1%Q. split; [reflexivity|]. split; [|exact WN]. exists the_report, "1". repeat split.
    - intros text test used time. eexists. split; [reflexivity|]. intros y [<-|[]]. cbn; tauto.
    - intros test. eexists; reflexivity.
    - intros calc text n. eexists. split; [reflexivity|]. constructor; [|constructor]. intros y [<-|[]]. cbn; tauto. }
  split; reflexivity || (cbn; lia).
Qed.

(** What the run of these files writes: every model is learned from the two other problems; the combined file has the last fold. *)
Example ex_run : let r := fst (snd (run_ex the_world (new_runner [] []))) in snd (snd (run_ex the_world (new_runner [] []))) = None /\
  dict_get (r_backups r) "sam_fold_1_toy_2_trajectories.pddl" = Some "DP1T1,P3T3" /\
  option_map csv_lines (dict_get (r_results r) "sam_toy_2__semantic_performance.csv") =
    Some [["DP1T1,P3T3 on p2.pddl p2.trajectory"; ""; ""; ""; ""; ""; ""; ""]] /\
  option_map csv_lines (dict_get (r_results r) "sam_toy_combined_semantic_performance.csv") =
    Some [["DP1T1,P2T2 on p3.pddl p3.trajectory"; ""; ""; ""; ""; ""; ""; ""]] /\
  option_map (fun c => length (csv_lines c)) (dict_get (r_results r) "sam_all_folds_solving_stats.csv") = Some 3 /\
  option_map csv_lines (dict_get (r_results r) "sam_all_folds_numeric_learning_stats.csv") = Some [].
Proof. vm_compute. repeat split. Qed.

(** A fold run by itself: measured on the common directory. *)
Definition fold_ex := run_fold string string parse_partial_ex parse_observation_ex learn_ex (fun d => d) (fun _ => "toy") (fun _ => the_model) (fun _ => [Single "move"])
  validate_ex (list string) init_ex measure_ex listing float_ex (fun _ => 0) (fun _ => 0) show_ex "numeric_sam" false "toy" the_model "domain.pddl" "soft".
Example ex_fold : let train := firstn 5 the_files in
  snd (fold_ex 0 train [("p3.pddl", "P3"); ("p3.trajectory", "T3")] [] (new_runner [] [])) = None /\ snd (fold_ex 0 train [] [] (new_runner [] [])) = None /\
  option_map csv_lines (dict_get (r_results (fst (fold_ex 0 train [("p3.pddl", "P3"); ("p3.trajectory", "T3")] [] (new_runner [] [])))) "numeric_sam_toy_1__semantic_performance.csv") =
    Some [["DP1T1,P2T2 on "; ""; ""; ""; ""; ""; ""; ""]].
Proof. vm_compute. repeat split. Qed.

(** The hypotheses of C98_fold_done: a new runner has nothing pending, and the fold ends. *)
Example ex_fold_done : let train := firstn 5 the_files in let r := new_runner [] [] in
  r_solving r = [] /\ exists r', fold_ex 0 train [("p3.pddl", "P3"); ("p3.trajectory", "T3")] [] r = (r', None) /\
  dict_get (r_backups r') "numeric_sam_fold_0_toy_2_trajectories.pddl" = Some "DP1T1,P2T2".
Proof. vm_compute. split; [reflexivity|]. eexists. split; reflexivity. Qed.
(** A fold without its domain raises and leaves what was there; so do the reports of other folds when it ends. *)
Example ex_fold_frame : snd (fold_ex 0 [] [] [] (new_runner [("other.csv", mk_csv ["a"] [])] [])) <> None /\
  dict_get (r_results (fst (fold_ex 0 (firstn 5 the_files) [] [] (new_runner [("other.csv", mk_csv ["a"] [])] [])))) "other.csv" = Some (mk_csv ["a"] []) /\
  dict_keys (r_results (fst (fold_ex 0 (firstn 5 the_files) [] [] (new_runner [("other.csv", mk_csv ["a"] [])] [])))) = "other.csv" :: fold_names "numeric_sam" false "toy" 0.
Proof. vm_compute. split; [discriminate|]. split; reflexivity. Qed.

(** The hypotheses of C98_honest are among those of ex_hypotheses, and the run of these files ends. *)
Example ex_honest : exists w' r, run_ex the_world (new_runner [] []) = (w', (r, None)) /\ w_config _ the_world = NoFile /\ length (listing (w_files _ the_world)) = 3.
Proof. vm_compute. eexists _, _. split; [reflexivity|]. split; reflexivity. Qed.
