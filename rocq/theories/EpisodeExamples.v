(** * Concrete cases and counterexamples for recording and executing *)
From Verif Require Import EpisodeModel EpisodeSpec AgentModel AgentSpec EpisodeProofs AgentProofs EpisodeProperties Prelude PreludeProofs.
Open Scope string_scope. Open Scope list_scope. Open Scope nat_scope.

(** ** C41, C42: states are numbers, a call is its name, at most two steps per file *)
Definition Op := EpisodeModel.op nat string.
Definition St (a : string) (ok : bool) (p n : nat) : Op := Step nat string a ok p n.
Definition fin (p : string) (b : bool) : Op := End nat string (mk_end p b false "irrelevant" "irrelevant" 1 true).
Definition names0 := ["move"; "rest"].
Definition os0 : list Op :=
  [Grounded _ _ 7; Loading _ _ (1 # 2); St "move" true 0 1; St "rest" false 1 1; Failure _ _ "rest" "numeric"; St "move" true 1 2; fin "p1" true;
   ClearTrajectory _ _; ClearPaths _ _; Grounded _ _ 9; St "rest" true 5 6; fin "p2" false; ClearTrajectory _ _; St "move" false 3 3].
Definition run0 := run nat string (fun a => a) 2 names0.

Example names0_plain : Forall plain_name names0 /\ NoDup names0.
Proof. split; [repeat constructor|]. repeat constructor; cbn; intuition discriminate. Qed.
Example os0_legal : Forall (legal nat string (fun a => a) names0) os0.
Proof. repeat (apply Forall_cons; [cbn; tauto|]); apply Forall_nil. Qed.
Example os0_files : exists r, run0 os0 = Ok r /\ r_paths _ _ r = ["trajectory_p2_episode_3_part_0.trajectory"] /\
  map (fun f => (f_name _ _ f, length (f_body _ _ f))) (r_files _ _ r) =
   [("trajectory_p1_episode_2_part_0.trajectory", 2); ("trajectory_p1_episode_2_part_1.trajectory", 1); ("trajectory_p2_episode_3_part_0.trajectory", 1)] /\
  concat (map (read_file _ _) (r_files _ _ r)) =
    [mk_step _ _ 0 "move" 1 true; mk_step _ _ 1 "rest" 1 false; mk_step _ _ 1 "move" 2 true; mk_step _ _ 5 "rest" 6 true] /\
  map (fun row => dict_get row "num_steps_in_episode") (r_rows _ _ r) = [Some (CNat 3); Some (CNat 1)] /\
  map (fun row => dict_get row "num_failed_due_to_numeric_condition_rest") (r_rows _ _ r) = [Some (CNat 1); Some (CNat 0)] /\
  dict_get (r_info _ _ r) "num_move_fail" = Some 1 /\ get_number_successful_action_executions _ _ r "move" = Ok 2.
Proof. eexists. split; [vm_compute; reflexivity|]. vm_compute. repeat split. Qed.
Example os0_exports : exports nat string os0 =
  [("p1", 2, [mk_step _ _ 0 "move" 1 true; mk_step _ _ 1 "rest" 1 false; mk_step _ _ 1 "move" 2 true]); ("p2", 3, [mk_step _ _ 5 "rest" 6 true])].
Proof. reflexivity. Qed.
Example os0_continuous : Forall (fun x => continuous nat string (snd x)) (exports nat string os0).
Proof. rewrite os0_exports. repeat constructor. Qed.
(** A trajectory cut as the theorem says. *)
Example os0_written : export_written nat string 2 ("p2", 3, [mk_step nat string 5 "rest" 6 true])
  [mk_file nat string "trajectory_p2_episode_3_part_0.trajectory" 5 [("rest", true, 6)]].
Proof.
  exists [[mk_step nat string 5 "rest" 6 true]]. split.
  - cbn. split; [reflexivity|lia].
  - cbn. split; [|exact Logic.I]. split; [reflexivity|]. split; [|reflexivity]. exists (mk_step nat string 5 "rest" 6 true), []. auto.
Qed.

(** Two different actions can share a counter: a failure of one is then recorded as a success of the other. *)
Theorem C41_clashing_names_refuted : exists names os r a, NoDup names /\ In a names /\ Forall (legal nat string (fun a => a) names) os /\
  run nat string (fun a => a) 2 names os = Ok r /\ count nat string (any_success nat string) os = 0 /\
  dict_get (r_info _ _ r) ("num_" ++ a ++ "_success")%string = Some 1.
Proof.
  exists ["failed_due_to_discrete_condition_x"; "x_success"], [Failure nat string "x_success" "discrete"]. eexists. exists "failed_due_to_discrete_condition_x".
  split; [repeat constructor; cbn; intuition discriminate|]. split; [left; reflexivity|]. split; [repeat (apply Forall_cons; [cbn; tauto|]); apply Forall_nil|].
  split; [vm_compute; reflexivity|]. split; reflexivity.
Qed.
(** The file of an episode carries the number of the next episode. *)
Theorem C42_file_number_refuted : exists os r row f, Forall (legal nat string (fun a => a) names0) os /\ run0 os = Ok r /\
  r_rows _ _ r = [row] /\ r_files _ _ r = [f] /\ dict_get row "episode_number" = Some (CNat 1) /\
  f_name _ _ f = "trajectory_p1_episode_2_part_0.trajectory".
Proof.
  exists [St "move" true 0 1; fin "p1" true]. do 3 eexists. split; [repeat (apply Forall_cons; [cbn; tauto|]); apply Forall_nil|]. split; [vm_compute; reflexivity|].
  split; [reflexivity|]. split; [reflexivity|]. split; reflexivity.
Qed.
(** Ending an episode does not clear the trajectory: unless the caller does, the file of the next episode repeats the steps of
    the previous one, and a reader sees a step that was never recorded. *)
Theorem C42_uncleared_refuted : exists os r f s, Forall (legal nat string (fun a => a) names0) os /\ run0 os = Ok r /\ In f (r_files _ _ r) /\
  f_name _ _ f = "trajectory_p2_episode_3_part_0.trajectory" /\ In s (read_file _ _ f) /\ ~ In s (r_traj _ _ r).
Proof.
  exists [St "move" true 0 1; fin "p1" true; St "move" true 5 6; fin "p2" true]. do 2 eexists. exists (mk_step nat string 1 "move" 6 true).
  split; [repeat (apply Forall_cons; [cbn; tauto|]); apply Forall_nil|]. split; [vm_compute; reflexivity|]. split; [right; left; reflexivity|]. split; [reflexivity|].
  split; [right; left; reflexivity|]. cbn. intros [X|[X|[]]]; discriminate X.
Qed.
(** Unknown actions and unknown reasons raise. *)
Example unknown_action : run0 [St "fly" true 0 1] = Err KeyError /\ run0 [Failure _ _ "fly" "numeric"] = Err KeyError /\ run0 [Failure _ _ "move" "bad luck"] = Err ValueError.
Proof. repeat split; vm_compute; reflexivity. Qed.

(** ** C44: one fluent, an action that adds 1 while it is below 2 *)
Definition below (op : string) (x y : Q) : res Q :=
  if Prelude.eqb op "<=" then Ok (if Qle_bool x y then 1 else 0)%Q else Err ValueError.
Definition apply0 (c : string) (s : AgentModel.wstate) : res AgentModel.wstate :=
  match dict_get (ws_fluents s) "(fuel )" with
  | Some x => if Qle_bool 2 x then Err ValueError else Ok (mk_wstate [("full", ["(full )"])] (dict_set (ws_fluents s) "(fuel )" (x + 1)%Q))
  | None => Err ValueError
  end.
Definition init0 := mk_wstate [] [("(fuel )", 0%Q)].
Definition goal0 := mk_goal ["(full )"] [NBin "<=" (NConst 2) (NFun "(fuel )" 0)].
Example plan_executes : exists tr g, execute_plan below string (fun c => c) ["fill"] apply0 goal0 init0 ["fill"; "fill"; "fill"; "fill"] = (g, Ok (tr, true, false)) /\ length tr = 3.
Proof. do 2 eexists. split; [vm_compute; reflexivity|reflexivity]. Qed.
Example plan_hypotheses : exists tr final, executed string apply0 init0 ["fill"; "fill"; "fill"; "fill"] tr final false /\ well_formed_state final /\
  (forall e, In e (g_fluents goal0) -> defined_in (ws_fluents final) (term_of e)) /\ evaluable below (map term_of (g_fluents goal0)) final.
Proof.
  do 2 eexists. split.
  - eapply ex_step; [reflexivity|]. eapply ex_step; [reflexivity|]. apply ex_fail. reflexivity.
  - cbn. split; [repeat constructor; cbn; tauto|]. split.
    + intros e [<-|[]]. cbn. auto.
    + intros t [<-|[]]. eexists. reflexivity.
Qed.
(** A state that gives no value to a function of the goal: the value from an earlier check is used, and the goal is
    reported reached although it is not defined there. *)
Theorem C44_stale_value_refuted : exists g s1 s2, well_formed_state s1 /\ well_formed_state s2 /\
  let g1 := fst (goal_reached below g s1) in
  snd (goal_reached below g1 s2) = Ok true /\ ~ holds below (g_predicates g1) (map term_of (g_fluents g1)) s2 /\
  snd (goal_reached below g s2) = Ok false.
Proof.
  exists goal0, (mk_wstate [] [("(fuel )", 5%Q)]), (mk_wstate [("full", ["(full )"])] []).
  split; [repeat constructor; cbn; tauto|]. split; [constructor|]. split; [vm_compute; reflexivity|]. split; [|vm_compute; reflexivity].
  intros [_ H]. destruct (H _ (or_introl eq_refl)) as (v & E & _). discriminate E.
Qed.
(** Goals with a negative literal are never reported reached in a state that lists the predicates that hold. *)
Theorem C44_negative_goal_refuted : exists g s, g_predicates g = ["(not (full ))"] /\ g_fluents g = [] /\
  (~ exists name ps, In (name, ps) (ws_predicates s) /\ In "(full )" ps) /\ snd (goal_reached below g s) = Ok false.
Proof.
  exists (mk_goal ["(not (full ))"] []), (mk_wstate [("empty", ["(empty )"])] []). split; [reflexivity|]. split; [reflexivity|]. split; [|reflexivity].
  intros (name & ps & [X|[]] & I). injection X as <- <-. destruct I as [X|[]]. discriminate X.
Qed.
