(** * Concrete cases and counterexamples for the statistics properties *)
From Verif Require Import StatsModel StatsSpec ValidateModel ValidateSpec PerfModel PerfSpec.
From Verif Require Import StatsProofs ValidateProofs PerfProofs StatsProperties Prelude PreludeProofs.
Open Scope string_scope. Open Scope list_scope. Open Scope nat_scope.

(** ** C40 *)
Definition L1 := mk_data "move" ["(at ?x)"; "(free ?y)"; "(lit)"] ["(at ?y)"].
Definition M1 := mk_data "move" ["(at ?x)"; "(free ?y)"] ["(at ?y)"; "(not (at ?x))"].
Definition L2 := mk_data "rest" [] [].
Definition M2 := mk_data "rest" ["(tired)"] [].
Definition ps0 : comparison := [(L1, M1); (L2, M2)].
Example ps0_paired : well_paired ps0 /\ In (L1, M1) ps0 /\ In (L2, M2) ps0.
Proof.
  split; [split|cbn; tauto].
  - repeat constructor; cbn; intuition discriminate.
  - intros L M [E|[E|[]]]; injection E as <- <-; reflexivity.
Qed.
Example move_values : calculate_action_precision (compare_all ps0) "move" = Ok (3 # 4)%Q /\ calculate_action_recall (compare_all ps0) "move" = Ok (3 # 4)%Q /\
  calculate_action_precision (compare_all ps0) "rest" = Ok 1%Q /\ calculate_action_recall (compare_all ps0) "rest" = Ok (0 # 1)%Q.
Proof. repeat split; vm_compute; reflexivity. Qed.
Example move_spurious : ~ no_spurious L1 M1 /\ ~ no_missing L1 M1 /\ no_spurious L2 M2 /\ ~ no_missing L2 M2.
Proof.
  split; [|split; [|split]].
  - intros [H _]. specialize (H "(lit)"). cbn in H. intuition discriminate.
  - intros [_ H]. specialize (H "(not (at ?x))"). cbn in H. intuition discriminate.
  - split; intros x [].
  - intros [H _]. specialize (H "(tired)"). cbn in H. intuition discriminate.
Qed.
Example move_counts : common_literals L1 M1 ["(at ?x)"; "(free ?y)"] ["(at ?y)"] /\ literals_of L1 (ad_pre L1) (ad_eff L1).
Proof.
  split.
  - unfold common_literals; cbn. repeat split; try (repeat constructor; cbn; intuition discriminate); cbn; intuition (subst; try discriminate; tauto).
  - unfold literals_of; cbn. repeat split; try (repeat constructor; cbn; intuition discriminate); cbn; tauto.
Qed.

(** Precision over one set of literals is 0 for an action with no learned literal, although nothing spurious was learned,
    while the precision of the whole action is 1. *)
Theorem C40_empty_set_precision_refuted : exists learned actual q, incl learned actual /\
  calculate_syntactic_precision learned actual = Ok q /\ (q == 0)%Q /\
  calculate_action_precision (compare_all [(mk_data "rest" learned [], mk_data "rest" actual [])]) "rest" = Ok 1%Q.
Proof. exists [], ["(tired)"], 0%Q. split; [intros x []|]. repeat split; vm_compute; reflexivity. Qed.
Print Assumptions C40_empty_set_precision_refuted.

(** Semantic recall is 0 when the only tested call is inapplicable in both models, although no applicable call is missed. *)
Theorem C40_recall_without_positives_refuted : exists P R, calculate_preconditions_semantic_performance nat (fun _ => "move") (fun _ => false) (fun _ => false) ["move"] [0] = Ok (P, R) /\
  dict_get R "move" = Some 0%Q /\ dict_get P "move" = Some 1%Q.
Proof. eexists; eexists; split; [vm_compute; reflexivity|]. split; reflexivity. Qed.
Print Assumptions C40_recall_without_positives_refuted.

Example semantic_values : exists P R, calculate_preconditions_semantic_performance nat (fun n => if n <? 4 then "move" else "jump")
    (fun n => n <? 3) (fun n => Nat.even n) ["move"] [0; 1; 2; 3; 4] = Ok (P, R) /\ dict_get P "move" = Some (2 # 3)%Q /\ dict_get R "move" = Some (2 # 2)%Q /\ dict_get P "jump" = None.
Proof. eexists; eexists; split; [vm_compute; reflexivity|]. repeat split; reflexivity. Qed.

Definition walk := mk_op [("at-a", true)] ["at-b"] ["at-a"].
Example identical_effects : exists P R, calculate_effects_semantic_performance nat (fun _ => "move") ["move"] (list string) (snapshot_of ["at-a"; "at-b"; "lit"]) (fun _ => ["at-a"; "lit"])
    (fun _ => strips_apply (mk_op [] ["at-b"] ["at-a"])) (fun _ => strips_apply (mk_op [] ["at-b"] ["at-a"])) [0; 1] = Ok (P, R) /\
  dict_get P "move" = Some (4 # 4)%Q /\ dict_get R "move" = Some (4 # 4)%Q.
Proof. eexists; eexists; split; [vm_compute; reflexivity|]. split; reflexivity. Qed.

(** ** C55: a learned action with a spurious effect gets precision 1 *)
Theorem C55_spurious_effect_exposed_refuted : exists (learned model : strips_op) (s learned_next model_next : list string) (x : string),
  strips_apply learned s = Some learned_next /\ strips_apply model s = Some model_next /\ In x learned_next /\ ~ In x s /\ ~ In x model_next /\
  exists P R, calculate_effects_semantic_performance nat (fun _ => "move") ["move"] (list string) (snapshot_of ["at-a"; "at-b"; "lit"]) (fun _ => s)
    (fun _ => strips_apply learned) (fun _ => strips_apply model) [0] = Ok (P, R) /\ exists q, dict_get P "move" = Some q /\ (q == 1)%Q.
Proof.
  exists (mk_op [] ["at-b"; "lit"] ["at-a"]), (mk_op [] ["at-b"] ["at-a"]), ["at-a"], ["at-b"; "lit"], ["at-b"], "lit".
  split; [reflexivity|]. split; [reflexivity|]. split; [cbn; tauto|]. split; [cbn; intuition discriminate|]. split; [cbn; intuition discriminate|].
  eexists; eexists; split; [vm_compute; reflexivity|]. eexists; split; [reflexivity|reflexivity].
Qed.
Print Assumptions C55_spurious_effect_exposed_refuted.

(** A missing delete effect hides as well: the reference operator is no longer applicable in the learned next state, and
    the call is left out of the comparison altogether. *)
Theorem C55_inapplicable_after_learned_refuted : exists (learned model : strips_op) (s : list string),
  strips_apply learned s <> strips_apply model s /\
  calculate_effects_semantic_performance nat (fun _ => "move") ["move"] (list string) (snapshot_of ["at-a"; "at-b"]) (fun _ => s)
    (fun _ => strips_apply learned) (fun _ => strips_apply model) [0] = Ok ([], []).
Proof. exists (mk_op [] [] ["at-a"]), walk, ["at-a"]. split; [cbn; discriminate|vm_compute; reflexivity]. Qed.
Print Assumptions C55_inapplicable_after_learned_refuted.

Example blind_hypothesis : do_not_contradict (mk_op [] ["at-b"; "lit"] ["at-a"]) (mk_op [] ["at-b"] ["at-a"]).
Proof.
  intros [x [|]]; unfold sets_fact, opposite; cbn [fst snd negb op_add op_del].
  - intros [<-|[<-|[]]] [H _]; cbn in H; intuition discriminate.
  - intros [[<-|[]] _] H; cbn in H; intuition discriminate.
Qed.

(** ** C46 *)
Definition p_ok := mk_problem "pfile1" [timeout; ok] "... Plan valid ..." "".
Definition p_goal := mk_problem "pfile2" [ok] "Goal not satisfied" "".
Definition p_time := mk_problem "pfile3" [no_solution; timeout] "" "Plan valid".
Definition p_none := mk_problem "pfile4" [no_solution] "" "Plan failed".
Definition ps1 := [p_ok; p_goal; p_time; p_none; p_ok].
Example ps1_answered : Forall answered ps1.
Proof. repeat constructor; unfold answered; cbn; try discriminate; intros _ o outs E; injection E as <- <-; discriminate. Qed.
Example ps1_row : exists row, validate_domain ROW_HEADER 5 ps1 = Ok row /\ dict_get row "ok" = Some (VInt 2) /\ dict_get row "timeout" = Some (VInt 1) /\
  dict_get row "problems_ok" = Some (VNames ["pfile1.pddl"; "pfile1.pddl"]) /\ dict_get row "problems_timeout" = Some (VNames ["pfile3"]) /\
  dict_get row "percent_ok" = Some (VNum (200 # 5)) /\ dict_get row "percent_not_applicable" = Some (VNum (0 # 5)) /\
  dict_get row "validated_against_expert_plan" = Some (VInt 1) /\ dict_get row "percent_validated_against_expert_plan" = Some (VNum (100 # 2)).
Proof. eexists; split; [vm_compute; reflexivity|]. repeat split; reflexivity. Qed.

(** A plan whose validation text has none of the three markers is counted in no class: the classes do not account for every
    problem. *)
Theorem C46_every_problem_counted_refuted : exists ps, Forall answered ps /\ length ps = 1 /\
  list_sum (map (fun l => how_many (in_class l) ps) the_classes) = 0.
Proof.
  exists [mk_problem "pfile1" [ok] "Bad plan description!" ""]. split; [|split; reflexivity].
  constructor; [|constructor]. split; [discriminate|]. cbn. discriminate.
Qed.
Print Assumptions C46_every_problem_counted_refuted.

Example unanswered_cases : exists ps, (exists p, In p ps /\ solved p = false /\ (pr_outcomes p = [] \/ exists outs, rev (pr_outcomes p) = irrelevant :: outs)) /\
  validate_domain ROW_HEADER 0 ps = Err KeyError.
Proof. exists [p_ok; mk_problem "p" [] "" ""]. split; [|vm_compute; reflexivity]. exists (mk_problem "p" [] "" ""). cbn. tauto. Qed.

(** Solved and unsolved problems are listed under different spellings of their name. *)
Theorem C46_problem_names_refuted : exists ps row, Forall answered ps /\ validate_domain ROW_HEADER 0 ps = Ok row /\
  dict_get row "problems_ok" = Some (VNames ["pfile1.pddl"]) /\ dict_get row "problems_timeout" = Some (VNames ["pfile3"]).
Proof.
  exists [p_ok; p_time]. eexists. split; [|split; [vm_compute; reflexivity|split; reflexivity]].
  pose proof ps1_answered as A. repeat constructor; unfold answered; cbn; try discriminate; intros _ o outs E; injection E as <- <-; discriminate.
Qed.
Print Assumptions C46_problem_names_refuted.

(** ** C56 *)
Definition m0 := mk_measures [("move", 1%Q)] [("move", (1 # 2)%Q)] [] [].
Definition r0 := mk_request "hard" 10 m0 [("move", (3 # 1)%Q)].
Definition r1 := mk_request "hard" 20 m0 [("move", 0%Q)].
Definition r2 := mk_request "hard" 10 m0 [("move", (7 # 1)%Q)].
Example distinct_requests : NoDup ["move"; "rest"] /\ NoDup (map (fun r => (rq_policy r, rq_num r)) [r0; r1]).
Proof. split; repeat constructor; cbn; intuition discriminate. Qed.
Example two_requests_rows : map (fun r : row => dict_get r "effects_mse") (numeric_run "numeric_sam" ["move"; "rest"] (1 # 1000) [r0; r1]) =
  [Some (CNum (3 # 1)); Some (CNum 0); Some (CNum 0); Some (CNum 0)].
Proof. reflexivity. Qed.

(** Two learned domains with the same policy and number of trajectories: the error of the second is written on the row of the
    first and its own row has none. *)
Theorem C56_repeated_request_refuted : exists rows, numeric_run "numeric_sam" ["move"] (1 # 1000) [r0; r2] = rows /\
  map (fun r : row => dict_get r "effects_mse") rows = [Some (CNum (7 # 1)); None].
Proof. eexists; split; [reflexivity|reflexivity]. Qed.
Print Assumptions C56_repeated_request_refuted.

(** ** C57 *)
Definition fl (v : Z) : list (string * Q) := [("(fuel)", inject_Z v); ("(load)", 2%Q)].
Example errors_computed : exists m, calculate_effects_mse nat (fun n => if n <? 2 then "move" else "load") ["move"; "load"; "rest"] (fun _ => fl 5)
   (fun n => Applied (fl (Z.of_nat n))) (fun n => Applied (fl (if n <? 2 then 3 else Z.of_nat n))) [0; 1; 2; 3] = Ok m /\
   (exists q, dict_get m "move" = Some q /\ (q == 13 # 4)%Q) /\ (exists q, dict_get m "load" = Some q /\ (q == 0)%Q) /\ dict_get m "rest" = Some 0%Q.
Proof. eexists; split; [vm_compute; reflexivity|]. split; [|split]; [eexists; split; reflexivity|eexists; split; reflexivity|reflexivity]. Qed.
Example comparable_case : comparable (fl 5) (Applied (fl 1)) (Applied (fl 3)).
Proof.
  split; [discriminate|]. split; [cbn; repeat constructor; cbn; intuition discriminate|]. intros s s' E E'; injection E as <-; injection E' as <-.
  split; [discriminate|intros x X; exact X].
Qed.

(** A learned action that is applicable nowhere has error 0. *)
Theorem C57_never_applicable_refuted (call : Type) (nm : call -> string) acts before ma cs :
  (forall c : call, In c cs -> before c <> [] /\ NoDup (map fst (before c))) -> forall a, In a acts ->
  exists m q, calculate_effects_mse call nm acts before (fun _ => Inapplicable) ma cs = Ok m /\ dict_get m a = Some q /\ (q == 0)%Q.
Proof.
  intros H a A. destruct (C57_numeric_error call nm acts before (fun _ => Inapplicable) ma cs) as (m & E & _ & G).
  - intros c C. destruct (H c C). split; [assumption|]. split; [assumption|]. discriminate.
  - destruct (G a A) as (q & GQ & _ & Z). exists m, q. split; [exact E|]. split; [exact GQ|]. apply Z. intros; exact Logic.I.
Qed.
Print Assumptions C57_never_applicable_refuted.

(** A domain without numeric functions makes the calculator raise ValueError. *)
Theorem C57_no_functions_refuted (call : Type) (nm : call -> string) acts before la ma (c : call) :
  before c = [] -> la c = Inapplicable -> In (nm c) acts -> calculate_effects_mse call nm acts before la ma [c] = Err ValueError.
Proof. exact (no_fluents call nm acts before la ma c). Qed.
Print Assumptions C57_no_functions_refuted.

(** ** C58 *)
Example ma_values : exists P R, ma_effects_semantic_performance nat (fun n => if n =? 0 then ["move"; "lift"] else ["move"; "nop"]) ["move"; "lift"]
   (fun n => ["a"; "b"; "c"]) (fun n => if n =? 0 then Some ["a"; "b"; "x"] else Some ["x"]) [0; 1] = Ok (P, R) /\
   dict_get P "move" = Some (2 # 3)%Q /\ dict_get R "lift" = Some (2 # 3)%Q /\ dict_get P "nop" = None.
Proof. eexists; eexists; split; [vm_compute; reflexivity|]. repeat split; reflexivity. Qed.
Example idle_case : forall j, In j [1; 2] -> exists x, In x (if j =? 0 then ["move"; "lift"] else ["move"; "nop"]) /\ ~ In x ["move"; "lift"].
Proof. intros j [<-|[<-|[]]]; exists "nop"; cbn; intuition discriminate. Qed.
