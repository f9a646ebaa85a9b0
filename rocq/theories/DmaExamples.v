(** * Examples for C104 *)
From Coq Require Import Lia.
From Verif Require Import DmaModel DmaSpec DmaProofs DmaFinal DmaProperties Prelude PreludeProofs.
Open Scope string_scope. Open Scope list_scope. Open Scope nat_scope.

(** Two agents; a state is the list of the actions executed so far. *)
Definition ags : list string := ["a1"; "a2"].
Definition real (a : action) : bool := negb (String.eqb (fst a) "nop" || String.eqb (fst a) ADD_PREDICATE_ACTION_NAME || String.eqb (fst a) DEL_PREDICATE_ACTION_NAME).
Definition f0 (j : joint) (s : list string) : res (list string) := Ok (s ++ map fst (filter real j)).
Definition step0 (k : kind) (j : joint) (s : state (list string)) : res (state (list string)) :=
  with_flag _ (f0 j (fst s)) (if memb ADD_PREDICATE_ACTION_NAME (map fst j) then true else if memb DEL_PREDICATE_ACTION_NAME (map fst j) then false else snd s).
Lemma plain_names j n : (forall a : action, In a j -> ~ is_dummy (fst a)) -> is_dummy n -> memb n (map fst j) = false.
Proof. intros H D. destruct (memb n (map fst j)) eqn:E; [|reflexivity]. apply memb_In, in_map_iff in E. destruct E as (a & <- & I). contradiction (H a I D). Qed.
Lemma honest0 : honest (list string) ags f0 step0.
Proof.
  split.
  - intros k j s b H. unfold step0. cbn [fst snd]. rewrite !plain_names by (try exact H; unfold is_dummy; cbn; tauto). reflexivity.
  - intros name j j' s b D H (x & ps & y & ag & -> & _ & ->). unfold step0. cbn [fst snd].
    assert (F : f0 (x ++ (name, [ag]) :: y) s = f0 (x ++ ("nop", ps) :: y) s). { unfold f0. rewrite !filter_app, !map_app. cbn [filter]. destruct D as [-> | ->]; reflexivity. }
    rewrite F. f_equal. assert (P : forall n, is_dummy n -> memb n (map fst (x ++ (name, [ag]) :: y)) = Prelude.eqb n name).
    { intros n N. assert (HX : memb n (map fst x) = false) by (apply plain_names; [intros a A; apply H, in_app_iff; left; exact A|exact N]).
      assert (HY : memb n (map fst y) = false) by (apply plain_names; [intros a A; apply H, in_app_iff; right; right; exact A|exact N]).
      unfold memb in *. rewrite map_app, existsb_app. cbn [map existsb fst]. rewrite HX, HY, Bool.orb_false_r. reflexivity. }
    rewrite !P by (unfold is_dummy; cbn; tauto). destruct D as [-> | ->]; reflexivity.
Qed.
Definition rd0 (s : string) : draws := mk_draws (negb (String.eqb s "p4")) (fun _ l => hd 0 l) (fun _ l => last l 0) (fun _ => true) (fun i => Nat.eqb i 0).
Lemma picks_hd : picks_one (fun _ l => hd 0 l). Proof. intros k [|x l] N; [contradiction N; reflexivity|left; reflexivity]. Qed.
Lemma picks_last : picks_one (fun _ l => last l 0). Proof. intros k l N. destruct (exists_last N) as (l' & x & ->). rewrite last_last. apply in_app_iff. right. left. reflexivity. Qed.
Lemma fair0 s : fair_draws (rd0 s). Proof. split; [exact picks_hd|exact picks_last]. Qed.

Definition prob : problem (list string) := mk_problem _ ([], false) ["(done )"].
Definition plan0 : list joint := [[("move", ["a1"]); ("nop", ["a2"])]; [("nop", ["a1"]); ("load", ["a2"])]; [("move", ["a1"]); ("load", ["a2"])]].
Definition busy : list joint := [[("move", ["a1"]); ("load", ["a2"])]].
Definition ts0 := [([], [("move", ["a1"]); ("nop", ["a2"])], ["move"]); (["move"], [("nop", ["a1"]); ("load", ["a2"])], ["move"; "load"]);
  (["move"; "load"], [("move", ["a1"]); ("load", ["a2"])], ["move"; "load"; "move"; "load"])].
Definition parse0 (k : kind) (t : string) : res (problem (list string)) := if String.eqb t "bad" then Err ValueError else Ok prob.
Definition convert0 (k : kind) (p : problem (list string)) (t : string) : res (list joint) :=
  if String.eqb t "bad" then Err ValueError else if String.eqb t "busy" then Ok busy else
  if String.eqb t "half" then match k with enhanced => Ok plan0 | vanilla => Err ValueError end else Ok plan0.
Notation T := (FText (list string) string).
Definition work0 : dir (list string) string :=
  [("p1.pddl", T "problem"); ("p1.solution", T "plan"); ("p2.pddl", T "problem"); ("p2.solution", T "bad"); ("p3.pddl", T "problem"); ("p3.solution", T "half");
   ("p4.pddl", T "problem"); ("p4.solution", T "plan"); ("notes", T "x")].
Definition out0 : outputs (list string) string := mk_out _ _ [("old", T "x")] [].
Lemma sound0 : sound_plan (list string) ags f0 prob plan0 ts0.
Proof.
  split; [|split; [|repeat (econstructor; [reflexivity|]); constructor]].
  - intros j a J A. cbn in J. repeat (destruct J as [<-|J]; [cbn in A; repeat (destruct A as [<-|A]; [intros [D|D]; discriminate|]); destruct A|]). destruct J.
  - intros j J. cbn in J. repeat (destruct J as [<-|J]; [cbn; lia|]). destruct J.
Qed.
Definition good0 := good (list string) string ags f0 parse0 convert0 work0.
Lemma good_p stem : In stem ["p1"; "p4"] -> good0 stem prob plan0 ts0.
Proof. intros [<-|[<-|[]]]; exists "problem", "plan"; (split; [split; reflexivity|]); (split; [reflexivity|]); (split; [reflexivity|exact sound0]). Qed.
Lemma solutions0 s : has_solution _ _ work0 s -> In s ["p1"; "p2"; "p3"; "p4"].
Proof. intros H. apply stems_In in H. exact H. Qed.
Lemma settled0 s : has_solution _ _ work0 s -> settled (list string) string ags f0 parse0 convert0 work0 s.
Proof.
  intros H. apply solutions0 in H. destruct H as [<-|[<-|[<-|[<-|[]]]]].
  - left. exists prob, plan0, ts0. apply good_p. left. reflexivity.
  - right. left. exists "problem", "bad". split; [split; reflexivity|]. right. exists prob. split; reflexivity.
  - right. right. exists prob, plan0, ts0, "problem", "half". split; [split; reflexivity|]. split; [reflexivity|]. split; [reflexivity|]. split; [reflexivity|exact sound0].
  - left. exists prob, plan0, ts0. apply good_p. right. left. reflexivity.
Qed.
Definition run0 := create_domain_trajectories (list string) string parse0 convert0 step0 ags rd0 work0 ("domain.pddl", "D") ("enhanced.pddl", "E") out0.
Lemma files0 : exists o', run0 = Ok o' /\ forall s, has_solution _ _ work0 s -> pair_result (list string) string ags f0 parse0 convert0 rd0 work0 out0 o' s.
Proof.
  destruct (C104_files (list string) string ags f0 parse0 convert0 step0 rd0 work0 ("domain.pddl", "D") ("enhanced.pddl", "E") out0 honest0 fair0) as (o' & E & R & _).
  - unfold work0. cbn [map fst]. repeat (constructor; [cbn; intros H; repeat (destruct H as [H|H]; [discriminate|]); exact H|]). constructor.
  - intros s H. right. exact (settled0 s H).
  - intros s H. apply solutions0 in H. destruct H as [<-|[<-|[<-|[<-|[]]]]]; split; cbn; intros H; repeat (destruct H as [H|H]; [discriminate|]); exact H.
  - exists o'. split; [exact E|exact R].
Qed.
(** The files made *)
Example run_names : match run0 with Ok o => (map fst (o_enhanced _ _ o), map fst (o_vanilla _ _ o)) | Err _ => ([], []) end =
  (["old"; "p1.pddl"; "p1.solution"; "p1.trajectory"; "p3.pddl"; "p3.solution"; "p3.trajectory"; "p4.pddl"; "p4.solution"; "p4.trajectory"; "enhanced.pddl"],
   ["p1.pddl"; "p1.solution"; "p1.trajectory"; "p4.pddl"; "p4.solution"; "p4.trajectory"; "domain.pddl"]).
Proof. vm_compute. reflexivity. Qed.
(** The plan with dummy actions: a deletion, and the addition for the goal in the last step with an idle agent *)
Example plan_of_p1 : match run0 with Ok o => dict_get (o_enhanced _ _ o) "p1.solution" | Err _ => None end =
  Some (FPlan _ _ [[("move", ["a1"]); (DEL_PREDICATE_ACTION_NAME, ["a2"])]; [(ADD_PREDICATE_ACTION_NAME, ["a1"]); ("load", ["a2"])]; [("move", ["a1"]); ("load", ["a2"])]]).
Proof. vm_compute. reflexivity. Qed.
Example plan_case : exists plan', insert_dummies ags (rd0 "p1") plan0 true = Ok plan' /\ decorated ags true plan0 plan'.
Proof. apply C104_plan; [apply fair0|exact (proj1 (proj2 sound0))]. Qed.

Definition work1 : dir (list string) string := [("p1.pddl", T "problem"); ("p1.solution", T "plan"); ("p2.solution", T "plan")].
Example missing_case : exists x, create_domain_trajectories (list string) string parse0 convert0 step0 ags rd0 work1 ("domain.pddl", "D") ("enhanced.pddl", "E") out0 = Err x.
Proof.
  apply (C104_missing_refuted (list string) string ags parse0 convert0 step0 rd0 work1 _ _ out0 "p2").
  - unfold work1. cbn [map fst]. repeat (constructor; [cbn; intros H; repeat (destruct H as [H|H]; [discriminate|]); exact H|]). constructor.
  - right. right. left. reflexivity.
  - intros ((c & C) & _). discriminate.
  - reflexivity.
Qed.

(** Folders *)
Definition prob2 : problem (list string) := mk_problem _ ([], false) ["(other )"].
Definition combine0 (s : string) : res (problem (list string)) := if String.eqb s "none" then Err KeyError else if String.eqb s "problem.2" then Ok prob2 else Ok prob.
Definition plan_of0 (s : string) : res string := Ok "plan".
Lemma sound2 : sound_plan (list string) ags f0 prob2 plan0 ts0. Proof. destruct sound0 as (A & B & C). split; [exact A|split; [exact B|exact C]]. Qed.
Definition good_folder0 := good_folder (list string) string ags f0 convert0 combine0 plan_of0.
Lemma good_d d : d <> "none" -> d <> "problem.2" -> good_folder0 d prob plan0 ts0.
Proof. intros N M. exists "plan". unfold combine0. rewrite (proj2 (String.eqb_neq _ _) N), (proj2 (String.eqb_neq _ _) M). split; [reflexivity|]. split; [reflexivity|]. split; [reflexivity|exact sound0]. Qed.
Lemma good_d2 : good_folder0 "problem.2" prob2 plan0 ts0.
Proof. exists "plan". split; [reflexivity|]. split; [reflexivity|]. split; [reflexivity|exact sound2]. Qed.
Example combined_case : exists o', create_combined (list string) string convert0 step0 ags combine0 plan_of0 rd0 ["d1"; "d2"] out0 = Ok o' /\
  folder_files (list string) string ags rd0 o' "d1" prob plan0 ts0 /\ folder_files (list string) string ags rd0 o' "d2" prob plan0 ts0.
Proof.
  destruct (C104_combined (list string) string ags f0 convert0 step0 combine0 plan_of0 rd0 ["d1"; "d2"] out0 honest0 fair0) as (o' & E & R & _).
  - discriminate.
  - repeat (constructor; [cbn; intros H; repeat (destruct H as [H|H]; [discriminate|]); exact H|]). constructor.
  - intros d D. exists prob, plan0, ts0. apply good_d; destruct D as [<-|[<-|[]]]; discriminate.
  - exists o'. split; [exact E|]. split; apply R; try (apply good_d; discriminate); cbn; tauto.
Qed.
Example bad_folder_case : exists x, create_combined (list string) string convert0 step0 ags combine0 plan_of0 rd0 ["d1"; "none"] out0 = Err x.
Proof. apply (C104_bad_folder_refuted (list string) string ags convert0 step0 combine0 plan_of0 rd0 ["d1"; "none"] "none"); [cbn; tauto|]. left. eexists. reflexivity. Qed.
Example dots_case : exists o', create_combined (list string) string convert0 step0 ags combine0 plan_of0 rd0 ["problem.1"; "problem.2"] out0 = Ok o' /\
  folder_files (list string) string ags rd0 o' "problem.2" prob2 plan0 ts0 /\ ~ folder_files (list string) string ags rd0 o' "problem.1" prob plan0 ts0.
Proof. apply (C104_dots_refuted _ _ ags f0 convert0 step0 combine0 plan_of0); [exact honest0|exact fair0|apply good_d; discriminate|exact good_d2|discriminate]. Qed.

(** A busy plan *)
Definition busy_out := put (list string) string [] "p5" (goaled _ true prob) busy (flagged _ false [([], [("move", ["a1"]); ("load", ["a2"])], ["move"; "load"])]).
Lemma sound_busy : sound_plan (list string) ags f0 prob busy [([], [("move", ["a1"]); ("load", ["a2"])], ["move"; "load"])].
Proof.
  split; [|split; [|repeat (econstructor; [reflexivity|]); constructor]].
  - intros j a [<-|[]] A. cbn in A. repeat (destruct A as [<-|A]; [intros [D|D]; discriminate|]). destruct A.
  - intros j [<-|[]]. cbn. lia.
Qed.
Lemma busy_not_idle j : In j busy -> ~ idle j.
Proof. intros [<-|[]] (ps & [H|[H|[]]]); discriminate. Qed.
Example goal_case : match create_domain_trajectories (list string) string parse0 convert0 step0 ags rd0 [("p5.pddl", T "problem"); ("p5.solution", T "busy")] ("domain.pddl", "D") ("enhanced.pddl", "E") (mk_out _ _ [] []) with
  | Ok o => enhanced_files (list string) string ags (o_enhanced _ _ o) "p5" true prob busy [([], [("move", ["a1"]); ("load", ["a2"])], ["move"; "load"])] | Err _ => False end.
Proof.
  vm_compute create_domain_trajectories. exists busy, (flagged _ false [([], [("move", ["a1"]); ("load", ["a2"])], ["move"; "load"])]), false.
  split; [right; split; [exact busy_not_idle|reflexivity]|]. split; [reflexivity|]. split; [constructor; constructor|]. split; [intros _ (j & J & I); contradiction (busy_not_idle j J I)|]. split; [reflexivity|]. split; reflexivity.
Qed.
Example goal_missed : exists o, dict_get o "p5.trajectory" = Some (FTrajectory (list string) string (flagged _ false [([], [("move", ["a1"]); ("load", ["a2"])], ["move"; "load"])])).
Proof.
  pose proof goal_case as G. destruct (create_domain_trajectories _ _ _ _ _ _ _ _ _ _ _) as [o|]; [|destruct G]. exists (o_enhanced _ _ o).
  exact (proj2 (C104_goal_refuted _ _ ags f0 (o_enhanced _ _ o) "p5" prob busy _ sound_busy busy_not_idle eq_refl G)).
Qed.
Example stem_cases : is_stem "problem.10.x" "problem.10" /\ is_stem ".hidden" ".hidden" /\ is_stem "problem" "problem".
Proof. split; [|split]; apply C104_stem; reflexivity. Qed.
