(** * Cases of the properties of online exploration and solving, and inputs on which stronger claims are false *)
From Verif Require Import NoamSpec NoamProperties NoamSolve OnumExamples StripsExec Checks SamFinal NumProofs NumExamples IncExamples NsamExamples SvmExamples Prelude PreludeProofs.
From Coq Require Import Lqa Lia.
Open Scope string_scope. Open Scope list_scope. Open Scope nat_scope.

(** ** Robots that are filled; a robot needs one unit of fuel and to be ready *)
Definition fluent (w : world) (f : string) (args : list string) : Q := fluents_state (snd w) f args.
Definition fill_real : action := mkAct "fill" fill_sig [mkLit "ready" ["?r"] true] [] [mkLit "ready" ["?r"] false].
Definition robot_apply (c : call) (w : world) : res world :=
  if String.eqb (c_name c) "fill" then
    let sg := call_assignment fill_sig c in let o := sg "?r" in
    if lit_trueb (fst w) (mkLit "ready" [o] true) && Qle_bool 1 (fluent w "fuel" [o])
    then Ok (exec fill_real sg (fst w), dict_set (snd w) ("fuel", [o]) (3 * fluent w "fuel" [o] + 1)%Q) else Err ValueError
  else if String.eqb (c_name c) "swap" then Ok w else Err KeyError.
Definition robot_goal (w : world) : res bool := Ok (negb (lit_trueb (fst w) (mkLit "ready" ["r1"] true))).
Definition robot_env : environment := mk_env ["fill"; "swap"] robot_apply [mkCall "swap" ["r1"; "r1"]; mkCall "fill" ["r2"]; mkCall "swap" ["r1"; "r2"]; mkCall "fill" ["r1"]] robot_goal.
Definition robots : world := ([("ready", [["r1"]; ["r2"]])], nx_fl 1 2).
Definition robot_problem : problem := mk_problem "robots" robots robot_env.
Lemma on_real_cases n r np : on_real n = Some (r, np) -> (n = "fill" /\ r = fill_real /\ np = nx_np) \/ (n = "swap" /\ r = mkAct "swap" swap_sig [] [] [] /\ np = mk_numeric_part [] []).
Proof. intros G. apply dict_get_In in G. destruct G as [G|[G|[]]]; injection G as <- <- <-; auto. Qed.
Lemma robots_real : real_environment nx_dom on_real robot_env.
Proof.
  constructor.
  - intros n I. exact I.
  - intros c w w' A. cbn in A. unfold robot_apply in A. destruct (String.eqb (c_name c) "fill") eqn:F.
    + apply String.eqb_eq in F. destruct (lit_trueb _ _ && _) eqn:B in A; [|discriminate]. injection A as <-. apply andb_true_iff in B. destruct B as (B1 & B2). exists fill_real, nx_np. cbn [transition nc_comp cp_call]. rewrite F.
      split; [reflexivity|]. cbv zeta. cbn [cp_prev cp_next fst]. split; [intros l [<-|[]]; apply lit_trueb_true; exact B1|]. split; [apply exec_result|]. split.
      * intros p q [[= <- <-]|[]]. apply Qle_bool_iff in B2. cbn. unfold fluent in B2. unfold num_before, lifted_state. cbn. unfold term_value. cbn [nx_fuel fst snd map]. lra.
      * intros t T. apply fill_mentions in T. subst t. set (o := call_assignment fill_sig c "?r") in *. set (v := fluent w "fuel" [o]) in *.
        assert (E : fluents_state (dict_set (snd w) ("fuel", [o]) (3 * v + 1)%Q) "fuel" [o] = (3 * v + 1)%Q) by (unfold fluents_state; rewrite dict_get_set; match goal with |- context [if ?d then _ else _] => destruct d as [_|NE] end; [reflexivity|congruence]).
        change (fluents_state (dict_set (snd w) ("fuel", [o]) (3 * v + 1)%Q) "fuel" [o] == 3 * (v * 1) + (1 * 1 + 0))%Q. rewrite E. ring.
    + destruct (String.eqb (c_name c) "swap") eqn:S0; [|discriminate]. injection A as <-. apply String.eqb_eq in S0. exists (mkAct "swap" swap_sig [] [] []), (mk_numeric_part [] []). cbn [transition nc_comp cp_call]. rewrite S0. split; [reflexivity|]. cbv zeta. split; [intros l []|]. split.
      * intros p args. unfold after. cbn. split; [intros H; right; split; [exact H|intros (l & [] & _)]|intros [(l & [] & _)|(H & _)]; exact H].
      * split; [intros p q []|]. intros t T. unfold num_behind, num_before, num_after. cbn. reflexivity.
  - intros c w w' r np A ER f objs NM. cbn in A. unfold robot_apply in A. destruct (String.eqb (c_name c) "fill") eqn:F.
    + apply String.eqb_eq in F. rewrite F in ER. injection ER as <- <-. destruct (lit_trueb _ _ && _) in A; [|discriminate]. injection A as <-. cbn [snd]. unfold fluents_state at 1. rewrite dict_get_set. match goal with |- context [if ?d then _ else _] => destruct d as [E|NE] end; [|reflexivity]. exfalso. injection E as E1 E2. eapply (NM nx_fuel); [|symmetry; exact E1|].
      * exists [("?r", t_robot)], [("?r", t_robot)]. split; [left; reflexivity|]. split; [intros x X; exact X|]. split; [repeat constructor; intros []|]. split; [reflexivity|]. repeat constructor.
      * symmetry. exact E2.
    + destruct (String.eqb (c_name c) "swap"); [|discriminate]. injection A as <-. reflexivity.
  - intros c w r np ER. cbv zeta. intros PRE NUM. destruct (on_real_cases _ _ _ ER) as [(EN & -> & ->)|(EN & -> & ->)]; cbn; unfold robot_apply; rewrite EN; cbn [String.eqb Ascii.eqb Bool.eqb].
    + specialize (PRE _ (or_introl eq_refl)). specialize (NUM _ _ (or_introl eq_refl)). apply lit_trueb_true in PRE. set (o := call_assignment fill_sig c "?r") in *. set (v := fluent w "fuel" [o]) in *.
      change (lit_trueb (fst w) (mkLit "ready" [o] true) = true) in PRE. change (-1 * (v * 1) + (1 * 1 + 0) <= 0)%Q in NUM. assert (B : Qle_bool 1 v = true) by (apply Qle_bool_iff; lra). rewrite PRE, B. eexists. reflexivity.
    + eexists. reflexivity.
Qed.

(** ** A run *)
Definition rd0 : random := mk_random (fun _ l _ n => if n <=? length l then Ok (firstn n l) else Err ValueError) (fun _ l => rev l) (fun _ _ => 0).
Lemma fair0 : fair rd0.
Proof.
  constructor; [intros i l; apply Permutation_sym, Permutation_rev|]. intros i l ps n l' E. cbn in E. destruct (n <=? length l) eqn:B; [|discriminate]. injection E as <-. apply Nat.leb_le in B. split; [apply firstn_length_le; exact B|]. exists (skipn n l). rewrite firstn_skipn. apply Permutation_refl.
Qed.
Definition no_solver : solver := fun _ _ => (st_no_solution, []).
Definition planner (plan : list call) : solver := fun _ _ => (st_ok, plan).
Definition nrun starvation k solvers ops := noam_run le0 unit0 fine0 fit0 hull0 schmidt0 rank0 svm_on 10 false nx_dom rd0 starvation 20 100 k (Some solvers) 0 ops.
Definition ops0 : list noam_op := [op_train (nth 0 on_traces []); op_train (nth 1 on_traces [])].
Definition ops1 := ops0 ++ [op_solve robot_problem 5].
Definition after_run starvation k solvers ops : noam := match nrun starvation k solvers ops with Ok (M, _) => M | Err _ => init_noam le0 nx_dom 0 end.
Definition M0 := after_run 1000 noam_learner [no_solver] ops0.
Definition calls (M : noam) : list (call * bool) := map (fun s => (es_call s, es_ok s)) (r_traj world call (nm_rec M)).
Definition nexplore M k E w total := explore unit0 fit0 hull0 schmidt0 nx_dom rd0 1000 20 k E M w total.
Lemma sets0 : ground_sets (ops1 ++ ops1).
Proof. intros P total I. cbn in I. repeat (destruct I as [I|I]; [try discriminate I; injection I as <- <-; cbn; repeat constructor; cbn; intuition discriminate|]). destruct I. Qed.
Lemma sets_incl ops : incl ops (ops1 ++ ops1) -> ground_sets ops.
Proof. intros H P total I. exact (sets0 P total (H _ I)). Qed.
Lemma run0 : nrun 1000 noam_learner [no_solver] ops0 = Ok (M0, []).
Proof. vm_compute. reflexivity. Qed.
Lemma sets_ops0 : ground_sets ops0.
Proof. apply sets_incl. intros o O. apply in_or_app. left. apply in_or_app. left. exact O. Qed.
(** Four actions, one of which failed; the third one that succeeded reached the goal. *)
Example C83_case : fair rd0 /\ nrun 1000 noam_learner [no_solver] ops0 = Ok (M0, []) /\ ground_sets ops0 /\ NoDup (en_actions robot_env) /\
  exists M, nexplore M0 noam_learner robot_env robots 5 = Ok (M, (true, 3)) /\ calls M = [(mkCall "fill" ["r2"], true); (mkCall "swap" ["r1"; "r2"], true); (mkCall "fill" ["r2"], false); (mkCall "fill" ["r1"], true)].
Proof.
  split; [apply fair0|]. split; [apply run0|]. split; [apply sets_ops0|]. split; [exact (sets0 robot_problem 5 ltac:(cbn; tauto))|].
  eexists. split; vm_compute; reflexivity.
Qed.
(** Only one robot can be filled, once: a dead end after the first step. *)
Definition stuck_env : environment := mk_env ["fill"; "swap"] robot_apply [mkCall "fill" ["r2"]] robot_goal.
Example C83_stuck_case : exists M, nexplore M0 noam_learner stuck_env robots 5 = Ok (M, (false, 5)) /\ calls M = [(mkCall "fill" ["r2"], true); (mkCall "fill" ["r2"], false); (mkCall "fill" ["r2"], false)].
Proof. eexists. split; vm_compute; reflexivity. Qed.
Example C83_retries_case : exists M c ok w', retry unit0 fit0 hull0 schmidt0 nx_dom rd0 1000 2 noam_learner robot_env 1 M0 robots (mkCall "fill" ["r2"], false, robots) [mkCall "fill" ["r2"]; mkCall "fill" ["r1"]] = Ok (M, (c, ok, w')) /\ ok = true.
Proof. do 4 eexists. split; vm_compute; reflexivity. Qed.
(** The goal of the first state is not looked at: an action is executed although nothing needs to be done. *)
Definition done_world : world := ([("ready", [["r2"]])], nx_fl 1 2).
Theorem C83_initial_goal_refuted : en_goal robot_env done_world = Ok true /\ (exists M, nexplore M0 noam_learner robot_env done_world 0 = Ok (M, (false, 0))) /\
  exists M', nexplore M0 noam_learner robot_env done_world 5 = Ok (M', (true, 1)).
Proof. split; [reflexivity|]. split; eexists; vm_compute; reflexivity. Qed.

(** ** What was learned *)
Definition filled : ncomponent := transition robots (mkCall "fill" ["r1"]) ([("ready", [["r2"]])], nx_fl (3 * 1 + 1) 2) true.
Definition tss1 : list (list (list ncomponent)) := [[nth 0 on_traces []]; [nth 1 on_traces []]; [[filled]]].
Definition M2 := after_run 1000 noam_learner [no_solver; planner [mkCall "fill" ["r1"]]] ops1.
Lemma robots_input traces : (forall cp, In cp (concat traces) -> In cp (filled :: concat on_traces)) -> online_input unit0 fit0 le0 nx_dom 0 traces.
Proof.
  intros INC. assert (CC : forall cp, In cp (concat traces) -> c_name (cp_call (nc_comp cp)) = "fill" /\ (exists r, c_params (cp_call (nc_comp cp)) = [r] /\ (r = "r1" \/ r = "r2")) /\ exists p q p' q', nc_prev cp = nx_fl p q /\ nc_next cp = nx_fl p' q').
  { intros cp I. apply INC in I. destruct I as [<-|I]; [|exact (on_concat cp I)]. split; [reflexivity|]. split; [eexists; split; [reflexivity|auto]|]. do 4 eexists. split; reflexivity. }
  constructor.
  - apply nx_input.
  - apply nx_input.
  - intros cp I. destruct (CC cp I) as (EN & (r & EP & _) & _). split; [|intros x X []]. exists (mkAct "fill" fill_sig [] [] []). rewrite EN, EP. split; reflexivity.
  - intros cp a I G t T. destruct (CC cp I) as (EN & (r & EP & ER) & (p & q & p' & q' & E1 & E2)). rewrite EN in G. injection G as <-. apply fill_mentions in T. subst t. rewrite E1, E2. cbn [fst snd nx_fuel map].
    assert (X : call_assignment fill_sig (cp_call (nc_comp cp)) "?r" = r) by (unfold call_assignment; rewrite EP; reflexivity). cbn [a_sig]. rewrite X.
    intros fs [-> | ->]; destruct ER as [-> | ->]; eexists; reflexivity.
  - intros n a G. destruct (on_names n a G) as [(-> & ->)|(-> & ->)].
    + assert (VAL : forall st m, In st (map (num_before fill_sig) (of_action "fill" traces)) -> of_terms (lifted_functions_vocabulary nx_dom fill_sig None) 0 m -> (product_value st m == 1)%Q \/ (product_value st m == 2)%Q).
      { intros st m I M. apply fill_terms in M. subst m. apply in_map_iff in I. destruct I as (cp & <- & I). rewrite OnumTrain.of_action_evid in I. apply filter_In in I. destruct I as (I & B). apply INC in I. destruct I as [<-|[<-|[<-|[<-|[]]]]]; [left|left|right|discriminate B]; reflexivity. }
      constructor.
      * intros st m I M. destruct (VAL st m I M) as [E|E]; [apply (clean_eq (inject_Z 1))|apply (clean_eq (inject_Z 2))]; try (rewrite E; reflexivity); apply clean_int.
      * intros st st' m I I' M. destruct (VAL st m I M) as [E|E], (VAL st' m I' M) as [E'|E']; [apply (clean_eq (inject_Z 0))|apply (clean_eq (inject_Z (-1)))|apply (clean_eq (inject_Z 1))|apply (clean_eq (inject_Z 0))]; try (rewrite E, E'; reflexivity); apply clean_int.
      * intros k d C ST others f NE ND IN NI _ _. exfalso. rewrite C in IN. destruct others as [|g others]; [congruence|]. assert (F : In f [term_text nx_fuel]) by (apply IN; left; reflexivity). assert (G0 : In g [term_text nx_fuel]) by (apply IN; right; left; reflexivity).
        destruct F as [F|[]], G0 as [G0|[]]. apply NI. left. congruence.
    + replace (of_action "swap" traces) with (@nil ncomponent).
      * constructor; [intros st m []|intros st st' m []|]. intros k d C (_ & _ & ST & _) others f _ _ _ _ NC. exfalso. apply (NC f (or_introl eq_refl)). exists 0%Q. intros x X. unfold column in X. apply in_map_iff in X. destruct X as (r & _ & R).
        destruct (ST r R) as (p & P & _). destruct k; destruct P.
      * symmetry. destruct (of_action "swap" traces) as [|cp l] eqn:E; [reflexivity|]. exfalso. assert (I : In cp (of_action "swap" traces)) by (rewrite E; left; reflexivity). rewrite OnumTrain.of_action_evid in I. apply filter_In in I. destruct I as (I & B).
        apply INC in I. destruct I as [<-|[<-|[<-|[<-|[]]]]]; discriminate B.
Qed.
Lemma filled_run : plan_run robot_env robots [mkCall "fill" ["r1"]] [filled] (fst (last_state (([], []) : world) [([("ready", [["r2"]])], nx_fl (3 * 1 + 1) 2)]), nx_fl (3 * 1 + 1) 2) true.
Proof. apply (plan_go robot_env robots (mkCall "fill" ["r1"]) ([("ready", [["r2"]])], nx_fl (3 * 1 + 1) 2) [] []); [|constructor]. split; [left; reflexivity|vm_compute; reflexivity]. Qed.
Lemma learned1 : Forall2 learned_from ops1 tss1.
Proof.
  constructor; [reflexivity|]. constructor; [reflexivity|]. constructor; [|constructor]. exists [[filled]], []. split; [reflexivity|]. split; [cbn; lia|]. split; [|split; [cbn; lia|constructor]].
  constructor; [|constructor]. eexists _, _, _. exact filled_run.
Qed.
Lemma learned0 : Forall2 learned_from ops0 [[nth 0 on_traces []]; [nth 1 on_traces []]].
Proof. repeat constructor. Qed.
Lemma real1 : real_ops nx_dom on_real ops1.
Proof.
  split.
  - intros t cp I C OK. assert (J : In cp (of_action "fill" on_traces)).
    { rewrite OnumTrain.of_action_evid. apply filter_In. cbn in I. destruct I as [I|[I|[I|[]]]]; try discriminate I; injection I as <-; [destruct C as [<-|[<-|[]]]|destruct C as [<-|[]]; discriminate OK]; split; try reflexivity; cbn; tauto. }
    apply on_success. exact J.
  - intros P total I. cbn in I. destruct I as [I|[I|[I|[]]]]; try discriminate I. injection I as <- <-. exact robots_real.
Qed.
Lemma real0 : real_ops nx_dom on_real ops0.
Proof. split; [intros t cp I; apply (proj1 real1); apply in_or_app; left; exact I|]. intros P total [I|[I|[]]]; discriminate I. Qed.
(** The plan of the solver, executed and learned from. *)
Example C84_case : nrun 1000 noam_learner [no_solver; planner [mkCall "fill" ["r1"]]] ops1 = Ok (M2, [(true, 1)]) /\ ground_sets ops1 /\ Forall2 learned_from ops1 tss1 /\
  numeric_train le0 unit0 fit0 hull0 schmidt0 nx_dom 0 (concat tss1) = Ok (nm_learners M2).
Proof. split; [vm_compute; reflexivity|]. split; [apply sets_incl; intros o O; apply in_or_app; left; exact O|]. split; [apply learned1|vm_compute; reflexivity]. Qed.
Example C84_safe_case : fair rd0 /\ real_ops nx_dom on_real ops1 /\ exact_libraries unit0 fit0 hull0 schmidt0 /\ real_numeric_actions nx_dom 0 on_real /\ (exists j, fine0 = (unit0 * j)%positive) /\ exact_regression unit0 fit0 /\
  online_input unit0 fit0 le0 nx_dom 0 (concat tss1) /\ of_action "fill" (concat tss1) <> [] /\
  exists model e, construct_safe_action_model unit0 fine0 fit0 rank0 false nx_dom (nm_learners M2) = Ok model /\ dict_get model "fill" = Some e /\ length (ex_conditions e) = 2.
Proof.
  split; [apply fair0|]. split; [apply real1|]. split; [apply libraries1|]. split; [apply on_actions|]. split; [exists 1000000%positive; reflexivity|]. split; [apply fit0_exact|].
  split; [apply robots_input; intros cp I; cbn in I |- *; tauto|]. split; [rewrite OnumTrain.of_action_evid; discriminate|]. do 2 eexists. split; [vm_compute; reflexivity|]. split; reflexivity.
Qed.

(** ** Selection *)
Definition M3 := after_run 1000 noam_learner [no_solver] ops1.
Definition M4 := after_run 1 noam_learner [no_solver] (ops1 ++ ops1).
Definition informative M w c := is_informative unit0 fit0 hull0 schmidt0 nx_dom M w c.
Definition nchoose starvation M w frontier := choose unit0 fit0 hull0 schmidt0 nx_dom rd0 starvation M w frontier.
Definition calls0 : list call := [mkCall "fill" ["r2"]; mkCall "swap" ["r1"; "r2"]; mkCall "fill" ["r1"]].
(** Nothing starves: the first action is skipped since it is known to succeed. *)
Example C85_case : (exists M, nchoose 1000 M3 robots calls0 = Ok (M, mkCall "swap" ["r1"; "r2"], [mkCall "fill" ["r1"]])) /\
  map (informative M3 robots) calls0 = [Ok false; Ok true; Ok false] /\
  (exists M, nchoose 1000 M0 robots calls0 = Ok (M, mkCall "fill" ["r2"], [mkCall "swap" ["r1"; "r2"]; mkCall "fill" ["r1"]])) /\ starving 1000 M0 "fill".
Proof. split; [eexists; vm_compute; reflexivity|]. split; [vm_compute; reflexivity|]. split; [eexists; vm_compute; reflexivity|]. intros j. vm_compute. discriminate. Qed.
Example C85_starvation_case : (exists rs, nrun 1 noam_learner [no_solver] (ops1 ++ ops1) = Ok (M4, rs)) /\ ground_sets (ops1 ++ ops1) /\ (forall P total, In (op_solve P total) (ops1 ++ ops1) -> total <= 5) /\ 1 + 5 <= nm_global M4.
Proof.
  split; [eexists; vm_compute; reflexivity|]. split; [apply sets0|]. split; [|vm_compute; lia]. intros P total I. cbn in I. repeat (destruct I as [I|I]; [try discriminate I; injection I as <- <-; lia|]). destruct I.
Qed.
(** In the end an action that is known to succeed is executed again although there is an informative one. *)
Theorem C85_informative_refuted : exists M rs, nrun 1 noam_learner [no_solver] (ops1 ++ ops1) = Ok (M, rs) /\ (exists M' rest, nchoose 1 M robots calls0 = Ok (M', mkCall "fill" ["r2"], rest)) /\
  informative M robots (mkCall "fill" ["r2"]) = Ok false /\ informative M robots (mkCall "swap" ["r1"; "r2"]) = Ok true.
Proof. do 2 eexists. split; [vm_compute; reflexivity|]. split; [do 2 eexists; vm_compute; reflexivity|]. split; vm_compute; reflexivity. Qed.

(** ** Plans *)
Definition model0 : list (string * exported) := match construct_safe_action_model unit0 fine0 fit0 rank0 false nx_dom (nm_learners M0) with Ok m => m | Err _ => [] end.
Lemma guarded0 traces : guarded nx_dom traces.
Proof.
  intros n a G. right. destruct (on_names n a G) as [(_ & ->)|(_ & ->)].
  - exists (mkLit "ready" ["?r"] true), [("?r", t_robot)], [("?r", t_robot)]. split; [left; reflexivity|]. split; [intros x X; exact X|]. split; [repeat constructor; intros []|]. split; [reflexivity|]. repeat constructor.
  - exists (mkLit "ready" ["?a"] true), [("?r", t_robot)], [("?a", t_robot)]. split; [left; reflexivity|]. split; [intros x [<-|[]]; left; reflexivity|]. split; [repeat constructor; intros []|]. split; [reflexivity|]. repeat constructor.
Qed.
Lemma solution : plan_solves nx_dom model0 robot_env robots [mkCall "fill" ["r1"]].
Proof.
  do 2 eexists. split; [reflexivity|]. split; [vm_compute; reflexivity|]. split; [reflexivity|]. split; [repeat constructor; intros []|]. split; [intros x X []|]. split.
  - split.
    + intros f [<-|[]]. apply lit_trueb_true. reflexivity.
    + intros t [<-|[<-|[]]]; do 5 eexists; (split; [vm_compute; reflexivity|]); (split; [vm_compute; reflexivity|]); (split; [vm_compute; reflexivity|]); [right; left|left]; (split; [reflexivity|]); unfold Qle; cbn; lia.
  - intros w1 (H & _). cbn. unfold robot_goal. f_equal. apply negb_true_iff. destruct (lit_trueb (fst w1) (mkLit "ready" ["r1"] true)) eqn:E; [|reflexivity]. exfalso. apply lit_trueb_true in E. apply H in E. destruct E as [(l & [<-|[]] & P & _)|(_ & N)]; [discriminate P|].
    apply N. eexists. split; [left; reflexivity|]. split; reflexivity.
Qed.
Definition ntry M k solvers P total := try_to_solve unit0 fine0 fit0 hull0 schmidt0 rank0 svm_on 10 false nx_dom rd0 1000 20 100 k (Some solvers) P M total.
Example C86_case : nrun 1000 noam_learner [no_solver] ops0 = Ok (M0, []) /\ real_ops nx_dom on_real ops0 /\ Forall2 learned_from ops0 [[nth 0 on_traces []]; [nth 1 on_traces []]] /\ on_train on_traces = Ok (nm_learners M0) /\
  online_input unit0 fit0 le0 nx_dom 0 on_traces /\ construct_safe_action_model unit0 fine0 fit0 rank0 false nx_dom (nm_learners M0) = Ok model0 /\
  real_environment nx_dom on_real (pr_env robot_problem) /\ guarded nx_dom on_traces /\ plan_solves nx_dom model0 (pr_env robot_problem) (pr_init robot_problem) [mkCall "fill" ["r1"]] /\
  online_input unit0 fit0 le0 nx_dom 0 (on_traces ++ [[filled]]) /\
  exists M, ntry M0 noam_learner [no_solver; planner [mkCall "fill" ["r1"]]] robot_problem 5 = Ok (M, (true, 1)).
Proof.
  split; [apply run0|]. split; [apply real0|]. split; [apply learned0|]. split; [vm_compute; reflexivity|]. split; [apply on_input|]. split; [vm_compute; reflexivity|]. split; [apply robots_real|]. split; [apply guarded0|]. split; [apply solution|].
  split; [apply robots_input; intros cp I; cbn in I |- *; tauto|]. eexists. vm_compute. reflexivity.
Qed.
(** The real domain says that the two robots of a swap differ; the exported one does not, and a plan that swaps a robot with itself raises. *)
Definition strict_apply (c : call) (w : world) : res world := if contains_duplicates (c_params c) then Err ValueError else robot_apply c w.
Definition strict_env : environment := mk_env ["fill"; "swap"] strict_apply [mkCall "fill" ["r2"]; mkCall "swap" ["r1"; "r2"]; mkCall "fill" ["r1"]] robot_goal.
Definition equal_robots : world := ([("ready", [["r1"]; ["r2"]])], nx_fl 1 1).
Definition swapped_equal : ncomponent := transition equal_robots (mkCall "swap" ["r1"; "r2"]) equal_robots true.
Definition M5 := after_run 1000 noam_learner [no_solver] [op_train [swapped_equal]].
Definition strict_problem : problem := mk_problem "strict" equal_robots strict_env.
Theorem C86_repeated_refuted : exists M model e, nrun 1000 noam_learner [no_solver] [op_train [swapped_equal]] = Ok (M, []) /\ component_happened strict_env swapped_equal /\
  construct_safe_action_model unit0 fine0 fit0 rank0 false nx_dom (nm_learners M) = Ok model /\ dict_get model "swap" = Some e /\
  export_applicable e (call_assignment swap_sig (mkCall "swap" ["r1"; "r1"])) (fst equal_robots) (fluents_state (snd equal_robots)) /\
  ntry M noam_learner [planner [mkCall "swap" ["r1"; "r1"]]] strict_problem 5 = Err ValueError.
Proof.
  do 3 eexists. split; [vm_compute; reflexivity|]. split; [split; [right; left; reflexivity|reflexivity]|]. split; [vm_compute; reflexivity|]. split; [reflexivity|]. split; [|vm_compute; reflexivity]. split.
  - intros f [<-|[<-|[]]]; apply lit_trueb_true; reflexivity.
  - intros t [<-|[<-|[]]]; do 5 eexists; (split; [vm_compute; reflexivity|]); (split; [vm_compute; reflexivity|]); (split; [vm_compute; reflexivity|]); right; right; split; reflexivity.
Qed.
(** A plan that stops at an inapplicable action counts as a solution if the goal happens to hold where it stopped. *)
Theorem C84_stopped_refuted : exists M M' t w, nrun 1000 noam_learner [no_solver] ops0 = Ok (M, []) /\
  ntry M optimistic_explorer [planner [mkCall "fill" ["r1"]; mkCall "fill" ["r1"]; mkCall "fill" ["r2"]]] robot_problem 5 = Ok (M', (true, 2)) /\
  plan_run robot_env robots [mkCall "fill" ["r1"]; mkCall "fill" ["r1"]; mkCall "fill" ["r2"]] t w false.
Proof.
  do 4 eexists. split; [vm_compute; reflexivity|]. split; [vm_compute; reflexivity|]. eapply plan_go; [split; [left; reflexivity|vm_compute; reflexivity]|]. apply plan_stop. split; [left; reflexivity|]. split; [vm_compute; reflexivity|reflexivity].
Qed.
(** An empty plan that does not reach the goal raises. *)
Theorem C84_empty_plan_refuted : exists M, nrun 1000 noam_learner [no_solver] ops0 = Ok (M, []) /\ forall k, ntry M k [planner []] robot_problem 5 = Err IndexError.
Proof. eexists. split; [vm_compute; reflexivity|]. intros []; vm_compute; reflexivity. Qed.

Print Assumptions C83_initial_goal_refuted. Print Assumptions C84_stopped_refuted. Print Assumptions C84_empty_plan_refuted. Print Assumptions C85_informative_refuted. Print Assumptions C86_repeated_refuted.
