(** * Cases of the properties of Numeric SAM, and inputs on which stronger claims are false *)
From Verif Require Import NsamModel NsamSpec StripsExec Checks SamFinal NumExamples NsamProperties Prelude PreludeProofs.
From Coq Require Import Lqa Lia.
Open Scope string_scope. Open Scope list_scope. Open Scope nat_scope.

Definition t_robot := mkType "robot" ["object"].
Definition fill_sig : signature := [("?r", t_robot)].
Definition swap_sig : signature := [("?a", t_robot); ("?b", t_robot)].
Definition nx_dom : domain :=
  mkDom [("ready", [("?r", t_robot)])] [("fuel", [("?r", t_robot)])] []
        [("fill", mkAct "fill" fill_sig [] [] []); ("swap", mkAct "swap" swap_sig [] [] [])].
Definition nx_reals : list (string * action) :=
  [("fill", mkAct "fill" fill_sig [mkLit "ready" ["?r"] true] [] [mkLit "ready" ["?r"] false]);
   ("swap", mkAct "swap" swap_sig [] [] [])].
Definition nx_data : list (Pddl.state * call) :=
  [([("ready", [["r1"]; ["r2"]])], mkCall "fill" ["r1"]); ([("ready", [["r2"]])], mkCall "fill" ["r2"])].
Definition nx_cps : list component := map (exec_comp nx_reals) nx_data.
Definition nx_fl (a b : Q) : fluents := [(("fuel", ["r1"]), a); (("fuel", ["r2"]), b)].
Definition nx_none : component := mkComp [] (mkCall "swap" ["r1"; "r1"]) [] false.
Definition nx_obs : list (list ncomponent) :=
  [[mk_ncomponent (nth 0 nx_cps nx_none) (nx_fl 1 2) (nx_fl 4 2); mk_ncomponent (nth 1 nx_cps nx_none) (nx_fl 4 2) (nx_fl 4 7)]; [mk_ncomponent nx_none [] []]].
Definition nx_fuel : term := ("fuel", ["?r"]).
Definition nx_np : numeric_part := mk_numeric_part [([((-1)%Q, [nx_fuel]); (1%Q, [])], at_most_zero)] [(nx_fuel, [(3%Q, [nx_fuel]); (1%Q, [])])].
Definition le0 : text -> text -> bool := fun _ _ => true.
Definition rank0 : list (list Q) -> nat := fun _ => 2.
Definition nx_learn relevant degree := learn_numeric_model le0 unit0 fine0 fit0 hull0 gram1 complement1 rank0 (init_nlearner nx_dom relevant false degree no_remove).

Lemma fit0_exact : exact_regression unit0 fit0. Proof. apply C37_case. Qed.
Lemma oracles0 : exact_oracles unit0 fine0 fit0 hull0 gram1 complement1.
Proof.
  constructor; [reflexivity|exists 1000000%positive; reflexivity|apply fit0_exact|apply hull0_exact|apply hull0_exact|apply basis1_exact|apply basis1_complete].
Qed.
Lemma fill_mentions t : num_mentionable nx_dom fill_sig t <-> t = nx_fuel.
Proof.
  split.
  - intros (fsig & objs & [H|[]] & S0 & ND & E & F). destruct t as (f & args). cbn in H, E. injection H as <- <-. inversion F as [|o ? os ? _ F' E1]; subst. inversion F'; subst.
    destruct (S0 o (or_introl eq_refl)) as [<-|[]]. reflexivity.
  - intros ->. exists [("?r", t_robot)], [("?r", t_robot)]. split; [left; reflexivity|]. split; [intros x X; exact X|]. split; [repeat constructor; intros []|]. split; [reflexivity|]. constructor; [reflexivity|constructor].
Qed.
Lemma nx_evidence n cp : nevidence nx_obs n cp -> n = "fill" /\ (cp = mk_ncomponent (nth 0 nx_cps nx_none) (nx_fl 1 2) (nx_fl 4 2) \/ cp = mk_ncomponent (nth 1 nx_cps nx_none) (nx_fl 4 2) (nx_fl 4 7)).
Proof. intros ([<-|[<-|[<-|[]]]] & (H & _) & <-); [split; [reflexivity|left; reflexivity]|split; [reflexivity|right; reflexivity]|discriminate]. Qed.
Lemma nx_concat cp : In cp (concat (comps nx_obs)) -> cp_ok cp = true -> In cp nx_cps.
Proof. intros [<-|[<-|[<-|[]]]] H; [left; reflexivity|right; left; reflexivity|discriminate]. Qed.
Lemma nx_input : nsam_input nx_dom nx_obs.
Proof.
  constructor.
  - apply wf_check_ok. vm_compute. reflexivity.
  - apply blank_check_ok. vm_compute. reflexivity.
  - intros f fsig [[= <- <-]|[]]. split; [reflexivity|discriminate].
  - discriminate.
  - intros cp I H. apply (proj2 (data_check_ok nx_dom nx_reals nx_data eq_refl)); [|exact H]. apply nx_concat; assumption.
  - intros cp I H. apply (noconst_check_ok nx_dom nx_reals nx_data eq_refl); [|exact H]. apply nx_concat; [exact I|apply H].
  - intros n a0 cp G V. destruct (nx_evidence _ _ V) as (-> & C). cbn in G. injection G as <-. intros t T. apply fill_mentions in T. subst t. destruct C as [-> | ->]; intros fs [-> | ->]; eexists; reflexivity.
Qed.
Lemma nx_real : real_observations unit0 nx_dom fill_sig 0 nx_np nx_obs "fill".
Proof.
  intros cp V. destruct (nx_evidence _ _ V) as (_ & C). split.
  - split.
    + intros p r [[= <- <-]|[]]. destruct C as [-> | ->]; cbn; unfold Qle; cbn; lia.
    + intros t T. apply fill_mentions in T. subst t. destruct C as [-> | ->]; reflexivity.
  - intros m (NE & W & M). destruct m as [|t m]; [congruence|]. cbn in W. assert (m = []) by (destruct m; [reflexivity|cbn in W; lia]). subst m. assert (t = nx_fuel) by (apply fill_mentions, M; left; reflexivity). subst t.
    destruct C as [-> | ->]; [apply (clean_eq (inject_Z 1))|apply (clean_eq (inject_Z 2))]; try reflexivity; apply clean_int.
Qed.
Lemma nx_expressible : expressible_part nx_dom fill_sig 0 None "fill" nx_np.
Proof.
  assert (T : forall c m, In (c, m) [((-1)%Q, [nx_fuel]); (1%Q, [])] \/ In (c, m) [(3%Q, [nx_fuel]); (1%Q, [])] -> m = [] \/ (tracked nx_dom fill_sig 0 m /\ forall m', Permutation m m' -> counts None "fill" (product_text (map term_text m')))).
  { assert (K : tracked nx_dom fill_sig 0 [nx_fuel]) by (split; [discriminate|]; split; [cbn; lia|]; intros t [<-|[]]; apply fill_mentions; reflexivity).
    intros c m H. assert (m = [nx_fuel] \/ m = []) as [-> | ->] by (destruct H as [[H|[H|[]]]|[H|[H|[]]]]; injection H as _ <-; auto); [right; split; [exact K|intros; exact Logic.I]|left; reflexivity]. }
  split.
  - intros p r [[= <- <-]|[]] c m I. apply (T c m). left. exact I.
  - intros t p [[= <- <-]|[]]. split; [apply fill_mentions; reflexivity|]. split; [exact Logic.I|]. intros c m I. apply (T c m). right. exact I.
Qed.
Definition nx_conds : list text := [form ">=" (term_text nx_fuel) [Num 1%Q]; form "<=" (term_text nx_fuel) [Num 2%Q]].
Definition nx_effs : list text := [form "increase" (term_text nx_fuel) (form "+" (form "*" (term_text nx_fuel) [Num 2%Q]) [Num 1%Q])].
Definition nx_action : action := mkAct "fill" fill_sig [mkLit "ready" ["?r"] true] [] [mkLit "ready" ["?r"] false].

Example C64_case : wf_domain nx_dom /\ dict_get (d_actions nx_dom) "swap" = Some (mkAct "swap" swap_sig [] [] []) /\
  exists m, match_state_functions nx_dom (mkCall "swap" ["r2"; "r1"]) (numeric_state_snapshot (nx_fl 1 2) (parameterized_objects nx_dom (mkAct "swap" swap_sig [] [] []) (mkCall "swap" ["r2"; "r1"]))) = Ok m /\
    dict_get m ("fuel", ["?a"]) = Some 2%Q /\ dict_get m ("fuel", ["?b"]) = Some 1%Q.
Proof. split; [apply nx_input|]. split; [reflexivity|]. eexists. split; [vm_compute; reflexivity|]. split; reflexivity. Qed.
(** All the hypotheses of C65, C66 and C67 hold; the learned numeric part is not empty and a state meets the conditions. *)
Example C65_case : nsam_input nx_dom nx_obs /\ exact_oracles unit0 fine0 fit0 hull0 gram1 complement1 /\ real_domain nx_dom (dict_get nx_reals) /\
  real_components (dict_get nx_reals) (concat (comps nx_obs)) /\ expressible_part nx_dom fill_sig 0 None "fill" nx_np /\ real_observations unit0 nx_dom fill_sig 0 nx_np nx_obs "fill" /\
  exists N, nx_learn None 0 nx_obs = Ok (N, [("fill", nv_ok)]) /\ dict_get (d_actions (s_dom (n_sam N))) "fill" = Some nx_action /\ dict_get (n_numeric N) "fill" = Some (nx_conds, nx_effs) /\
  forall t, In t nx_conds -> satisfied (fun _ _ => (3 # 2)%Q) t.
Proof.
  split; [apply nx_input|]. split; [apply oracles0|]. split; [apply real_check_ok; vm_compute; reflexivity|].
  split; [intros cp I H; apply (proj1 (data_check_ok nx_dom nx_reals nx_data eq_refl)); [|exact H]; apply nx_concat; assumption|].
  split; [apply nx_expressible|]. split; [apply nx_real|]. eexists. split; [vm_compute; reflexivity|]. split; [vm_compute; reflexivity|]. split; [vm_compute; reflexivity|].
  intros t [<-|[<-|[]]]; do 5 eexists; (split; [reflexivity|]); (split; [reflexivity|]); (split; [reflexivity|]); [right; left|left]; split; first [reflexivity|discriminate].
Qed.
(** More observations of another action change nothing for "fill". *)
Definition nx_swap : ncomponent := mk_ncomponent (mkComp [] (mkCall "swap" ["r1"; "r2"]) [] true) (nx_fl 1 2) (nx_fl 5 2).
Lemma swap_mentions t : num_mentionable nx_dom swap_sig t -> t = ("fuel", ["?a"]) \/ t = ("fuel", ["?b"]).
Proof.
  intros (fsig & objs & [H|[]] & S0 & ND & E & F). destruct t as (f & args). cbn in H, E. injection H as <- <-. inversion F as [|o ? os ? _ F' E1]; subst. inversion F'; subst.
  destruct (S0 o (or_introl eq_refl)) as [<-|[<-|[]]]; auto.
Qed.
Lemma nx_input_more obs : (forall cp, In cp (concat obs) -> In cp (concat nx_obs) \/ cp = nx_swap) -> nsam_input nx_dom obs.
Proof.
  intros H. assert (C : forall c, In c (concat (comps obs)) -> In c (concat (comps nx_obs)) \/ c = nc_comp nx_swap).
  { intros c I. unfold comps in I |- *. rewrite <- concat_map in I |- *. apply in_map_iff in I. destruct I as (cp & <- & I). destruct (H cp I) as [I' | ->]; [left; apply in_map; exact I'|right; reflexivity]. }
  pose proof nx_input as X. constructor; try apply X.
  - intros cp I O. destruct (C cp I) as [I' | ->]; [apply (in_calls _ _ X); assumption|]. exists (mkAct "swap" swap_sig [] [] []). split; reflexivity.
  - intros cp I O. destruct (C cp I) as [I' | ->]; [apply (in_constants _ _ X); assumption|]. intros x Y [].
  - intros n a0 cp G (I & L & E). destruct (H cp I) as [I' | ->]; [eapply (in_complete _ _ X); [exact G|split; [exact I'|split; assumption]]|]. subst n. cbn in G. injection G as <-. intros t T.
    apply swap_mentions in T. destruct T as [-> | ->]; intros fs [-> | ->]; eexists; reflexivity.
Qed.
Definition nx_some : option (list (string * list text)) := Some [("fill", [term_text nx_fuel]); ("swap", [term_text ("fuel", ["?a"])])].
Definition nx_more : list (list ncomponent) := [nx_swap] :: nx_obs.
Example C67_case : nsam_input nx_dom nx_obs /\ nsam_input nx_dom nx_more /\ of_action "fill" nx_obs = of_action "fill" nx_more /\ length (of_action "fill" nx_more) = 2 /\
  (exists N1, nx_learn nx_some 0 nx_obs = Ok (N1, [("fill", nv_ok)])) /\ (exists N2, nx_learn nx_some 0 nx_more = Ok (N2, [("fill", nv_ok); ("swap", nv_ok)])).
Proof.
  split; [apply nx_input|]. split; [apply nx_input_more; intros cp [<-|I]; [right; reflexivity|left; exact I]|].
  split; [rewrite !NsamOwn.of_action_evid; reflexivity|]. split; [rewrite NsamOwn.of_action_evid; reflexivity|].
  split; eexists; vm_compute; reflexivity.
Qed.

(** ** What is not true *)
(** SAM adds an inequality for each pair of parameters that it saw with different objects only; Numeric SAM loses them: the learned
    action is applicable with the same object twice. *)
Theorem C67_inequalities_lost_refuted : exists dom relevant obs N report L rep n a b sg s, nsam_input dom obs /\
  learn_numeric_model le0 unit0 fine0 fit0 hull0 gram1 complement1 rank0 (init_nlearner dom relevant false 0 no_remove) obs = Ok (N, report) /\
  learn_action_model (init_learner dom no_remove true) (comps obs) = Ok (L, rep) /\
  dict_get (d_actions (s_dom (n_sam N))) n = Some a /\ dict_get (d_actions (s_dom L)) n = Some b /\ applicable a sg s /\ ~ applicable b sg s.
Proof.
  exists nx_dom, nx_some, [[nx_swap]]. do 4 eexists. exists "swap". do 2 eexists. exists (fun _ => "r1"), ([] : Pddl.state).
  split; [apply nx_input_more; intros cp [<-|[]]; right; reflexivity|]. split; [vm_compute; reflexivity|]. split; [vm_compute; reflexivity|]. split; [vm_compute; reflexivity|]. split; [vm_compute; reflexivity|].
  split.
  - split; [|intros x y []]. intros l M. cbn in M. destruct M as [<-|[<-|[]]]; intros (x & H & _); discriminate H.
  - intros (_ & H). apply (H "?a" "?b"); [left; reflexivity|reflexivity].
Qed.
(** An action that can mention no function stops the whole run. *)
Theorem C65_no_functions_refuted : exists dom obs, nsam_input dom obs /\
  learn_numeric_model le0 unit0 fine0 fit0 hull0 gram1 complement1 rank0 (init_nlearner dom None false 0 no_remove) obs = Err AttributeError.
Proof.
  exists (mkDom [] [("fuel", [("?r", t_robot)])] [] [("wait", mkAct "wait" [] [] [] [])]), [[mk_ncomponent (mkComp [] (mkCall "wait" []) [] true) (nx_fl 1 2) (nx_fl 1 2)]].
  split; [|vm_compute; reflexivity]. constructor.
  - apply wf_check_ok. vm_compute. reflexivity.
  - apply blank_check_ok. vm_compute. reflexivity.
  - intros f fsig [[= <- <-]|[]]. split; [reflexivity|discriminate].
  - discriminate.
  - intros cp [<-|[]] _. exists (mkAct "wait" [] [] [] []). split; reflexivity.
  - intros cp [<-|[]] _ x [].
  - intros n a0 cp G ([<-|[]] & _ & <-). cbn in G. injection G as <-. intros t (fsig & objs & [H|[]] & S0 & _ & _ & F). injection H as _ <-. inversion F as [|o ? os ? _ _ E]; subst. destruct (S0 o (or_introl eq_refl)).
Qed.
