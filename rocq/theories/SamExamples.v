(** * Concrete cases for C01-C19: hypotheses are satisfiable, and the limits of the claims

    Part 1 shows a domain with a constant, sub-types, negative preconditions, a failed and a
    duplicate-argument component that meets the hypotheses of the theorems of SamProperties.v.
    Part 2 shows inputs on which the unrestricted claims are false of the code ([..._refuted]). *)
From Verif Require Import PreludeProofs SamModel SamSpec StripsExec VocabProofs Checks SamFinal.
Open Scope string_scope.

(** ** Part 1 *)
Definition t_object := mkType "object" [].
Definition t_pkg := mkType "pkg" ["object"].
Definition t_loc := mkType "loc" ["object"].
Definition t_hub := mkType "hub" ["loc"; "object"].

Definition move_sig : signature := [("?p", t_pkg); ("?from", t_loc); ("?to", t_loc)].
Definition scan_sig : signature := [("?p", t_pkg)].
Definition empty_act (n : string) (s : signature) : action := mkAct n s [] [] [].

Definition ex_dom : domain :=
  mkDom [("at", [("?x", t_pkg); ("?y", t_loc)]); ("open", [("?y", t_loc)])] [] [("depot", t_hub)]
        [("move", empty_act "move" move_sig); ("scan", empty_act "scan" scan_sig)].

Definition ex_reals : list (string * action) :=
  [("move", mkAct "move" move_sig
      [mkLit "at" ["?p"; "?from"] true; mkLit "at" ["?p"; "?to"] false; mkLit "open" ["depot"] true] []
      [mkLit "at" ["?p"; "?to"] true; mkLit "at" ["?p"; "?from"] false]);
   ("scan", mkAct "scan" scan_sig [mkLit "at" ["?p"; "depot"] true] [] [mkLit "open" ["depot"] false])].

Definition ex_s1 : state := [("at", [["k1"; "a"]; ["k2"; "b"]]); ("open", [["depot"]; ["a"]])].
Definition ex_s2 : state := [("at", [["k1"; "b"]; ["k2"; "b"]]); ("open", [["depot"]; ["b"]])].
Definition ex_data : list (state * call) :=
  [(ex_s1, mkCall "move" ["k1"; "a"; "b"]); (ex_s2, mkCall "move" ["k2"; "b"; "a"])].
Definition ex_cps : list component := map (exec_comp ex_reals) ex_data.
(** A failed component in the middle of the second trajectory. *)
Definition ex_failed : component := mkComp ex_s1 (mkCall "move" ["k1"; "b"; "a"]) ex_s1 false.
Definition ex_obs : list (list component) := [[nth 0 ex_cps ex_failed]; [ex_failed; nth 1 ex_cps ex_failed]].

Lemma ex_wf : wf_domain ex_dom. Proof. apply wf_check_ok. vm_compute. reflexivity. Qed.
Lemma ex_blank : blank_domain ex_dom. Proof. apply blank_check_ok. vm_compute. reflexivity. Qed.
Lemma ex_real : real_domain ex_dom (dict_get ex_reals). Proof. apply real_check_ok. vm_compute. reflexivity. Qed.
Lemma ex_concat cp : In cp (concat ex_obs) -> cp_ok cp = true -> In cp ex_cps.
Proof. intros [<-|[<-|[<-|[]]]] H; [left; reflexivity|discriminate|right; left; reflexivity]. Qed.
Lemma ex_good : good_calls ex_dom (concat ex_obs).
Proof.
  intros cp Hin Hok. apply (proj2 (data_check_ok ex_dom ex_reals ex_data eq_refl)); [|assumption]. apply ex_concat; assumption.
Qed.
Lemma ex_noconst : no_constant_calls ex_dom (concat ex_obs).
Proof.
  intros cp Hin Hl. apply (noconst_check_ok ex_dom ex_reals ex_data eq_refl); [|assumption]. apply ex_concat; [assumption|apply Hl].
Qed.
Lemma ex_realc : real_components (dict_get ex_reals) (concat ex_obs).
Proof.
  intros cp Hin Hok. apply (proj1 (data_check_ok ex_dom ex_reals ex_data eq_refl)); [|assumption]. apply ex_concat; assumption.
Qed.

Definition ex_move_learned : action :=
  mkAct "move" move_sig
    [mkLit "at" ["?p"; "?from"] true; mkLit "open" ["?from"] true; mkLit "open" ["depot"] true;
     mkLit "at" ["?p"; "?to"] false; mkLit "at" ["?p"; "depot"] false; mkLit "open" ["?to"] false]
    [("?from", "?to")]
    [mkLit "at" ["?p"; "?to"] true; mkLit "at" ["?p"; "?from"] false].

(** The hypotheses of C01-C04, C06_real, C08, C11, C13 hold together and give a non-trivial action. *)
Example sam_hypotheses_satisfiable :
  wf_domain ex_dom /\ blank_domain ex_dom /\ good_calls ex_dom (concat ex_obs) /\
  no_constant_calls ex_dom (concat ex_obs) /\ real_domain ex_dom (dict_get ex_reals) /\
  real_components (dict_get ex_reals) (concat ex_obs) /\
  exists L rep, learn_action_model (init_learner ex_dom no_remove true) ex_obs = Ok (L, rep) /\
    dict_get (d_actions (s_dom L)) "move" = Some ex_move_learned /\
    rep = [("move", v_not_safe); ("scan", v_unobserved)].
Proof.
  split; [exact ex_wf|]. split; [exact ex_blank|]. split; [exact ex_good|]. split; [exact ex_noconst|].
  split; [exact ex_real|]. split; [exact ex_realc|].
  eexists; eexists. split; [vm_compute; reflexivity|]. split; vm_compute; reflexivity.
Qed.

(** The learned action is applicable in a state and under a binding that were never observed. *)
Definition ex_s3 : state := [("at", [["k9"; "z"]]); ("open", [["depot"]; ["z"]])].
Definition ex_sg : assignment := assign [("?p", "k9"); ("?from", "z"); ("?to", "w")].
Example sam_applicable_in_unseen_state :
  injective_binding ex_dom move_sig ex_sg /\ applicable ex_move_learned ex_sg ex_s3.
Proof. split; [apply injective_check_ok|apply applicableb_true]; vm_compute; reflexivity. Qed.

(** The soft policy hypothesis of C01 holds for [scan], the hard one for an action that was observed. *)
Example sam_policy_ok_soft :
  exists r, dict_get ex_reals "scan" = Some r /\ policy_ok soft (concat ex_obs) "scan" r.
Proof. eexists; split; [reflexivity|]. intros l [<-|[]] H; discriminate. Qed.
Definition hard_cps : list component := map (exec_comp ex_reals)
  [([("at", [["k1"; "depot"]]); ("open", [["depot"]])], mkCall "scan" ["k1"])].
Definition hard_real : action := mkAct "scan" scan_sig [mkLit "open" ["depot"] true] [] [mkLit "open" ["depot"] false].
Example sam_policy_ok_hard : policy_ok hard hard_cps "scan" hard_real.
Proof.
  split; [intros l [<-|[]]; reflexivity|]. split; [intros l [<-|[]] _; left; reflexivity|].
  eexists. split; [left; reflexivity|]. split; [|reflexivity]. split; [reflexivity|]. simpl. constructor; [intros []|constructor].
Qed.

(** C05: a reachable learner state, a component of an observed action. *)
Example sam_step_example : exists L L',
  learn_components (start ex_dom no_remove true) [[nth 0 ex_cps ex_failed]] = Ok L /\
  handle_component L (nth 1 ex_cps ex_failed) = Ok L' /\ In "move" (s_observed L).
Proof. eexists; eexists. split; [vm_compute; reflexivity|]. split; [vm_compute; reflexivity|left; reflexivity]. Qed.

(** C07: a call that repeats an object. *)
Example sam_duplicate_example : exists L',
  handle_component (start ex_dom no_remove true) (mkComp ex_s1 (mkCall "move" ["k1"; "a"; "a"]) ex_s1 true) = Ok L' /\
  ~ NoDup (c_params (mkCall "move" ["k1"; "a"; "a"])) /\
  option_map a_ineq (dict_get (d_actions (s_dom (start ex_dom no_remove true))) "move") = Some [("?from", "?to")] /\
  option_map a_ineq (dict_get (d_actions (s_dom L')) "move") = Some [].
Proof.
  eexists. split; [vm_compute; reflexivity|]. split; [|split; vm_compute; reflexivity].
  simpl. intros H. inversion H as [|? ? _ H']; inversion H' as [|? ? H2 _]. apply H2. left; reflexivity.
Qed.

(** C09: [scan] was never observed and can mention a literal. *)
Example sam_unobserved_example :
  (forall cp, ~ evidence (concat ex_obs) "scan" cp) /\ exists l, mentionable ex_dom scan_sig l.
Proof.
  split.
  - intros cp ([<-|[<-|[<-|[]]]] & _ & E); discriminate.
  - exists (mkLit "open" ["depot"] true). eapply (proj1 (lifted_vocabulary_exact ex_dom scan_sig None _ _)).
    vm_compute. auto 10.
    Unshelve. apply nodupb_true; vm_compute; reflexivity.
Qed.

(** C14-C18: vocabulary, snapshot and matching on the same domain. *)
Example sam_snapshot_example :
  triplet_snapshot ex_dom ex_s1 ex_s2 (mkCall "scan" ["k1"]) =
  Ok ([mkLit "open" ["depot"] true; mkLit "at" ["k1"; "depot"] false],
      [mkLit "open" ["depot"] true; mkLit "at" ["k1"; "depot"] false]).
Proof. vm_compute. reflexivity. Qed.
Example sam_match_example :
  get_injective_match ex_dom (mkLit "at" ["k1"; "depot"] false) (mkCall "move" ["k1"; "a"; "b"]) =
    Ok (Some (mkLit "at" ["?p"; "depot"] false)) /\
  match_predicate ex_dom (mkLit "at" ["k1"; "a"] true) (mkCall "move" ["k1"; "a"; "a"]) None =
    Ok [mkLit "at" ["?p"; "?from"] true; mkLit "at" ["?p"; "?to"] true].
Proof. split; vm_compute; reflexivity. Qed.

(** ** Part 2: limits *)

(** C01/C02 without [no_constant_calls]: when a training call passes a constant, a real precondition
    between that parameter and the constant is lost and the learned action is unsafe. *)
Definition k_dom : domain :=
  mkDom [("near", [("?x", t_loc); ("?y", t_loc)]); ("lit", [("?x", t_loc)])] [] [("depot", t_hub)]
        [("go", empty_act "go" [("?x", t_loc)])].
Definition k_real : action :=
  mkAct "go" [("?x", t_loc)] [mkLit "near" ["?x"; "depot"] true] [] [mkLit "lit" ["?x"] true].
Definition k_reals := [("go", k_real)].
Definition k_data : list (state * call) := [([("near", [["depot"; "depot"]])], mkCall "go" ["depot"])].
Theorem C01_constant_arguments_refuted :
  exists dom reals data L rep a r sg s,
    wf_domain dom /\ blank_domain dom /\ real_domain dom (dict_get reals) /\
    good_calls dom (map (exec_comp reals) data) /\ real_components (dict_get reals) (map (exec_comp reals) data) /\
    learn_action_model (init_learner dom no_remove true) [map (exec_comp reals) data] = Ok (L, rep) /\
    dict_get (d_actions (s_dom L)) "go" = Some a /\ dict_get reals "go" = Some r /\
    injective_binding dom (a_sig r) sg /\ applicable a sg s /\
    (exists l, In l (a_pre r) /\ ~ In l (a_pre a)) /\ ~ applicable r sg s.
Proof.
  exists k_dom, k_reals, k_data. eexists. eexists. eexists. exists k_real, (assign [("?x", "home")]), [("near", [["depot"; "home"]])].
  split; [apply wf_check_ok; vm_compute; reflexivity|]. split; [apply blank_check_ok; vm_compute; reflexivity|].
  split; [apply real_check_ok; vm_compute; reflexivity|].
  destruct (data_check_ok k_dom k_reals k_data ltac:(vm_compute; reflexivity)) as [H1 H2].
  split; [exact H2|]. split; [exact H1|].
  split; [vm_compute; reflexivity|]. split; [vm_compute; reflexivity|]. split; [reflexivity|].
  split; [apply injective_check_ok; vm_compute; reflexivity|].
  split; [apply applicableb_true; vm_compute; reflexivity|].
  split.
  - exists (mkLit "near" ["?x"; "depot"] true). split; [left; reflexivity|]. apply memb_nIn. vm_compute. reflexivity.
  - rewrite <- applicableb_true. vm_compute. discriminate.
Qed.
Print Assumptions C01_constant_arguments_refuted.

(** C01 for bindings that give two parameters of different types the same object: inequality
    preconditions only relate parameters of equal type, so the learned model may be applicable and wrong. *)
Definition i_sig : signature := [("?x", t_loc); ("?y", t_hub)].
Definition i_dom : domain := mkDom [("lit", [("?x", t_loc)])] [] [] [("sw", empty_act "sw" i_sig)].
Definition i_real : action := mkAct "sw" i_sig [] [] [mkLit "lit" ["?x"] true; mkLit "lit" ["?y"] false].
Definition i_reals := [("sw", i_real)].
Definition i_data : list (state * call) := [([("lit", [["a"]; ["h"]])], mkCall "sw" ["a"; "h"])].
Theorem C01_non_injective_binding_refuted :
  exists dom reals data L rep a r sg s n args,
    wf_domain dom /\ blank_domain dom /\ real_domain dom (dict_get reals) /\
    good_calls dom (map (exec_comp reals) data) /\ no_constant_calls dom (map (exec_comp reals) data) /\
    real_components (dict_get reals) (map (exec_comp reals) data) /\
    learn_action_model (init_learner dom no_remove true) [map (exec_comp reals) data] = Ok (L, rep) /\
    dict_get (d_actions (s_dom L)) "sw" = Some a /\ dict_get reals "sw" = Some r /\
    applicable a sg s /\ after r sg s n args /\ ~ after a sg s n args.
Proof.
  exists i_dom, i_reals, i_data. eexists. eexists. eexists.
  exists i_real, (assign [("?x", "h"); ("?y", "h")]), [("lit", [["h"]])], "lit", ["h"].
  split; [apply wf_check_ok; vm_compute; reflexivity|]. split; [apply blank_check_ok; vm_compute; reflexivity|].
  split; [apply real_check_ok; vm_compute; reflexivity|].
  destruct (data_check_ok i_dom i_reals i_data ltac:(vm_compute; reflexivity)) as [H1 H2].
  split; [exact H2|]. split; [apply noconst_check_ok; vm_compute; reflexivity|]. split; [exact H1|].
  split; [vm_compute; reflexivity|]. split; [vm_compute; reflexivity|]. split; [reflexivity|].
  split; [apply applicableb_true; vm_compute; reflexivity|].
  split.
  - apply exec_result. apply holds_facts. vm_compute. auto.
  - intros H. apply exec_result in H. apply holds_facts in H. vm_compute in H. exact H.
Qed.
Print Assumptions C01_non_injective_binding_refuted.

(** C01 with policy [hard]: dropping a negative precondition hides a delete effect that was never seen. *)
Definition p_sig : signature := [("?x", t_loc)].
Definition p_dom : domain := mkDom [("lit", [("?x", t_loc)])] [] [] [("off", empty_act "off" p_sig)].
Definition h_real : action := mkAct "off" p_sig [] [] [mkLit "lit" ["?x"] false].
Definition h_reals := [("off", h_real)].
Definition p_data : list (state * call) := [([("lit", [])], mkCall "off" ["a"])].
Theorem C01_hard_policy_refuted :
  exists dom reals data L rep a r sg s n args,
    wf_domain dom /\ blank_domain dom /\ real_domain dom (dict_get reals) /\
    good_calls dom (map (exec_comp reals) data) /\ no_constant_calls dom (map (exec_comp reals) data) /\
    real_components (dict_get reals) (map (exec_comp reals) data) /\
    learn_action_model (init_learner dom hard true) [map (exec_comp reals) data] = Ok (L, rep) /\
    dict_get (d_actions (s_dom L)) "off" = Some a /\ dict_get reals "off" = Some r /\
    injective_binding dom (a_sig r) sg /\ applicable a sg s /\ after a sg s n args /\ ~ after r sg s n args.
Proof.
  exists p_dom, h_reals, p_data. eexists. eexists. eexists.
  exists h_real, (assign [("?x", "b")]), [("lit", [["b"]])], "lit", ["b"].
  split; [apply wf_check_ok; vm_compute; reflexivity|]. split; [apply blank_check_ok; vm_compute; reflexivity|].
  split; [apply real_check_ok; vm_compute; reflexivity|].
  destruct (data_check_ok p_dom h_reals p_data ltac:(vm_compute; reflexivity)) as [H1 H2].
  split; [exact H2|]. split; [apply noconst_check_ok; vm_compute; reflexivity|]. split; [exact H1|].
  split; [vm_compute; reflexivity|]. split; [vm_compute; reflexivity|]. split; [reflexivity|].
  split; [apply injective_check_ok; vm_compute; reflexivity|].
  split; [apply applicableb_true; vm_compute; reflexivity|].
  split.
  - apply exec_result. apply holds_facts. vm_compute. auto.
  - intros H. apply exec_result in H. apply holds_facts in H. vm_compute in H. exact H.
Qed.
Print Assumptions C01_hard_policy_refuted.

(** C01/C02 with policy [soft]: a real negative precondition whose atom the action adds is dropped. *)
Definition s_real : action := mkAct "off" p_sig [mkLit "lit" ["?x"] false] [] [mkLit "lit" ["?x"] true].
Definition s_reals := [("off", s_real)].
Theorem C01_soft_policy_refuted :
  exists dom reals data L rep a r sg s,
    wf_domain dom /\ blank_domain dom /\ real_domain dom (dict_get reals) /\
    good_calls dom (map (exec_comp reals) data) /\ no_constant_calls dom (map (exec_comp reals) data) /\
    real_components (dict_get reals) (map (exec_comp reals) data) /\
    learn_action_model (init_learner dom soft true) [map (exec_comp reals) data] = Ok (L, rep) /\
    dict_get (d_actions (s_dom L)) "off" = Some a /\ dict_get reals "off" = Some r /\
    injective_binding dom (a_sig r) sg /\ applicable a sg s /\ ~ applicable r sg s.
Proof.
  exists p_dom, s_reals, p_data. eexists. eexists. eexists.
  exists s_real, (assign [("?x", "b")]), [("lit", [["b"]])].
  split; [apply wf_check_ok; vm_compute; reflexivity|]. split; [apply blank_check_ok; vm_compute; reflexivity|].
  split; [apply real_check_ok; vm_compute; reflexivity|].
  destruct (data_check_ok p_dom s_reals p_data ltac:(vm_compute; reflexivity)) as [H1 H2].
  split; [exact H2|]. split; [apply noconst_check_ok; vm_compute; reflexivity|]. split; [exact H1|].
  split; [vm_compute; reflexivity|]. split; [vm_compute; reflexivity|]. split; [reflexivity|].
  split; [apply injective_check_ok; vm_compute; reflexivity|].
  split; [apply applicableb_true; vm_compute; reflexivity|].
  rewrite <- applicableb_true. vm_compute. discriminate.
Qed.
Print Assumptions C01_soft_policy_refuted.

(** C09 with policy [hard]: an unobserved action becomes executable. *)
Theorem C09_hard_policy_refuted :
  exists dom L rep a sg s,
    wf_domain dom /\ blank_domain dom /\ learn_action_model (init_learner dom hard true) [] = Ok (L, rep) /\
    In ("off", v_unobserved) rep /\
    dict_get (d_actions (s_dom L)) "off" = Some a /\ applicable a sg s.
Proof.
  exists p_dom. eexists. eexists. eexists. exists (assign [("?x", "b")]), [("lit", [["b"]])].
  split; [apply wf_check_ok; vm_compute; reflexivity|]. split; [apply blank_check_ok; vm_compute; reflexivity|].
  split; [vm_compute; reflexivity|]. split; [left; reflexivity|]. split; [vm_compute; reflexivity|].
  apply applicableb_true; vm_compute; reflexivity.
Qed.
Print Assumptions C09_hard_policy_refuted.

(** C06 with constants and data that no deterministic domain produces: the order matters. *)
Definition o_dom : domain :=
  mkDom [("lit", [("?x", t_loc)])] [] [("depot", t_hub)] [("off", empty_act "off" p_sig)].
Definition o_cp1 : component := mkComp [("lit", [])] (mkCall "off" ["a"]) [("lit", [["a"]])] true.
Definition o_cp2 : component := mkComp [("lit", [])] (mkCall "off" ["a"]) [("lit", [])] true.
Theorem C06_inconsistent_data_with_constants_refuted :
  exists dom obs obs' L L' rep rep' a a' l,
    wf_domain dom /\ blank_domain dom /\ Permutation (concat obs) (concat obs') /\
    learn_action_model (init_learner dom no_remove true) obs = Ok (L, rep) /\
    learn_action_model (init_learner dom no_remove true) obs' = Ok (L', rep') /\
    dict_get (d_actions (s_dom L)) "off" = Some a /\ dict_get (d_actions (s_dom L')) "off" = Some a' /\
    In l (a_eff a) /\ ~ In l (a_eff a').
Proof.
  exists o_dom, [[o_cp2; o_cp1]], [[o_cp1; o_cp2]]. do 6 eexists. exists (mkLit "lit" ["?x"] true).
  split; [apply wf_check_ok; vm_compute; reflexivity|]. split; [apply blank_check_ok; vm_compute; reflexivity|].
  split; [apply perm_swap|]. split; [vm_compute; reflexivity|]. split; [vm_compute; reflexivity|].
  split; [vm_compute; reflexivity|]. split; [vm_compute; reflexivity|].
  split; [apply memb_In; vm_compute; reflexivity|apply memb_nIn; vm_compute; reflexivity].
Qed.
Print Assumptions C06_inconsistent_data_with_constants_refuted.

(** C12: an action that is first observed in the second batch keeps the contradictory preconditions it
    received as an unobserved action at the end of the first batch, and so does not become executable. *)
Definition b_dom : domain :=
  mkDom [("lit", [("?x", t_loc)])] [] [] [("off", empty_act "off" p_sig); ("on", empty_act "on" p_sig)].
Definition b_real_on : action := mkAct "on" p_sig [mkLit "lit" ["?x"] false] [] [mkLit "lit" ["?x"] true].
Definition b_reals := [("off", h_real); ("on", b_real_on)].
Definition b_data1 : list (state * call) := [([("lit", [["a"]])], mkCall "off" ["a"])].
Definition b_data2 : list (state * call) := [([("lit", [])], mkCall "on" ["a"])].
Theorem C12_batches_equal_refuted :
  exists dom reals d1 d2 Ls rep Lb a b s sg,
    wf_domain dom /\ blank_domain dom /\ real_domain dom (dict_get reals) /\
    real_components (dict_get reals) (map (exec_comp reals) d1) /\
    real_components (dict_get reals) (map (exec_comp reals) d2) /\
    learn_action_model (init_learner dom no_remove true) [map (exec_comp reals) d1; map (exec_comp reals) d2] = Ok (Ls, rep) /\
    fold_res (fun L obs => let* (L', _) := learn_action_model L obs in Ok L')
      [[map (exec_comp reals) d1]; [map (exec_comp reals) d2]] (init_learner dom no_remove true) = Ok Lb /\
    dict_get (d_actions (s_dom Ls)) "on" = Some a /\ dict_get (d_actions (s_dom Lb)) "on" = Some b /\
    applicable a sg s /\ ~ applicable b sg s.
Proof.
  exists b_dom, b_reals, b_data1, b_data2. do 5 eexists. exists [("lit", [])], (assign [("?x", "a")]).
  split; [apply wf_check_ok; vm_compute; reflexivity|]. split; [apply blank_check_ok; vm_compute; reflexivity|].
  split; [apply real_check_ok; vm_compute; reflexivity|].
  split; [apply (data_check_ok b_dom b_reals b_data1); vm_compute; reflexivity|].
  split; [apply (data_check_ok b_dom b_reals b_data2); vm_compute; reflexivity|].
  split; [vm_compute; reflexivity|]. split; [vm_compute; reflexivity|]. split; [vm_compute; reflexivity|].
  split; [vm_compute; reflexivity|]. split; [apply applicableb_true; vm_compute; reflexivity|].
  rewrite <- applicableb_true. vm_compute. discriminate.
Qed.
Print Assumptions C12_batches_equal_refuted.

(** C13: an action that was learned from is never reported as learned. *)
Theorem C13_observed_reported_safe_refuted :
  exists dom obs L rep, wf_domain dom /\ blank_domain dom /\
    learn_action_model (init_learner dom no_remove true) obs = Ok (L, rep) /\
    (exists cp, evidence (concat obs) "move" cp) /\ In ("move", v_not_safe) rep.
Proof.
  exists ex_dom, ex_obs. do 2 eexists. split; [exact ex_wf|]. split; [exact ex_blank|].
  split; [vm_compute; reflexivity|]. split; [|left; reflexivity].
  exists (nth 0 ex_cps ex_failed). split; [left; reflexivity|]. split; [|reflexivity].
  split; [reflexivity|]. apply nodupb_true. vm_compute. reflexivity.
Qed.
Print Assumptions C13_observed_reported_safe_refuted.

(** C18: a ground literal that repeats a constant is matched to a literal of the wrong arity. *)
Theorem C18_repeated_constant_refuted :
  exists dom a c g m, wf_domain dom /\ dict_get (d_actions dom) (c_name c) = Some a /\
    length (c_params c) = length (a_sig a) /\ NoDup (c_params c) /\ no_constant_args dom c /\
    match_predicate dom g c None = Ok [m; m] /\
    ground (call_assignment (a_sig a) c) m <> g.
Proof.
  exists k_dom. eexists. exists (mkCall "go" ["home"]), (mkLit "near" ["depot"; "depot"] true), (mkLit "near" ["depot"] true).
  split; [apply wf_check_ok; vm_compute; reflexivity|]. split; [reflexivity|]. split; [reflexivity|].
  split; [apply nodupb_true; vm_compute; reflexivity|]. split; [intros o [<-|[]] [H|[]]; discriminate|].
  split; [vm_compute; reflexivity|]. vm_compute. discriminate.
Qed.
Print Assumptions C18_repeated_constant_refuted.
