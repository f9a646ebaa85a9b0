(** * Concrete cases for C95 *)
From Coq Require Import QArith Lia.
From Verif Require Import StripsExec VocabProofs Checks SamFinal SamExamples MaExamples TripletSpec TripletProofs TripletFinal TripletProperties PreludeProofs.
Open Scope string_scope. Open Scope list_scope. Open Scope nat_scope.

Definition dark : state := [("clean", []); ("lit", []); ("ready", [["depot"]])].
Definition light_alone : state * list call := (dark, [mkCall "light" ["k"]]).
Definition wash_alone : state * list call := (dark, [mkCall "wash" ["k"]]).
Definition both : state * list call := (dark, [mkCall "wash" ["k"]; mkCall "light" ["h"]]).
Definition observed (data : list (state * list call)) : observation joint :=
  mkObservation [("k", t_pkg); ("h", t_pkg)] (map (exec_joint ma_reals) data) (Some ["r1"; "r2"]).

(** Pieces of two transitions: the fifth one is lost. *)
Example pieces_case : exists a b, create_transitions_based_training_set None [observed [light_alone; wash_alone; both; light_alone; wash_alone]] 2 = Ok [a; b] /\
  o_components a = map (exec_joint ma_reals) [light_alone; wash_alone] /\ o_components b = map (exec_joint ma_reals) [both; light_alone].
Proof. eexists _, _. split; [vm_compute; reflexivity|]. split; reflexivity. Qed.

(** The joint action in front is dropped, the later one is replaced by what came before. *)
Example baseline_case : exists s, Forall acting (o_components (observed [both; light_alone; both; wash_alone])) /\
  filter_baseline (observed [both; light_alone; both; wash_alone]) = Ok (s, 2, 2) /\
  map (fun c => c_name (cp_call c)) (o_components s) = ["light"; "light"; "wash"].
Proof. eexists. split; [repeat (constructor; [discriminate|]); constructor|]. split; vm_compute; reflexivity. Qed.
Example baseline_idle_case : ~ Forall acting (o_components (observed [light_alone; (dark, [])])).
Proof. intros H. inversion H as [|? ? _ H2]; subst. inversion H2 as [|? ? H3 _]; subst. apply H3. reflexivity. Qed.

(** ** Without constants *)
Definition plain_dom : domain :=
  mkDom [("clean", [("?x", t_pkg)]); ("lit", [("?x", t_pkg)])] [] [] [("wash", empty_act "wash" ma_sig); ("light", empty_act "light" ma_sig)].
Definition plain_reals : list (string * action) :=
  [("wash", mkAct "wash" ma_sig [] [] [mkLit "clean" ["?p"] true]);
   ("light", mkAct "light" ma_sig [mkLit "lit" ["?p"] false] [] [mkLit "lit" ["?p"] true])].
Definition plain_observed (data : list (state * list call)) : observation joint :=
  mkObservation [("k", t_pkg); ("h", t_pkg)] (map (exec_joint plain_reals) data) (Some ["r1"; "r2"]).
Definition plain_data : list (state * list call) := [light_alone; light_alone; both; light_alone; light_alone; wash_alone; wash_alone; both; wash_alone; wash_alone; both].
Definition plain_train : list (observation joint) := [plain_observed plain_data].
Definition plain_T : list joint := transitions (triplets_per_experiment "woodworking") plain_train.

Lemma plain_wf : wf_domain plain_dom. Proof. apply wf_check_ok. vm_compute. reflexivity. Qed.
Lemma plain_blank : blank_domain plain_dom. Proof. apply blank_check_ok. vm_compute. reflexivity. Qed.
Lemma plain_real : real_domain plain_dom (dict_get plain_reals). Proof. apply real_check_ok. vm_compute. reflexivity. Qed.
Lemma plain_T_data : plain_T = map (exec_joint plain_reals) (firstn 10 plain_data). Proof. vm_compute. reflexivity. Qed.
Lemma plain_joints : good_joints plain_dom plain_T /\ real_joints (dict_get plain_reals) plain_T.
Proof. rewrite plain_T_data. destruct (joint_check_ok plain_dom plain_reals (firstn 10 plain_data)) as (H1 & H2 & _); [vm_compute; reflexivity|]. auto. Qed.
Lemma plain_good : good_calls plain_dom (alone_transitions plain_T).
Proof.
  intros cp Hin _. unfold alone_transitions in Hin. apply in_flat_map in Hin. destruct Hin as (j & Hj & Hc). unfold alone in Hc.
  destruct (j_calls j) as [|c [|c' r]] eqn:E; [destruct Hc| |destruct Hc]. destruct Hc as [<-|[]]. apply (proj1 plain_joints j c Hj). rewrite E. left; reflexivity.
Qed.

Definition washed (f : string * domain) : list literal := match dict_get (d_actions (snd f)) "wash" with Some a => a_eff a | None => [] end.
(** The baseline: twenty models, files for five and ten transitions. *)
Example sam_case : exists w ds, run_action_triplets_experiment Sam "sam" "woodworking" plain_dom 3 ["r1"; "r2"] plain_train = (w, None) /\
  experiment Sam "sam" "woodworking" plain_dom 3 5 20 plain_T w ds /\ described plain_T (w_dataset w) /\
  dict_keys (w_backups w) = ["sam_fold_3_woodworking_5_triplets_no_remove_policy.pddl"; "sam_fold_3_woodworking_10_triplets_no_remove_policy.pddl"] /\
  map washed (w_backups w) = [[]; [mkLit "clean" ["?p"] true]].
Proof.
  destruct (C95_baseline_finishes "sam" "woodworking" plain_dom 3 ["r1"; "r2"] plain_train) as (w & E).
  { exact plain_wf. } { exact plain_blank. } { exact plain_good. } { intros cp _ _ o _ []. }
  { change (Forall acting plain_T). rewrite plain_T_data. repeat (constructor; [discriminate|]). constructor. }
  { exists (exec_joint plain_reals both). split; [change (In (exec_joint plain_reals both) plain_T); rewrite plain_T_data; apply in_map; right; right; left; reflexivity|]. unfold together. cbn. lia. }
  destruct (C95_experiment Sam "sam" "woodworking" plain_dom 3 ["r1"; "r2"] plain_train w) as ((ds & X) & D).
  { intros _. split; [exact plain_wf|exact plain_blank]. } { split; [exact plain_good|left; reflexivity]. } { exact E. }
  exists w, ds. split; [exact E|]. split; [exact X|]. split; [apply D; reflexivity|]. clear X D.
  assert (V := f_equal (fun r => (dict_keys (w_backups (fst r)), map washed (w_backups (fst r)))) E).
  cbn [fst] in V. rewrite <- (f_equal fst V : _ = dict_keys (w_backups w)).
  rewrite <- (f_equal snd V : _ = map washed (w_backups w)). split; vm_compute; reflexivity.
Qed.

(** MA-SAM *)
Example ma_sam_case : exists w ds, run_action_triplets_experiment MaSam "ma" "woodworking" plain_dom 3 ["r1"; "r2"] plain_train = (w, None) /\
  experiment MaSam "ma" "woodworking" plain_dom 3 5 20 plain_T w ds.
Proof.
  destruct (C95_ma_sam_finishes "ma" "woodworking" plain_dom 3 ["r1"; "r2"] plain_train (dict_get plain_reals)) as (w & E);
    [reflexivity|exact plain_wf|exact plain_blank|exact plain_real|apply plain_joints|apply plain_joints|].
  destruct (C95_experiment MaSam "ma" "woodworking" plain_dom 3 ["r1"; "r2"] plain_train w) as ((ds & X) & _); [discriminate|reflexivity|exact E|].
  exists w, ds. split; assumption.
Qed.

(** ** The limits *)
(** Five transitions of one agent each: nothing is learned. *)
Example alone_case : exists t, run_action_triplets_experiment Sam "sam" "woodworking" plain_dom 3 ["r1"] [plain_observed [light_alone; light_alone; light_alone; wash_alone; wash_alone]] =
  (mkWorld [] None [] [] [] (Some (t, 0, None)), Some ZeroDivisionError).
Proof.
  apply C95_baseline_alone_refuted.
  - vm_compute. repeat (constructor; [discriminate|]). constructor.
  - intros j Hj. vm_compute in Hj. repeat (destruct Hj as [<-|Hj]; [unfold together; cbn; lia|]). destruct Hj.
Qed.

(** With a constant: ten transitions, five of each action. *)
Definition const_data : list (state * list call) := [light_alone; light_alone; light_alone; light_alone; light_alone; wash_alone; wash_alone; wash_alone; wash_alone; wash_alone].
Definition const_train : list (observation joint) := [observed const_data].
Definition const_T : list joint := transitions (triplets_per_experiment "woodworking") const_train.
Lemma const_T_data : const_T = map (exec_joint ma_reals) const_data. Proof. vm_compute. reflexivity. Qed.
Lemma const_atoms n : n = "light" \/ n = "wash" -> two_atoms ma_dom (mkCall n ["k"]).
Proof.
  intros H. exists "clean", ["k"], "lit", ["k"]. split; [congruence|].
  assert (O : In ("k", t_pkg) (call_objects ma_dom (mkCall n ["k"]) ++ d_consts ma_dom)) by (destruct H as [-> | ->]; left; reflexivity).
  split; exists [("?x", t_pkg)], [("k", t_pkg)]; cbn [l_name l_args map fst]; (split; [cbn; auto|]); (split; [intros x [<-|[]]; exact O|]);
    (split; [repeat constructor; intros []|]); (split; [reflexivity|]); repeat constructor; vm_compute; reflexivity.
Qed.

(** The hypotheses of both theorems about constants hold, and the file for all ten transitions, although all were learnable and
    [light] was learned from the first five of them, holds a model in which [light] does nothing. *)
Definition lit_by (d : domain) : list literal := match dict_get (d_actions d) "light" with Some a => a_eff a | None => [] end.
Example constant_case : exists w d, run_action_triplets_experiment MaSam "ma" "woodworking" ma_dom 3 ["r1"; "r2"] const_train = (w, None) /\
  dict_get (w_backups w) (backup_name "ma" "woodworking" 3 10) = Some d /\ model_of MaSam ma_dom 20 [] d /\ ~ model_of MaSam ma_dom 20 const_T d.
Proof.
  destruct (C95_ma_sam_constant_last_refuted "ma" "woodworking" ma_dom 3 ["r1"; "r2"] const_train (dict_get ma_reals)) as (w & d & E & G & M).
  { apply wf_check_ok; vm_compute; reflexivity. } { apply blank_check_ok; vm_compute; reflexivity. } { apply real_check_ok; vm_compute; reflexivity. } { reflexivity. }
  1-3: change (transitions (triplets_per_experiment "woodworking") const_train) with const_T; rewrite const_T_data;
       destruct (joint_check_ok ma_dom ma_reals const_data) as (H1 & H2 & H3); [vm_compute; reflexivity|assumption].
  { change (transitions (triplets_per_experiment "woodworking") const_train) with const_T. rewrite const_T_data. intros j Hj.
    apply in_map_iff in Hj. destruct Hj as (sc & <- & Hsc). assert (S : sc = light_alone \/ sc = wash_alone) by (cbn in Hsc; intuition congruence).
    unfold joint_learnable, acting. rewrite exec_joint_calls. destruct S as [-> | ->]; cbn [snd light_alone wash_alone];
      (split; [intros c [<-|[]]; repeat constructor; intros []|]); (split; [discriminate|]); intros c [<-|[]]; apply const_atoms; auto. }
  { vm_compute. repeat constructor. }
  exists w, d. split; [exact E|]. split; [exact G|]. split; [exact M|]. intros (M' & rep' & E' & ->). destruct M as (M0 & rep0 & E0 & X).
  assert (V0 : exists z, learn_combined (init_ma ma_dom no_remove) [[]] = Ok z /\ lit_by (s_dom (m_sam (fst z))) = []).
  { eexists. split; vm_compute; reflexivity. }
  assert (V1 : exists z, learn_combined (init_ma ma_dom no_remove) [const_T] = Ok z /\ In (mkLit "lit" ["?p"] true) (lit_by (s_dom (m_sam (fst z))))).
  { eexists. split; [vm_compute; reflexivity|]. vm_compute. auto. }
  destruct V0 as (z0 & Z0 & K0), V1 as (z1 & Z1 & K1). rewrite E0 in Z0. injection Z0 as <-. rewrite E' in Z1. injection Z1 as <-. cbn [fst] in *.
  rewrite X, K0 in K1. destruct K1.
Qed.
