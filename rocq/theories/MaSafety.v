(** * The multi-agent learner: safety of the learned actions *)
From Verif Require Import PreludeProofs VocabProofs SamProofs SamFinal SamResults MaSpec CnfProofs MaMatch MaCnf MaProofs MaFinal.

Section Safety.
Variables (dom0 : domain) (real : string -> option action) (policy : neg_policy).
Hypothesis W : wf_domain dom0.
Hypothesis RD : real_domain dom0 real.
Variables (js : list joint) (M : ma_learner) (n : string) (a0 a r : action).
Hypothesis I : ma_inv dom0 real policy js M.
Hypothesis G0 : dict_get (d_actions dom0) n = Some a0.
Hypothesis KA : kept_action dom0 js (m_cnfs M) n a0 a.
Hypothesis Hr : real n = Some r.
Hypothesis RJ : real_joints real js.
Hypothesis GJ : good_joints dom0 js.
Hypothesis NJ : no_constant_joints dom0 js.

Lemma ma_sig_eq : a_sig r = a_sig a0.
Proof. destruct (real_sig _ _ RD n a0 G0) as (r' & E & Es). congruence. Qed.

Lemma ma_eff_sound l : In l (a_eff a) -> In l (a_eff r) /\ ~ In l (a_pre a).
Proof.
  intros H. apply (ka_eff _ _ _ _ _ _ KA) in H. apply effects_from_cnf_In in H. destruct H as ((key & k & Hk & Hc) & Hp).
  split; [|assumption]. destruct (tk_sat _ _ _ _ _ (mi_table _ _ _ _ _ I) _ _ Hk) as [Hs _].
  destruct (Hs _ Hc) as (n' & l' & [E|[]] & r' & Hr' & Hin). injection E as <- <-. congruence.
Qed.

Lemma ma_pre_real l : In l (a_pre r) -> In l (a_pre a).
Proof.
  intros H. apply (ka_pre _ _ _ _ _ _ KA). split; [rewrite <- ma_sig_eq; eapply real_pre; eauto|].
  intros cp (j & c & Hj & Hl & Hc & Hn & ->). destruct (rj_app _ _ (RJ j Hj Hl) c Hc) as (r' & E & Hp & _).
  rewrite Hn, Hr in E. injection E as <-. unfold true_before. cbn [comp_of cp_call cp_prev]. rewrite <- ma_sig_eq. apply Hp; assumption.
Qed.

Lemma ev_joint_effect j c l : c_name c = n -> In c (j_calls j) -> In l (a_eff r) ->
  joint_effect real (j_calls j) (ground (call_assignment (a_sig a0) c) l).
Proof. intros Hn Hc Hl. exists c, r, l. rewrite Hn, ma_sig_eq. auto. Qed.

Lemma ev_no_conflict cp l : ma_evidence js n cp -> In l (a_eff r) -> In (neg_lit l) (a_eff r) -> False.
Proof.
  intros (j & c & Hj & Hl & Hc & Hn & _) H1 H2.
  assert (E1 := ev_joint_effect j c l Hn Hc H1). assert (E2 := ev_joint_effect j c (neg_lit l) Hn Hc H2).
  assert (F := rj_free _ _ (RJ j Hj Hl) (l_name l) (map (call_assignment (a_sig a0) c) (l_args l))).
  unfold ground, neg_lit in *. cbn [l_name l_args l_pos] in *. destruct (l_pos l); simpl in *; auto.
Qed.

Lemma observed_dec : (exists cp, ma_evidence js n cp) \/ ~ exists cp, ma_evidence js n cp.
Proof.
  destruct (In_dec' n (s_observed (m_sam M))) as [H|H]; [left|right; intros E; apply H]; apply (pi_obs _ _ _ _ (mi_pre _ _ _ _ _ I)); assumption.
Qed.

Hypothesis Hlast : forall j, In j js -> joint_learnable j -> seen_by_last dom0 real j.
Hypothesis Hdiff : distinct js.

Lemma ma_eff_missing l : In l (a_eff r) -> ~ In l (a_eff a) -> In l (a_pre a).
Proof.
  intros Hl Hna. assert (Hm : mentionable dom0 (a_sig a0) l) by (rewrite <- ma_sig_eq; eapply real_eff; eauto).
  destruct (In_dec' l (a_pre a)) as [|Hnp]; [assumption|]. exfalso.
  apply Hnp. apply (ka_pre _ _ _ _ _ _ KA). split; [assumption|]. intros cp (j & c & Hj & Hle & Hc & Hn & ->).
  destruct (lit_true_dec (j_prev j) (ground (call_assignment (a_sig a0) c) l)) as [H|H]; [exact H|]. exfalso.
  assert (Hp : has_pair (m_cnfs M) n l).
  { rewrite <- Hn. apply (mi_complete _ _ _ _ _ I j c l Hj Hle (Hlast j Hj Hle) Hc).
    - rewrite Hn. exists r; auto.
    - rewrite Hn. intros b Gb. rewrite G0 in Gb. injection Gb as <-. split; [exact H|].
      apply (joint_effect_true real j); [apply RJ; assumption|apply ev_joint_effect; assumption]. }
  destruct Hp as (key & k & cl & Hk & Hcl & Hin).
  assert (Hs := ka_safe _ _ _ _ _ _ KA key k cl l Hk Hcl Hin).
  assert (Ho : mentioned_once k n).
  { intros cl' l1 l2 H' H1 H2. assert (Hd := tk_once _ _ _ _ _ (mi_table _ _ _ _ _ I) Hdiff key k cl' Hk H').
    apply (dict_In_get cl' n l1 Hd) in H1. apply (dict_In_get cl' n l2 Hd) in H2. congruence. }
  destruct (is_action_safe_complete k n (a_pre a) Ho Hs cl l Hcl Hin) as [He|He]; [|contradiction].
  apply Hna. apply (ka_eff _ _ _ _ _ _ KA). apply effects_from_cnf_In. apply extract_In in He. destruct He. eauto.
Qed.

Lemma ma_safety : safe_for dom0 a r.
Proof.
  intros sg s Hb [Hpre _]. rewrite ma_sig_eq in Hb. split; [intros l Hl; apply Hpre, ma_pre_real; assumption|].
  assert (Hnc : forall l, In l (a_eff r) -> In (neg_lit l) (a_eff r) -> False).
  { intros l H1 H2. destruct observed_dec as [[cp Hev]|Hno]; [exact (ev_no_conflict cp l Hev H1 H2)|].
    assert (P : forall l, In l (a_eff r) -> In l (a_pre a)).
    { intros l' Hl'. apply (ka_pre _ _ _ _ _ _ KA). split; [rewrite <- ma_sig_eq; eapply real_eff; eauto|]. intros cp Hc; exfalso; eauto. }
    assert (T1 := Hpre _ (P _ H1)). assert (T2 := Hpre _ (P _ H2)). rewrite ground_neg, lit_true_neg in T2. contradiction. }
  assert (Hment : forall l, In l (a_eff r) -> mentionable dom0 (a_sig a0) l) by (intros l Hl; rewrite <- ma_sig_eq; eapply real_eff; eauto).
  intros p args. rewrite !after_eff_at. split.
  - intros [(l & Hl & E)|[Hh Hnd]].
    + left. exists l. split; [apply ma_eff_sound; assumption|assumption].
    + right. split; [assumption|]. intros (l & Hl & E).
      destruct (In_dec' l (a_eff a)) as [Hin|Hna]; [apply Hnd; exists l; auto|].
      assert (Hin := ma_eff_missing l Hl Hna). apply Hpre in Hin. rewrite E in Hin. exact (Hin Hh).
  - intros [(l & Hl & E)|[Hh Hnd]].
    + destruct (In_dec' l (a_eff a)) as [Hin|Hna]; [left; exists l; auto|].
      assert (Hin := ma_eff_missing l Hl Hna). apply Hpre in Hin. rewrite E in Hin. right. split; [exact Hin|].
      intros (l' & Hl' & E'). apply ma_eff_sound in Hl'. destruct Hl' as [Hl' _]. apply (Hnc l' Hl').
      replace (neg_lit l') with l; [assumption|].
      apply (ground_inj dom0 a0 sg); auto.
      * apply well_typed_neg, Hment; assumption.
      * rewrite ground_neg, E', E. reflexivity.
    + right. split; [assumption|]. intros (l & Hl & E). apply Hnd. exists l. split; [apply ma_eff_sound; assumption|assumption].
Qed.
End Safety.

(** ** Whole runs *)
Lemma ma_learn_spec dom0 real policy obs :
  wf_domain dom0 -> blank_domain dom0 -> length (d_consts dom0) <= 1 -> real_domain dom0 real ->
  good_joints dom0 (concat obs) -> real_joints real (concat obs) -> no_constant_joints dom0 (concat obs) ->
  exists M0 M1 M2, ma_inv dom0 real policy (concat obs) M0 /\ construct_safe_actions true M0 = Ok M1 /\
    M2 = with_sam M1 (handle_negative_preconditions_policy (m_sam M1)) /\
    learn_combined (init_ma dom0 policy) obs = Ok (M2, learning_report (m_sam M2)).
Proof.
  intros W B Hone RD GJ RJ NJ. unfold learn_combined. rewrite learn_joints_concat.
  destruct (joints_loop dom0 real policy W Hone RD [] _ (concat obs) (start_ma dom0 real policy W B) GJ RJ NJ) as (M0 & E0 & I0).
  cbv zeta. rewrite E0. cbn [bind].
  destruct (construct_step dom0 real policy W _ M0 I0) as (M1 & E1 & _). rewrite E1. cbn [bind].
  exists M0, M1. eexists. split; [exact I0|]. split; [exact E1|]. split; reflexivity.
Qed.

Definition ma_learned (dom : domain) (policy : neg_policy) (obs : list (list joint)) (M : ma_learner) : Prop :=
  exists rep, learn_combined (init_ma dom policy) obs = Ok (M, rep).

Lemma policy_action L n a :
  dict_get (d_actions (s_dom (handle_negative_preconditions_policy L))) n = Some a ->
  exists b, dict_get (d_actions (s_dom L)) n = Some b /\ a_name a = a_name b /\ a_sig a = a_sig b /\ a_eff a = a_eff b /\
            incl (a_pre a) (a_pre b) /\ (s_policy L = no_remove -> a = b).
Proof.
  unfold handle_negative_preconditions_policy. destruct (s_policy L) eqn:Ep.
  { intros G. exists a. repeat split; auto. apply incl_refl. }
  all: unfold remove_negative_preconditions; cbn [s_dom with_dom set_actions d_actions];
    rewrite (dict_get_map_vals (fun na => drop_negative (s_policy L) (snd na)));
    destruct (dict_get (d_actions (s_dom L)) n) as [b|]; [|discriminate];
    intros E; injection E as <-; exists b; cbn [snd drop_negative with_pre a_name a_sig a_eff a_pre];
    repeat split; try congruence; intros l Hl; apply filter_In in Hl; apply Hl.
Qed.

Lemma policy_safe L n : In n (s_safe (handle_negative_preconditions_policy L)) <-> In n (s_safe L).
Proof. unfold handle_negative_preconditions_policy. destruct (s_policy L); reflexivity. Qed.
Lemma policy_keys L : dict_keys (d_actions (s_dom (handle_negative_preconditions_policy L))) = dict_keys (d_actions (s_dom L)).
Proof.
  unfold handle_negative_preconditions_policy, remove_negative_preconditions. destruct (s_policy L) eqn:E; [reflexivity| |];
  cbn [s_dom with_dom set_actions d_actions]; apply (dict_keys_map_vals (fun na => drop_negative _ (snd na))).
Qed.

Section Whole.
Variables (dom0 : domain) (real : string -> option action) (policy : neg_policy) (obs : list (list joint)) (M : ma_learner).
Hypothesis W : wf_domain dom0.
Hypothesis B : blank_domain dom0.
Hypothesis Hone : length (d_consts dom0) <= 1.
Hypothesis RD : real_domain dom0 real.
Hypothesis GJ : good_joints dom0 (concat obs).
Hypothesis RJ : real_joints real (concat obs).
Hypothesis NJ : no_constant_joints dom0 (concat obs).
Hypothesis HM : ma_learned dom0 policy obs M.

Lemma whole_action n a : dict_get (d_actions (s_dom (m_sam M))) n = Some a ->
  exists M0 a0 b r, ma_inv dom0 real policy (concat obs) M0 /\ dict_get (d_actions dom0) n = Some a0 /\ real n = Some r /\
    kept_action dom0 (concat obs) (m_cnfs M0) n a0 b /\ a_eff a = a_eff b /\ a_sig a = a_sig b /\ incl (a_pre a) (a_pre b) /\
    (policy = no_remove -> a = b).
Proof.
  intros G. destruct HM as [rep E].
  destruct (ma_learn_spec dom0 real policy obs W B Hone RD GJ RJ NJ) as (M0 & M1 & M2 & I0 & E1 & E2 & E3).
  rewrite E in E3. injection E3 as <- _. subst M. cbn [m_sam with_sam] in G.
  destruct (construct_step dom0 real policy W _ M0 I0) as (M1' & E1' & _ & P1 & _ & _ & _ & K). rewrite E1 in E1'. injection E1' as <-.
  apply policy_action in G. destruct G as (b & Gb & H1 & H2 & H3 & H4 & H5). destruct (K n b Gb) as (a0 & Ga & Ka).
  destruct (real_sig _ _ RD n a0 Ga) as (r & Er & _). exists M0, a0, b, r. repeat (split; [assumption|]). intros Ep. apply H5. congruence.
Qed.

Lemma whole_effects_real n a l : dict_get (d_actions (s_dom (m_sam M))) n = Some a -> In l (a_eff a) ->
  exists r, real n = Some r /\ In l (a_eff r).
Proof.
  intros G Hl. destruct (whole_action n a G) as (M0 & a0 & b & r & I0 & G0 & Er & Ka & Ee & _). exists r. split; [assumption|].
  rewrite Ee in Hl. eapply (ma_eff_sound dom0 real policy) in Hl; eauto. apply Hl.
Qed.

Lemma whole_pre_real n a r l : policy = no_remove -> dict_get (d_actions (s_dom (m_sam M))) n = Some a -> real n = Some r ->
  In l (a_pre r) -> In l (a_pre a).
Proof.
  intros Ep G Er Hl. destruct (whole_action n a G) as (M0 & a0 & b & r' & I0 & G0 & Er' & Ka & _ & _ & _ & Hb). rewrite (Hb Ep).
  rewrite Er in Er'. injection Er' as <-. eapply (ma_pre_real dom0 real); eauto.
Qed.

Lemma whole_safe n a r : policy = no_remove ->
  (forall j, In j (concat obs) -> joint_learnable j -> seen_by_last dom0 real j /\ different_actions j) ->
  dict_get (d_actions (s_dom (m_sam M))) n = Some a -> real n = Some r -> safe_for dom0 a r.
Proof.
  intros Ep Hj G Er. destruct (whole_action n a G) as (M0 & a0 & b & r' & I0 & G0 & Er' & Ka & _ & _ & _ & Hb). rewrite (Hb Ep).
  rewrite Er in Er'. injection Er' as <-. eapply (ma_safety dom0 real policy RD (concat obs) M0 n a0 b r); eauto.
  - intros j H1 H2. apply Hj; assumption.
  - intros j H1 H2. apply Hj; assumption.
Qed.

Lemma whole_single_safe n a r : policy = no_remove ->
  (forall j, In j (concat obs) -> exists c, j_calls j = [c]) ->
  dict_get (d_actions (s_dom (m_sam M))) n = Some a -> real n = Some r -> safe_for dom0 a r.
Proof.
  intros Ep Hs. apply whole_safe; [assumption|]. intros j Hj Hl. destruct (Hs j Hj) as [c Ec].
  assert (Hc : In c (j_calls j)) by (rewrite Ec; left; reflexivity). split.
  - eapply single_seen; eauto.
  - unfold different_actions. rewrite Ec. constructor; [intros []|constructor].
Qed.

Lemma whole_clauses key k : In (key, k) (m_cnfs M) -> satisfies (real_effects real) k.
Proof.
  destruct HM as [rep E]. destruct (ma_learn_spec dom0 real policy obs W B Hone RD GJ RJ NJ) as (M0 & M1 & M2 & I0 & E1 & E2 & E3).
  rewrite E in E3. injection E3 as <- _. subst M. cbn [m_cnfs with_sam].
  destruct (construct_step dom0 real policy W _ M0 I0) as (M1' & E1' & Ec & _). rewrite E1 in E1'. injection E1' as <-. rewrite Ec.
  apply (tk_sat _ _ _ _ _ (mi_table _ _ _ _ _ I0)).
Qed.

(** The model keeps exactly the actions it declares safe; the report says so. *)
Lemma whole_kept n : In n (s_safe (m_sam M)) <-> exists a, dict_get (d_actions (s_dom (m_sam M))) n = Some a.
Proof.
  destruct HM as [rep E]. destruct (ma_learn_spec dom0 real policy obs W B Hone RD GJ RJ NJ) as (M0 & M1 & M2 & I0 & E1 & E2 & E3).
  rewrite E in E3. injection E3 as <- _. subst M. cbn [m_sam with_sam].
  destruct (construct_step dom0 real policy W _ M0 I0) as (M1' & E1' & _ & _ & _ & K & _). rewrite E1 in E1'. injection E1' as <-.
  rewrite policy_safe, K, <- !dict_get_Some_iff, policy_keys. reflexivity.
Qed.
End Whole.
