(** * Lemmas: construction of ESAM actions from recorded effects *)
From Verif Require Import SamFinal SamResults EsamSpec VocabProofs SamProofs EsamProofs EsamRun PreludeProofs.
Open Scope nat_scope.

Lemma build_spec E : (forall k, In k (dict_keys (e_clauses E)) -> In k (dict_keys (e_cannot E))) ->
  exists E', build_cnf_formulas E = Ok E' /\ e_sam E' = e_sam E /\ e_encoders E' = e_encoders E /\ e_clauses E' = e_clauses E /\
    forall n cs, dict_get (e_clauses E) n = Some cs ->
      exists no, dict_get (e_cannot E) n = Some no /\ dict_get (e_cnf E') n = Some (implicates (forget no cs)).
Proof.
  intros H. unfold build_cnf_formulas.
  set (g := fun nc : string * list clause => (fst nc, implicates (forget (match dict_get (e_cannot E) (fst nc) with Some no => no | None => [] end) (snd nc)))).
  rewrite (map_res_total _ g).
  - cbn [bind]. eexists; split; [reflexivity|]. do 3 (split; [reflexivity|]). intros n cs G.
    assert (K : In n (dict_keys (e_cannot E))) by (apply H; eapply dict_get_key; eassumption).
    apply dict_get_Some_iff in K. destruct K as (no & Gno). exists no. split; [exact Gno|]. cbn [e_cnf].
    clear H. induction (e_clauses E) as [|[k c] l IH]; [discriminate|]. unfold g at 1. cbn [map fst snd dict_get] in *.
    destruct (eq_dec n k) as [->|]; [|apply IH; exact G]. injection G as ->. rewrite Gno. reflexivity.
  - intros [k c] Hin. unfold g. cbn [fst snd]. assert (K : In k (dict_keys (e_cannot E))) by (apply H; apply in_map_iff; exists (k, c); auto).
    apply dict_get_Some_iff in K. destruct K as (no & Gno). unfold dict_lookup. rewrite Gno. reflexivity.
Qed.

Section Inj.
Variables (dom : domain) (policy : neg_policy) (real : string -> option action) (cps : list component) (n : string) (a r : action).
Hypothesis W : wf_domain dom.
Hypothesis WP : NoDup (dict_keys (d_preds dom)).
Hypothesis RD : real_domain dom real.
Hypothesis HA : forall cp, In cp cps -> good_arity dom (cp_call cp).
Hypothesis HT : forall cp, In cp cps -> real_transition real cp.
Hypothesis G : dict_get (d_actions dom) n = Some a.
Hypothesis GR : real n = Some r.
Hypothesis HI : forall cp, In cp cps -> c_name (cp_call cp) = n -> NoDup (c_params (cp_call cp)) /\ no_constant_args dom (cp_call cp).
Hypothesis HO : forall cp o, In cp cps -> c_name (cp_call cp) = n -> In o (c_params (cp_call cp)) -> ~ In o (dict_keys (a_sig a)).
Variables (E : esam) (cs : list clause).
Hypothesis HE : record_effects (init_esam dom policy) cps = Ok E.
Hypothesis HC : dict_get (e_clauses E) n = Some cs.

Let sg (cp : component) := call_assignment (a_sig a) (cp_call cp).
Let names := dict_keys (a_sig a) ++ dict_keys (d_consts dom).

Local Lemma rsig : a_sig r = a_sig a.
Proof. destruct (StripsSpec.real_sig _ _ RD n a G) as (r' & H & S). congruence. Qed.
Local Lemma gcall cp : In cp cps -> c_name (cp_call cp) = n -> good_call dom a (cp_call cp).
Proof.
  intros Hin Hn. destruct (HA cp Hin) as (a' & G' & L). rewrite Hn in G'. assert (a' = a) by congruence. subst a'.
  apply good_call_wf; [exact W|rewrite Hn; exact G|exact L].
Qed.
Local Lemma ginj cp l m : In cp cps -> c_name (cp_call cp) = n -> incl (l_args l) names -> incl (l_args m) names ->
  ground (sg cp) l = ground (sg cp) m -> l = m.
Proof.
  intros Hin Hn. destruct (gcall cp Hin Hn) as [_ Hs Hd _ Hl]. destruct (HI cp Hin Hn) as [Hp Hc].
  apply ground_lit_injective. apply (ground_injective dom (a_sig a) (cp_call cp) Hs Hd Hl Hp Hc).
Qed.
Local Lemma inv : rec_inv dom cps (init_esam dom policy) E.
Proof. destruct (record_spec dom policy cps W HA) as (E' & H & I). replace E with E' by congruence. exact I. Qed.
Local Lemma eff_names l : In l (a_eff r) -> NoDup (l_args l) /\ incl (l_args l) names.
Proof. intros H. apply mentionable_incl. rewrite <- rsig. eapply real_eff; eassumption. Qed.

(** Each clause is one real effect that was observed. *)
Local Lemma single cl : In cl cs -> exists l cp, (forall m, In m cl <-> m = l) /\ In l (a_eff r) /\
  In cp cps /\ c_name (cp_call cp) = n /\ mentionable dom (a_sig a) l /\ became_true (a_sig a) cp l.
Proof.
  intros Hcl. destruct (clauses_true dom policy real cps E n a r cs cl W RD HA HT HE G GR HC Hcl) as (l & Hl & Hle).
  destruct (rc_sound _ _ _ _ _ (ri_rec _ _ _ _ inv n a G) cs cl HC Hcl) as (cp & g & Hin & Hn & (Hw & Hb & Haf) & Hm).
  exists l, cp. assert (Hg := proj1 (Hm l) Hl). destruct Hg as (Hn1 & Hi1 & Hg1).
  split.
  { intros m. split; [|intros ->; exact Hl]. intros H. apply Hm in H. destruct H as (_ & Hi2 & Hg2).
    apply (ginj cp m l Hin Hn Hi2 Hi1). unfold sg. congruence. }
  split; [exact Hle|]. split; [exact Hin|]. split; [exact Hn|]. split.
  - rewrite <- rsig. eapply real_eff; eassumption.
  - unfold became_true, true_before, true_after. rewrite Hg1. auto.
Qed.
Local Lemma observed l cp : In cp cps -> c_name (cp_call cp) = n -> mentionable dom (a_sig a) l -> became_true (a_sig a) cp l ->
  exists cl, In cl cs /\ In l cl.
Proof.
  intros Hin Hn Hm [Hb Ha]. destruct (HI cp Hin Hn) as [Hp Hc]. assert (GC := gcall cp Hin Hn).
  apply (typing_ground dom a (cp_call cp) l GC Hp Hc) in Hm. destruct Hm as (H1 & H2 & H3).
  unfold parameterized_objects in H3. rewrite <- app_assoc in H3.
  destruct (rc_complete _ _ _ _ _ (ri_rec _ _ _ _ inv n a G) cs cp (ground (sg cp) l) HC Hin Hn) as (cl & Hcl & Hml).
  { split; [|split; assumption]. eapply well_typed_incl; [|exact H3]. intros x. rewrite !in_app_iff. tauto. }
  exists cl. split; [exact Hcl|]. apply Hml. split; [exact H1|]. split; [exact H2|reflexivity].
Qed.
Local Lemma not_cannot no l cl : dict_get (e_cannot E) n = Some no -> In cl cs -> In l cl -> ~ In l no.
Proof.
  intros Hno Hcl Hl Hin0. destruct (single cl Hcl) as (l' & cp & Hs & Hle & Hin & Hn & Hm & [Hb Ha]).
  apply Hs in Hl. subst l'. apply (rc_cannot _ _ _ _ _ (ri_rec _ _ _ _ inv n a G) no l Hno) in Hin0.
  destruct Hin0 as (cp' & Hin' & Hn' & Hw & Hf).
  assert (HK : incl (l_args l) (dict_keys (d_consts dom))).
  { destruct (eff_names l Hle) as [_ HiN]. intros x Hx. destruct (proj1 (in_app_iff _ _ _) (HiN x Hx)) as [Hk|Hk]; [|exact Hk].
    destruct Hw as (psig & os & _ & Hi & _ & Hargs & _). rewrite Hargs in Hx. apply in_map_iff in Hx. destruct Hx as ([o t] & <- & Ho).
    apply Hi in Ho. apply in_app_iff in Ho. destruct Ho as [Ho|Ho]; [|apply in_map_iff; exists (o, t); auto].
    apply in_combine_l in Ho. destruct (HO cp' o Hin' Hn' Ho Hk). }
  assert (Fix : forall c m, incl (l_args m) (dict_keys (d_consts dom)) -> ground (call_assignment (a_sig a) c) m = m).
  { intros c [mn ma mp] Hm'. unfold ground. cbn [l_name l_args l_pos] in *. f_equal. rewrite <- (map_id ma) at 2. apply map_ext_in.
    intros x Hx. apply call_assignment_other. intros Hk. exact (wf_disj _ W n a x (dict_get_In _ _ _ G) Hk (Hm' x Hx)). }
  destruct (HT cp' Hin') as (r' & Gr' & _ & HR'). rewrite Hn' in Gr'. assert (r' = r) by congruence. subst r'.
  destruct (HT cp Hin) as (r' & Gr & _ & HR). rewrite Hn in Gr. assert (r' = r) by congruence. subst r'.
  rewrite rsig in HR, HR'. unfold true_after in Ha. rewrite (Fix _ _ HK) in Ha.
  destruct l as [ln la lp]. unfold lit_true in Hf, Ha. cbn [l_pos l_name l_args] in *. destruct lp.
  - apply Hf. apply HR'. left. eexists. split; [exact Hle|]. split; [reflexivity|]. apply Fix; exact HK.
  - destruct (holds_dec (cp_next cp') ln la) as [Hh|Hh]; [|contradiction]. apply HR' in Hh. destruct Hh as [(l2 & H2 & P2 & E2)|[_ H2]].
    + assert (l2 = mkLit ln la true).
      { apply (ginj cp' l2 (mkLit ln la true) Hin' Hn'); [apply eff_names; exact H2|exact (proj2 (eff_names _ Hle))|].
        unfold sg. rewrite E2. symmetry. apply Fix; exact HK. }
      subst l2. apply Ha. apply HR. left. eexists. split; [exact H2|]. split; [reflexivity|]. apply Fix; exact HK.
    + apply H2. eexists. split; [exact Hle|]. split; [reflexivity|]. apply Fix; exact HK.
Qed.

Lemma injective_construct numbers E1 :
  build_cnf_formulas E = Ok E1 ->
  exists a', construct_safe_action numbers E1 n = Ok (with_esam E1 (put_action (e_sam E1) n a')) /\
    a_name a' = a_name a /\ a_sig a' = a_sig a /\ a_ineq a' = a_ineq a /\
    (forall l, In l (a_pre a') <-> In l (a_pre a)) /\
    (forall l, In l (a_eff a') <-> exists cp, In cp cps /\ c_name (cp_call cp) = n /\ mentionable dom (a_sig a) l /\ became_true (a_sig a) cp l) /\
    (forall l, In l (a_eff a') -> In l (a_eff r)).
Proof.
  intros HB. assert (I := inv). destruct (build_spec E) as (E1' & HB' & S1 & _ & _ & F1).
  { intros k. rewrite (ri_ck _ _ _ _ I), (ri_nk _ _ _ _ I). auto. }
  assert (E1' = E1) by congruence. subst E1'. clear HB'. destruct (F1 n cs HC) as (no & Hno & GF). set (f := implicates (forget no cs)) in *.
  assert (Inf : forall cl, In cl f <-> In cl cs).
  { intros cl. unfold f. rewrite implicates_In, forget_In. split; [tauto|]. intros Hcl.
    split; [split; [exact Hcl|]; intros x Hx; eapply not_cannot; eassumption|].
    intros cl' Hcl' Hi x Hx. apply forget_In in Hcl'. destruct Hcl' as [Hcl' _].
    destruct (single cl Hcl) as (l & _ & Hs & _). destruct (single cl' Hcl') as (l' & _ & Hs' & _).
    assert (In l' cl) by (apply Hi, Hs'; reflexivity). apply Hs in H. apply Hs in Hx. subst. apply Hs'; reflexivity. }
  assert (Occ : forall l, occurs f l <-> exists cp, In cp cps /\ c_name (cp_call cp) = n /\ mentionable dom (a_sig a) l /\ became_true (a_sig a) cp l).
  { intros l. split.
    - intros (cl & Hcl & Hl). apply Inf in Hcl. destruct (single cl Hcl) as (l' & cp & Hs & _ & H1 & H2 & H3 & H4). apply Hs in Hl. subst l'. exists cp. auto.
    - intros (cp & H1 & H2 & H3 & H4). destruct (observed l cp H1 H2 H3 H4) as (cl & Hcl & Hl). exists cl. split; [apply Inf; exact Hcl|exact Hl]. }
  assert (Real : forall l, occurs f l -> In l (a_eff r)).
  { intros l (cl & Hcl & Hl). apply Inf in Hcl. destruct (single cl Hcl) as (l' & _ & Hs & Hr & _). apply Hs in Hl. subst; exact Hr. }
  assert (SD : e_sam E1 = init_learner dom policy true) by (rewrite S1, (ri_sam _ _ _ _ I); reflexivity).
  destruct (construct_unique numbers E1 n a (a_sig a) f) with (v := fun _ : literal => true) as (a' & K1 & K2 & K3 & K4 & K5 & K6).
  - rewrite SD. exact G.
  - rewrite SD. unfold init_learner. cbn [s_sigs].
    clear -G. induction (d_actions dom) as [|[k b] l IH]; [discriminate|]. cbn [map fst snd dict_get] in *.
    destruct (eq_dec n k); [congruence|auto].
  - exact GF.
  - eapply wf_sigs; [exact W|apply dict_get_In; exact G].
  - intros l l' H H' En. apply vars_In in H. apply vars_In in H'. apply Occ in H. apply Occ in H'.
    destruct H as (_ & _ & _ & (ps & os & P1 & _ & _ & A1 & T1) & _). destruct H' as (_ & _ & _ & (ps' & os' & P1' & _ & _ & A1' & T1') & _).
    assert (ps = ps'). { rewrite En in P1. apply (dict_In_get (d_preds dom) _ _ WP) in P1. apply (dict_In_get (d_preds dom) _ _ WP) in P1'. congruence. }
    subst ps'. rewrite A1, A1', !map_length. apply Forall2_length in T1. apply Forall2_length in T1'. congruence.
  - split; [|intros l _ F; discriminate]. intros cl Hcl. apply Inf in Hcl. destruct (single cl Hcl) as (l & _ & Hs & _). exists l. split; [apply Hs; reflexivity|reflexivity].
  - intros w [Hw _] (l & (cl & Hcl & Hl) & Hd). destruct (Hw cl Hcl) as (l2 & Hl2 & Hv). apply Inf in Hcl. destruct (single cl Hcl) as (l' & _ & Hs & _).
    apply Hs in Hl. apply Hs in Hl2. congruence.
  - exists a'. split; [exact K1|]. do 3 (split; [assumption|]). split; [intros l; rewrite K5; split; [intros [H|[_ F]]; [exact H|discriminate]|auto]|].
    split; [intros l; rewrite K6, Occ; tauto|]. intros l Hl. apply K6 in Hl. apply Real, Hl.
Qed.
End Inj.

Lemma injective_run dom policy real cps n a r numbers :
  wf_domain dom -> NoDup (dict_keys (d_preds dom)) -> real_domain dom real ->
  (forall cp, In cp cps -> good_arity dom (cp_call cp)) -> (forall cp, In cp cps -> real_transition real cp) ->
  dict_get (d_actions dom) n = Some a -> real n = Some r ->
  (forall cp, In cp cps -> c_name (cp_call cp) = n -> NoDup (c_params (cp_call cp)) /\ no_constant_args dom (cp_call cp)) ->
  (forall cp o, In cp cps -> c_name (cp_call cp) = n -> In o (c_params (cp_call cp)) -> ~ In o (dict_keys (a_sig a))) ->
  exists E E1 a', record_effects (init_esam dom policy) cps = Ok E /\ build_cnf_formulas E = Ok E1 /\
    construct_safe_action numbers E1 n = Ok (with_esam E1 (put_action (e_sam E1) n a')) /\
    a_name a' = a_name a /\ a_sig a' = a_sig a /\ a_ineq a' = a_ineq a /\
    (forall l, In l (a_pre a') <-> In l (a_pre a)) /\
    (forall l, In l (a_eff a') <-> exists cp, In cp cps /\ c_name (cp_call cp) = n /\ mentionable dom (a_sig a) l /\ became_true (a_sig a) cp l) /\
    (forall l, In l (a_eff a') -> In l (a_eff r)).
Proof.
  intros W WP RD HA HT G GR HI HO. destruct (record_spec dom policy cps W HA) as (E & HE & I).
  assert (K := dict_get_key _ _ _ G). rewrite <- (ri_ck _ _ _ _ I) in K. apply dict_get_Some_iff in K. destruct K as (cs & HC).
  destruct (build_spec E) as (E1 & HB & _). { intros k. rewrite (ri_ck _ _ _ _ I), (ri_nk _ _ _ _ I). auto. }
  destruct (injective_construct dom policy real cps n a r W WP RD HA HT G GR HI HO E cs HE HC numbers E1 HB) as (a' & H).
  exists E, E1, a'. split; [exact HE|]. split; [exact HB|exact H].
Qed.

(** ** Runs *)
Lemma learn_raises numbers E obs : concat obs <> [] -> esam_learn numbers E obs = Err TypeError.
Proof.
  intros H. unfold esam_learn. cbv zeta. set (E1 := with_esam _ _). clearbody E1.
  assert (R : fold_res (fun E o => fold_res esam_handle_component o E) obs E1 = Err TypeError); [|rewrite R; reflexivity].
  revert H. induction obs as [|o obs IH]; [intros F; destruct F; reflexivity|]. cbn [concat fold_res]. intros H.
  destruct o as [|cp o]; [cbn [fold_res bind]; apply IH; exact H|reflexivity].
Qed.

Lemma complete_id L : (forall ns, In ns (s_sigs L) -> In (fst ns) (dict_keys (d_actions (s_dom L)))) -> complete_possibly_missing_actions L = L.
Proof.
  unfold complete_possibly_missing_actions. generalize (s_sigs L). induction l as [|ns l IH]; intros H; [reflexivity|].
  cbn [fold_left]. assert (M : dict_mem (fst ns) (d_actions (s_dom L)) = true) by (apply memb_In, H; left; reflexivity).
  rewrite M. apply IH. intros x Hx; apply H; right; exact Hx.
Qed.

Lemma learn_nothing numbers dom policy obs : wf_domain dom -> concat obs = [] ->
  exists E rep, esam_learn numbers (init_esam dom policy) obs = Ok (E, rep) /\
    forall n a, dict_get (d_actions dom) n = Some a ->
      In (n, v_unobserved) rep /\
      exists a', dict_get (d_actions (s_dom (e_sam E))) n = Some a' /\ a_sig a' = a_sig a /\
        ((exists l, mentionable dom (a_sig a) l) -> forall sg s, ~ applicable a' sg s).
Proof.
  intros W Hobs. unfold esam_learn. cbv zeta.
  assert (C : complete_possibly_missing_actions (e_sam (init_esam dom policy)) = init_learner dom policy true).
  { apply complete_id. unfold init_esam, init_learner. cbn [e_sam s_sigs s_dom]. intros ns H. apply in_map_iff in H. destruct H as (x & <- & Hx).
    cbn [fst]. unfold dict_keys. apply in_map; exact Hx. }
  rewrite C. set (E1 := with_esam (init_esam dom policy) (init_learner dom policy true)).
  assert (R : fold_res (fun E o => fold_res esam_handle_component o E) obs E1 = Ok E1).
  { clear -Hobs. clearbody E1. revert Hobs. induction obs as [|o obs IH]; intros H; [reflexivity|]. cbn [concat fold_res] in *.
    apply app_eq_nil in H. destruct H as [-> H]. cbn [fold_res bind]. apply IH; exact H. }
  rewrite R. cbn [bind]. set (L3 := handle_unobserved_actions (handle_negative_preconditions_policy (e_sam E1))).
  destruct (build_spec (with_esam E1 L3)) as (E4 & B4 & S4 & _).
  { intros k. unfold E1, init_esam. cbn [with_esam e_clauses e_cannot]. unfold dict_keys. rewrite !map_map. auto. }
  rewrite B4. cbn [bind]. cbn [with_esam e_sam] in S4.
  assert (O : s_observed L3 = []).
  { unfold L3, E1. cbn [with_esam e_sam]. unfold handle_unobserved_actions, handle_negative_preconditions_policy. destruct (s_policy _); reflexivity. }
  unfold esam_construct_safe_actions. rewrite S4, O. cbn [fold_res bind]. do 2 eexists. split; [reflexivity|].
  assert (Sg : d_preds (s_dom (handle_negative_preconditions_policy (e_sam E1))) = d_preds dom /\ d_consts (s_dom (handle_negative_preconditions_policy (e_sam E1))) = d_consts dom).
  { unfold E1. cbn [with_esam e_sam]. unfold handle_negative_preconditions_policy. destruct (s_policy _); split; reflexivity. }
  assert (Ob : s_observed (handle_negative_preconditions_policy (e_sam E1)) = []).
  { unfold E1. cbn [with_esam e_sam]. unfold handle_negative_preconditions_policy. destruct (s_policy _); reflexivity. }
  assert (Kd : dict_keys (d_actions (s_dom L3)) = dict_keys (d_actions dom)).
  { unfold L3, handle_unobserved_actions. cbn [s_dom with_dom set_actions d_actions].
    transitivity (dict_keys (d_actions (s_dom (handle_negative_preconditions_policy (e_sam E1))))).
    - unfold dict_keys. rewrite map_map. apply map_ext. intros [k b]. cbn [fst]. destruct (memb k _); reflexivity.
    - apply policy_keys. }
  intros n a Ga. split.
  - rewrite S4. apply report_spec.
    + rewrite Kd. eapply wf_acts; exact W.
    + unfold L3, E1. cbn [with_esam e_sam]. unfold handle_unobserved_actions, handle_negative_preconditions_policy. destruct (s_policy _); reflexivity.
    + rewrite O. intros k [].
    + rewrite O. split; [rewrite Kd; eapply dict_get_key; eassumption|intros []].
  - rewrite S4. destruct (policy_spec (e_sam E1) n a) as (b & Gb & _ & Sb & _ & _ & _); [exact Ga|].
    exists (with_pre b (set_union (a_pre b) (lifted_vocabulary (s_dom (handle_negative_preconditions_policy (e_sam E1))) (a_sig b) None))).
    split; [|split; [exact Sb|]].
    + unfold L3, handle_unobserved_actions. cbn [s_dom with_dom set_actions d_actions]. rewrite Ob. clear -Gb.
      induction (d_actions (s_dom (handle_negative_preconditions_policy (e_sam E1)))) as [|[k x] l IH]; [discriminate|].
      cbn [map fst snd memb existsb dict_get] in *. destruct (eq_dec n k); [congruence|auto].
    + intros (l & Hl) sg s [Hp _]. cbn [with_pre a_pre] in Hp.
      assert (V : forall m, mentionable dom (a_sig a) m -> lit_true s (ground sg m)).
      { intros m Hm. apply Hp. apply set_union_In. right. apply lifted_vocabulary_exact.
        - rewrite (proj2 Sg), Sb, map_app. apply NoDup_app_iff. split; [eapply wf_sigs; [exact W|apply dict_get_In; exact Ga]|].
          split; [eapply wf_consts; exact W|]. intros x Hx. eapply wf_disj; [exact W|apply dict_get_In; exact Ga|exact Hx].
        - split; [|exact I]. rewrite Sb. unfold mentionable, well_typed in *. rewrite (proj1 Sg), (proj2 Sg). exact Hm. }
      assert (H1 := V l Hl). assert (H2 := V (neg_lit l) (proj2 (well_typed_neg _ _ _) Hl)). rewrite ground_neg, lit_true_neg in H2. contradiction.
Qed.

(** ** Proxy actions *)
Lemma entries_ok d args : incl args (dict_keys d) -> map_res (dict_lookup d) args = Ok (map (entry d) args).
Proof.
  intros H. apply map_res_total. intros x Hx. apply H in Hx. apply dict_get_Some_iff in Hx. destruct Hx as (v & G).
  unfold dict_lookup, entry. rewrite G. reflexivity.
Qed.
Lemma modify_ok d l : kept_apart d l -> modify_literal d l = Ok (ground (entry d) l).
Proof.
  intros [H1 H2]. unfold modify_literal. rewrite (entries_ok d _ H1). cbn [bind]. unfold ground. rewrite to_set_id by exact H2. reflexivity.
Qed.
Lemma ground_comp (sg : assignment) d l : ground sg (ground (entry d) l) = ground (fun x => sg (entry d x)) l.
Proof. unfold ground. cbn [l_name l_args l_pos]. rewrite map_map. reflexivity. Qed.
Lemma modify_all d ls : (forall l, In l ls -> kept_apart d l) ->
  exists ls', modify_predicate_signature ls d = Ok ls' /\ forall m, In m ls' <-> exists l, In l ls /\ m = ground (entry d) l.
Proof.
  intros H. unfold modify_predicate_signature. rewrite (map_res_total _ (ground (entry d))) by (intros l Hl; apply modify_ok, H, Hl).
  cbn [bind]. eexists; split; [reflexivity|]. intros m. rewrite to_set_In, in_map_iff. split; intros (l & A & B); exists l; auto.
Qed.

Lemma proxy_spec E n a missing effects d k :
  dict_get (d_actions (s_dom (e_sam E))) n = Some a ->
  dict_keys d = dict_keys (a_sig a) -> (forall p, In p (dict_keys d) -> In (entry d p) (dict_keys d)) -> NoDup (dict_keys d) ->
  (forall l, In l missing \/ In l effects \/ In l (a_pre a) -> kept_apart d l) ->
  exists pa, construct_proxy_action E n missing effects d k = Ok pa /\ a_name pa = k /\
    NoDup (dict_keys (a_sig pa)) /\
    (forall p t, In (p, t) (a_sig pa) -> In (p, t) (a_sig a)) /\
    (forall p, In p (dict_keys (a_sig pa)) <-> exists q, In q (dict_keys (a_sig a)) /\ entry d q = p) /\
    forall sg s, (applicable pa sg s <-> applicable (intended a missing effects) (fun x => sg (entry d x)) s) /\
      forall p args, after pa sg s p args <-> after (intended a missing effects) (fun x => sg (entry d x)) s p args.
Proof.
  intros G K HR N HK. unfold construct_proxy_action. unfold dict_lookup at 1. rewrite G. cbn [bind].
  destruct (modify_all d effects) as (eff & Ee & He); [auto|]. rewrite Ee. cbn [bind].
  destruct (modify_all d (set_union (to_set missing) (a_pre a))) as (pre & Ep & Hp).
  { intros l Hl. apply set_union_In in Hl. rewrite to_set_In in Hl. apply HK. tauto. }
  rewrite Ep. cbn [bind]. cbv zeta. set (rev_d := dict_of (map (fun on : string * string => (snd on, fst on)) d)).
  assert (RK : forall p, In p (dict_keys rev_d) <-> exists q, In q (dict_keys (a_sig a)) /\ entry d q = p).
  { intros p. unfold rev_d. rewrite dict_of_keys, map_map, in_map_iff. split.
    - intros ([o nw] & <- & Hin). cbn [fst snd]. exists o. rewrite <- K. split; [apply in_map_iff; exists (o, nw); auto|].
      unfold entry. rewrite (dict_In_get d o nw N Hin). reflexivity.
    - intros (q & Hq & <-). rewrite <- K in Hq. apply dict_get_Some_iff in Hq. destruct Hq as (v & Gv). exists (q, v). split; [|apply dict_get_In; exact Gv].
      cbn [fst snd]. unfold entry. rewrite Gv. reflexivity. }
  assert (T : forall p, In p (dict_keys rev_d) -> exists t, dict_get (a_sig a) p = Some t).
  { intros p H. apply RK in H. destruct H as (q & Hq & <-). apply dict_get_Some_iff. rewrite <- K in *. apply HR; exact Hq. }
  set (ty := fun p => match dict_get (a_sig a) p with Some t => t | None => mkType "" [] end).
  rewrite (map_res_total _ (fun p => (p, ty p))).
  2: { intros p H. destruct (T p H) as (t & Gt). unfold dict_lookup, ty. rewrite Gt. reflexivity. }
  cbn [bind]. eexists; split; [reflexivity|]. split; [reflexivity|]. cbn [a_sig].
  assert (KK : dict_keys (map (fun p => (p, ty p)) (dict_keys rev_d)) = dict_keys rev_d) by (unfold dict_keys at 1; rewrite map_map; apply map_id).
  split; [rewrite KK; apply dict_of_keys_NoDup|]. split.
  { intros p t H. apply in_map_iff in H. destruct H as (q & E' & Hq). injection E' as <- <-. destruct (T q Hq) as (t & Gt). unfold ty. rewrite Gt. apply dict_get_In; exact Gt. }
  split; [intros p; rewrite KK; apply RK|]. intros sg s.
  assert (Hpre : forall m, In m pre <-> exists l, In l (missing ++ a_pre a) /\ m = ground (entry d) l).
  { intros m. rewrite Hp. split; intros (l & H1 & H2); exists l; (split; [|exact H2]).
    - apply in_app_iff. apply set_union_In in H1. rewrite to_set_In in H1. exact H1.
    - apply set_union_In. rewrite to_set_In. apply in_app_iff in H1. exact H1. }
  split.
  - unfold applicable, intended. cbn [a_pre a_ineq]. split; intros [H _]; (split; [|intros x y []]); intros l Hl.
    + rewrite <- ground_comp. apply H. apply Hpre. exists l; auto.
    + apply Hpre in Hl. destruct Hl as (l0 & Hl0 & ->). rewrite ground_comp. apply H; exact Hl0.
  - intros p args. unfold after, intended. cbn [a_eff].
    assert (X : forall b, (exists l, In l eff /\ l_pos l = b /\ ground sg l = mkLit p args b) <->
                          (exists l, In l effects /\ l_pos l = b /\ ground (fun x => sg (entry d x)) l = mkLit p args b)).
    { intros b. split.
      - intros (l & H1 & H2 & H3). apply He in H1. destruct H1 as (l0 & Hl0 & ->). exists l0. rewrite <- ground_comp. auto.
      - intros (l & H1 & H2 & H3). exists (ground (entry d) l). split; [apply He; exists l; auto|]. rewrite ground_comp. auto. }
    rewrite (X true), (X false). reflexivity.
Qed.
