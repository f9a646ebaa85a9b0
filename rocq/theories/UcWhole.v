(** * Quantified learning: the statements of the properties *)
From Verif Require Import VocabProofs SamModel SamSpec SamProofs SamFinal LogicProofs DepProofs CondModel CondSpec CondProofs CondFinal CondSafety TextProofs UcModel UcSpec UcLift UcStep UcProofs UcInv UcLearn UcSafety PreludeProofs.

Lemma u_dependencies_exact dom types umap inj max policy h n a0 names tn t :
  wf_domain dom -> blank_domain dom -> good_universal dom types umap h ->
  dict_get (d_actions dom) n = Some a0 -> dict_get umap n = Some names -> In tn names -> In (tn, t) types ->
  (exists e, In e h /\ c_name (entry_call e) = n) ->
  exists U x D seen, u_observe dom types max policy inj umap h = Ok U /\
    dict_get (sub_dict (u_param U) n) tn = Some x /\ ~ In x (dict_keys (a_sig a0)) /\
    dict_get (sub_dict (u_q U) n) tn = Some D /\ dict_get (sub_dict (u_seen U) n) tn = Some seen /\
    (forall l, In l (dict_keys (possible D)) <-> quantified_literal dom (a_sig a0 ++ [(x, t)]) x l) /\
    (forall l, In l seen <-> In x (l_args l) /\ observed_effect dom (a_sig a0 ++ [(x, t)]) (instances tn h) n l) /\
    forall l cands, dict_get (possible D) l = Some cands ->
      (forall c, In c cands -> antecedents dom (a_sig a0 ++ [(x, t)]) max c /\ explains (a_sig a0 ++ [(x, t)]) (instances tn h) n l c) /\
      (forall X, antecedents dom (a_sig a0 ++ [(x, t)]) max X -> explains (a_sig a0 ++ [(x, t)]) (instances tn h) n l X ->
                 length (filter (set_eqb X) cands) = 1).
Proof.
  intros W B GU G0 Hmap Htn Ht (e & He & Hn).
  destruct (u_history dom types umap inj max W B (gu_consts _ _ _ _ GU) (gu_types _ _ _ _ GU) (gu_tname _ _ _ _ GU) policy h GU) as (U & EU & I).
  assert (Hex : exists cp, about (components h) n cp) by (exists (snd e); split; [apply in_map; assumption|exact Hn]).
  destruct (gu_map _ _ _ _ GU e He) as (ns & Em & Hall). rewrite Hn, Hmap in Em. injection Em as <-. destruct (Hall tn Htn) as (N1 & N2 & N3).
  destruct (ui_param _ _ _ _ _ _ _ I n a0 names G0 Hmap Hex) as (P1 & _).
  destruct (ui_q _ _ _ _ _ _ _ I n a0 names tn G0 Hmap Htn Hex) as (D & ED & HD).
  destruct (ui_seen _ _ _ _ _ _ _ I n a0 names tn G0 Hmap Htn N3 N1) as (s & Es & Hs).
  destruct (xname_spec (a_sig a0) tn N2) as (_ & X2 & _).
  assert (Ex : xsignature types (a_sig a0) tn = a_sig a0 ++ [(xname (a_sig a0) tn, t)]).
  { unfold xsignature. rewrite (xtype_In types (gu_types _ _ _ _ GU) tn t Ht). reflexivity. }
  rewrite Ex in *. set (x := xname (a_sig a0) tn) in *.
  assert (Hnd : NoDup (map fst ((a_sig a0 ++ [(x, t)]) ++ d_consts dom))).
  { rewrite (gu_consts _ _ _ _ GU), app_nil_r, map_app. apply NoDup_app_iff. split; [apply dict_get_In in G0; exact (wf_sigs _ W _ _ G0)|].
    split; [constructor; [intros []|constructor]|]. intros y Hy [<-|[]]. exact (X2 Hy). }
  exists U, x, D, s. split; [assumption|]. split; [apply P1; assumption|]. split; [assumption|]. split; [assumption|]. split; [assumption|].
  split; [apply (qd_keys _ _ _ _ _ _ HD)|]. split; [exact Hs|]. intros l cands El.
  pose proof (qd_cands _ _ _ _ _ _ HD l cands El) as Hc. split.
  - intros c Hin. apply Hc in Hin. destruct Hin as [H1 H2]. split; [apply comb_antecedents; assumption|assumption].
  - intros X HX Hexp. apply (one_member X cands (all_combinations dom (a_sig a0 ++ [(x, t)]) max)).
    + apply antecedents_comb; assumption.
    + apply (qd_good _ _ _ _ _ _ HD l cands El).
    + intros c Hin. apply Hc in Hin. tauto.
    + intros c Hin Eq. apply Hc. split; [assumption|]. eapply explains_same; [|exact Hexp]. exact (proj1 (set_eqb_iff _ _) Eq).
Qed.

Lemma u_missing_entry dom types umap inj max policy h e rest a0 tn :
  wf_domain dom -> blank_domain dom -> good_universal dom types umap h ->
  dict_get (d_actions dom) (c_name (entry_call e)) = Some a0 -> dict_get umap (c_name (entry_call e)) = None ->
  In tn (dict_keys types) -> tn <> "object"%string ->
  u_observe dom types max policy inj umap (h ++ e :: rest) = Err KeyError.
Proof.
  intros W B GU G0 Hmap Htn Hob.
  destruct (u_history dom types umap inj max W B (gu_consts _ _ _ _ GU) (gu_types _ _ _ _ GU) (gu_tname _ _ _ _ GU) policy h GU) as (U & EU & I).
  unfold u_observe in *. cbv zeta in *. rewrite fold_res_app, EU. cbn [bind fold_res].
  assert (E : u_handle_component U e = Err KeyError); [|rewrite E; reflexivity].
  destruct e as [objs cp]. change (entry_call (objs, cp)) with (cp_call cp) in *.
  assert (Hobs : ~ In (c_name (cp_call cp)) (s_observed (c_sam (u_c U)))).
  { intros Hin. apply (cv_obsd _ _ _ _ _ (ui_c _ _ _ _ _ _ _ I)) in Hin. destruct Hin as (cp' & Hin & Hn). apply in_map_iff in Hin.
    destruct Hin as (e' & <- & He'). destruct (gu_map _ _ _ _ GU e' He') as (ns & Em & _). unfold entry_call in Em. rewrite Hn, Hmap in Em. discriminate. }
  destruct (cv_act _ _ _ _ _ (ui_c _ _ _ _ _ _ _ I) _ a0 G0) as (a & Ga & _).
  unfold u_handle_component. destruct (triplet_snapshot_universal _ _ _ _ _ _) as [prev next].
  apply memb_nIn in Hobs. rewrite Hobs. unfold initialize_actions_dependencies. rewrite (dict_lookup_Some _ _ _ Ga). cbn [bind].
  unfold initialize_universal. cbn [with_c u_c u_dom with_deps c_sam].
  change (u_dom (with_c U ?C)) with (s_dom (c_sam (u_c U))). rewrite (dict_lookup_Some _ _ _ Ga). cbn [bind]. cbn [with_c u_types].
  rewrite (ui_types _ _ _ _ _ _ _ I).
  match goal with |- bind (fold_res ?f types ?V) ?k = _ => set (F := f); set (V0 := V) end.
  assert (HV : u_map V0 = umap) by exact (ui_map _ _ _ _ _ _ _ I). clearbody V0.
  assert (E : fold_res F types V0 = Err KeyError); [|rewrite E; reflexivity].
  clear - Htn Hob HV Hmap. induction types as [|[tn0 t0] ts IH]; [destruct Htn|]. cbn [fold_res]. unfold F at 1, initialize_universal_type.
  cbn [fst snd]. destruct (String.eqb tn0 "object") eqn:E0.
  - cbn [bind]. apply IH. destruct Htn as [<-|Htn]; [|assumption]. apply String.eqb_eq in E0. contradiction.
  - rewrite HV. unfold dict_lookup. rewrite Hmap. reflexivity.
Qed.

Section Whole.
Variables (lb : lib) (dom : domain) (types : list (string * ptype)) (umap : list (string * list string)) (inj : bool) (max : nat)
          (policy : neg_policy) (h : list entry) (real : string -> option uaction).
Hypothesis W : wf_domain dom.
Hypothesis B : blank_domain dom.
Hypothesis RU : real_universal dom types max real.
Hypothesis GU : good_universal dom types umap h.
Hypothesis RS : forall e, In e h -> real_universal_step real e.
Variables (us : list (string * uact)) (n : string) (u : uact) (w : uaction).
Hypothesis E : u_learn lb dom types max policy inj umap h = Ok us.
Hypothesis Hu : In (n, u) us.
Hypothesis Hw : real n = Some w.

Lemma whole_parts : exists a0 names, dict_get (d_actions dom) n = Some a0 /\ dict_get umap n = Some names /\
  (exists e, In e h /\ c_name (entry_call e) = n) /\ learned_quantified lb dom types umap inj max h n a0 u.
Proof.
  destruct (u_learn_spec lb dom types max policy inj umap h W B GU) as (us' & E' & _ & Hn & Hall). rewrite E in E'. injection E' as <-.
  assert (Hex : exists e, In e h /\ c_name (entry_call e) = n) by (apply Hn; apply (in_map fst) in Hu; exact Hu).
  assert (Hex' := Hex). destruct Hex as (e & He & Hne).
  destruct (gu_arity _ _ _ _ GU e He) as (a0 & G0 & _). rewrite Hne in G0.
  destruct (gu_map _ _ _ _ GU e He) as (names & Em & _). rewrite Hne in Em.
  exists a0, names. split; [assumption|]. split; [assumption|]. split; [assumption|]. eapply Hall; eassumption.
Qed.

Lemma u_whole_pre objs s sg : u_applicable u objs s sg -> forall l, In l (q_pre (w_base w)) -> lit_at s sg l.
Proof.
  intros Happ l Hl. destruct whole_parts as (a0 & names & G0 & Em & Hex & LQ).
  eapply whole_u_pre; eassumption.
Qed.
Hypothesis TOLD : told dom umap real.
Lemma sig_eq a0 : dict_get (d_actions dom) n = Some a0 -> q_sig (w_base w) = a_sig a0.
Proof. intros G0. eapply w_sig; eassumption. Qed.
Lemma u_whole_sound objs s sg g :
  lib_nested lb = false \/ (forall l, In l (granted lb (ua_k u)) -> always_before dom (q_sig (w_base w)) (components h) n l) ->
  u_applicable u objs s sg -> u_fires (as_uaction u) objs s sg g -> u_fires w objs s sg g.
Proof.
  intros HG Happ Hf. destruct whole_parts as (a0 & names & G0 & Em & Hex & LQ). rewrite (sig_eq a0 G0) in HG.
  assert (HG' : forall l, In l (granted lb (ua_k u)) -> always_before dom (a_sig a0) (components h) n l).
  { destruct HG as [Hlib|HG]; [|exact HG]. intros l. apply (lq_granted _ _ _ _ _ _ _ _ _ _ LQ Hlib). }
  eapply whole_u_sound; eassumption.
Qed.
Lemma u_whole_safe : 1 <= max -> lib_nested lb = false ->
  (forall l, ~ unseen_guess dom (q_sig (w_base w)) max (components h) n l) ->
  (forall l, ~ lost_restriction dom (q_sig (w_base w)) max (components h) n l) ->
  (forall names tn t l, dict_get umap n = Some names -> In tn names -> In (tn, t) types ->
     ~ unseen_quantified dom (q_sig (w_base w) ++ [(w_param w tn, t)]) max (instances tn h) n (granted lb (ua_k u)) (w_param w tn) l) ->
  forall objs s sg, u_applicable u objs s sg -> consistent w objs s sg ->
    (forall l, In l (q_pre (w_base w)) -> lit_at s sg l) /\
    (forall p args, u_after (as_uaction u) objs s sg p args <-> u_after w objs s sg p args).
Proof.
  intros Hmax Hlib H1 H2 H3 objs s sg Happ Hc. split; [apply (u_whole_pre objs s sg Happ)|].
  destruct whole_parts as (a0 & names & G0 & Em & Hex & LQ). rewrite (sig_eq a0 G0) in *.
  assert (HG : forall l, In l (granted lb (ua_k u)) -> always_before dom (a_sig a0) (components h) n l).
  { intros l. apply (lq_granted _ _ _ _ _ _ _ _ _ _ LQ Hlib). }
  eapply whole_u_successor; try eassumption. intros tn t l Htn Ht. apply (H3 names); assumption.
Qed.
End Whole.
