(** * Quantified learning: totality and exactness of the whole run *)
From Verif Require Import VocabProofs SamModel SamSpec SamProofs SamFinal LogicProofs DepProofs CondModel CondSpec CondProofs CondFinal TextProofs UcModel UcSpec UcLift UcStep UcProofs UcInv UcForm UcGranted UcFinal PreludeProofs.

Section Construct.
Variables (lb : lib) (dom : domain) (types : list (string * ptype)) (umap : list (string * list string)) (inj : bool) (max : nat) (h : list entry) (U : ulearner).
Hypothesis W : wf_domain dom.
Hypothesis Hcon : d_consts dom = [].
Hypothesis Htypes : NoDup (dict_keys types).
Hypothesis I : u_inv dom types umap inj max h U.

Theorem u_construct_spec n a0 names : dict_get (d_actions dom) n = Some a0 -> dict_get umap n = Some names ->
  (forall tn, In tn names -> tn <> "object"%string /\ tn <> ""%string /\ In tn (dict_keys types)) ->
  (exists cp, about (components h) n cp) ->
  exists u, u_construct lb U n = Ok (n, u) /\ learned_quantified lb dom types umap inj max h n a0 u.
Proof.
  intros G0 Hmap Hnames Hex.
  destruct (construct_spec lb dom inj max (components h) (u_c U) n a0 W (ui_c _ _ _ _ _ _ _ I) G0 Hex) as (k & Ek & Hk).
  assert (Hv := construct_root lb dom inj max (components h) (u_c U) n a0 k W (ui_c _ _ _ _ _ _ _ I) G0 Hex Ek).
  assert (Hg : lib_nested lb = false -> forall l, In l (granted lb k) <-> always_before dom (a_sig a0) (components h) n l).
  { intros Hlib. unfold granted. rewrite Hlib. exact (construct_root_literals lb dom inj max (components h) (u_c U) n a0 k Hlib W (ui_c _ _ _ _ _ _ _ I) G0 Hex Ek). }
  destruct (ui_param _ _ _ _ _ _ _ I n a0 names G0 Hmap Hex) as (P1 & P2 & P3 & P4).
  unfold u_construct. rewrite Ek. cbn [bind].
  assert (Enames : quantified_names U n = names).
  { unfold quantified_names. rewrite (ui_map _ _ _ _ _ _ _ I), Hmap. reflexivity. }
  rewrite Enames. destruct names as [|tn0 names0] eqn:EN.
  - exists (mkUact k [] (map (fun tx => (snd tx, fst tx, [])) (sub_dict (u_param U) n))). split; [reflexivity|].
    assert (E0 : sub_dict (u_param U) n = []).
    { destruct (sub_dict (u_param U) n) as [|[tn x] rest]; [reflexivity|]. destruct (P2 tn x (or_introl eq_refl)) as [[] _]. }
    rewrite E0. constructor.
    + exact Hk.
    + intros f l Hf Hl. exact (Hv f Hf l Hl).
    + exact Hg.
    + intros ns tn t Hm Hin _. rewrite Hmap in Hm. injection Hm as <-. destruct Hin.
    + intros tn [[]|[]].
  - rewrite <- EN in *. clear Enames.
    assert (HGv : forall l, In l (granted lb k) -> mentionable dom (a_sig a0) l).
    { intros l Hl. unfold granted in Hl. destruct (lib_nested lb).
      - apply (proj1 (forms_flat _ _) Hv); assumption.
      - eapply same_level_ok; eassumption. }
    assert (Hupl : forall l, In l (u_precondition_literals lb k []) <-> In l (granted lb k)).
    { intros l. unfold u_precondition_literals, granted. cbn [flat_map]. rewrite app_nil_r. apply to_set_In. }
    set (qs := map (fun td => (fst td, remove_preconditions_literals (snd td) (u_precondition_literals lb k []))) (sub_dict (u_q U) n)).
    assert (Kqs : dict_keys qs = dict_keys (sub_dict (u_param U) n)).
    { rewrite <- P4. unfold qs, dict_keys. rewrite map_map. reflexivity. }
    assert (Hsig : NoDup (dict_keys (a_sig a0))) by (apply dict_get_In in G0; exact (wf_sigs _ W _ _ G0)).
    assert (Hq : forall tn D', In (tn, D') qs -> In tn names /\ exists s, dict_get (sub_dict (u_param U) n) tn = Some (xname (a_sig a0) tn) /\
              dict_get (sub_dict (u_seen U) n) tn = Some s /\
              (forall l, In l s <-> In (xname (a_sig a0) tn) (l_args l) /\ observed_effect dom (xsignature types (a_sig a0) tn) (instances tn h) n l) /\
              qpruned dom (xsignature types (a_sig a0) tn) max (xname (a_sig a0) tn) (instances tn h) n (granted lb k) D').
    { intros tn D' Hin.
      assert (Hk' : In tn (dict_keys (sub_dict (u_param U) n))) by (rewrite <- Kqs; apply (in_map fst) in Hin; exact Hin).
      apply dict_get_Some_iff in Hk'. destruct Hk' as (x & Ex). destruct (P2 tn x (dict_get_In _ _ _ Ex)) as [Htn ->].
      split; [assumption|]. destruct (Hnames tn Htn) as (N1 & N2 & N3).
      destruct (ui_seen _ _ _ _ _ _ _ I n a0 names tn G0 Hmap Htn N3 N1) as (s & Es & Hs).
      exists s. split; [assumption|]. split; [assumption|]. split; [assumption|].
      destruct (ui_q _ _ _ _ _ _ _ I n a0 names tn G0 Hmap Htn Hex) as (D & ED & HD).
      apply in_map_iff in Hin. destruct Hin as ([tn' D0] & Eq & Hin). cbn [fst snd] in Eq. injection Eq as -> <-.
      assert (E0 : dict_get (sub_dict (u_q U) n) tn = Some D0) by (apply dict_In_get; [rewrite P4; assumption|assumption]).
      rewrite ED in E0. injection E0 as <-.
      destruct (xname_spec (a_sig a0) tn N2) as (_ & X2 & _).
      apply qprune; [| |exact HD|exact Hupl].
      - rewrite Hcon, app_nil_r. unfold xsignature. rewrite map_app. apply NoDup_app_iff. split; [exact Hsig|]. split; [constructor; [intros []|constructor]|].
        intros y Hy [<-|[]]. exact (X2 Hy).
      - intros l Hl Hx. apply HGv in Hl. destruct Hl as (psig & objs & _ & Hinc & _ & Ea & _). apply X2.
        rewrite Ea in Hx. apply in_map_iff in Hx. destruct Hx as (o & Eo & Ho). apply Hinc in Ho. rewrite Hcon, app_nil_r in Ho.
        rewrite <- Eo. apply (in_map fst) in Ho. exact Ho. }
    destruct (types_loop lb k (sub_dict (u_param U) n) (sub_dict (u_seen U) n) qs [] [] []) as (pre & effs & E1 & H1 & H2 & H3).
    { cbn [app]. rewrite Kqs. exact P3. }
    { intros [tn D'] Hin. destruct (Hq tn D' Hin) as (_ & s & A1 & A2 & _ & A4). exists (xname (a_sig a0) tn), s, dom, (xsignature types (a_sig a0) tn), max, (instances tn h), n. auto. }
    { intros q []. } { intros q []. } { reflexivity. }
    cbn [app] in *. rewrite E1. cbn [bind]. exists (mkUact k pre effs). split; [reflexivity|].
    assert (Hkeys : forall tn, In tn (dict_keys qs) -> In tn names).
    { intros tn Hin. apply in_map_iff in Hin. destruct Hin as ([tn' D'] & <- & Hin). exact (proj1 (Hq tn' D' Hin)). }
    constructor; cbn [ua_k ua_pre ua_eff].
    + exact Hk.
    + intros f l Hf Hl. exact (Hv f Hf l Hl).
    + exact Hg.
    + intros ns tn t Hm Hin Ht. rewrite Hmap in Hm. assert (ns = names) by congruence. clear Hm. subst ns.
      assert (Hkq : In tn (dict_keys qs)).
      { rewrite Kqs. eapply dict_get_key. apply P1; assumption. }
      apply in_map_iff in Hkq. destruct Hkq as ([tn' D'] & Etn & Hinq). cbn [fst] in Etn. subst tn'.
      destruct (Hq tn D' Hinq) as (_ & s & A1 & A2 & A3 & A4).
      destruct (H1 (tn, D') Hinq) as (x & s' & es & B1 & B2 & B3 & B4 & B5 & B6). cbn [fst snd] in *.
      rewrite A1 in B1. injection B1 as <-. rewrite A2 in B2. injection B2 as <-.
      destruct (Hnames tn Hin) as (N1 & N2 & N3). destruct (xname_spec (a_sig a0) tn N2) as (X1 & X2 & _).
      exists (xname (a_sig a0) tn), (compress_conditional_effects es). split; [exact X1|]. split; [exact X2|]. split.
      { unfold effects_for. cbn [ua_eff]. change (filter _ effs) with (for_type tn effs). rewrite B3. reflexivity. }
      split.
      { intros q Hq1 Hq2. assert (Hin' : In q (for_type tn pre)) by (apply filter_In; split; [assumption|]; rewrite Hq2; apply String.eqb_refl).
        rewrite (B4 q Hin'). reflexivity. }
      assert (Ext : xtype types tn = t) by (unfold xtype; rewrite (dict_In_get types tn t Htypes Ht); reflexivity).
      unfold xsignature in A3, A4. rewrite Ext in A3, A4.
      eapply type_learned; cbn [ua_k]; [exact A4|exact A3|exact B5|exact B6].
    + intros tn Hor. exists names. split; [exact Hmap|]. apply Hkeys. destruct Hor as [Hin|Hin].
      * apply in_map_iff in Hin. destruct Hin as (q & <- & Hin). apply H2; assumption.
      * rewrite H3 in Hin. assumption.
Qed.
End Construct.

Theorem u_learn_spec lb dom types max policy inj umap h :
  wf_domain dom -> blank_domain dom -> good_universal dom types umap h ->
  exists us, u_learn lb dom types max policy inj umap h = Ok us /\ NoDup (map fst us) /\
    (forall n, In n (map fst us) <-> exists e, In e h /\ c_name (entry_call e) = n) /\
    (forall n u a0, In (n, u) us -> dict_get (d_actions dom) n = Some a0 -> learned_quantified lb dom types umap inj max h n a0 u).
Proof.
  intros W B GU. destruct (u_history dom types umap inj max W B (gu_consts _ _ _ _ GU) (gu_types _ _ _ _ GU) (gu_tname _ _ _ _ GU) policy h GU) as (U & E & I).
  unfold u_learn. rewrite E. cbn [bind].
  assert (Habout : forall n, (exists cp, about (components h) n cp) <-> exists e, In e h /\ c_name (entry_call e) = n).
  { intros n. split.
    - intros (cp & Hin & En). apply in_map_iff in Hin. destruct Hin as (e & <- & Hin). exists e; auto.
    - intros (e & Hin & En). exists (snd e). split; [apply in_map; assumption|exact En]. }
  assert (Hgo : forall ns, (forall n, In n ns -> exists cp, about (components h) n cp) ->
     exists us, map_res (u_construct lb U) ns = Ok us /\ map fst us = ns /\
       (forall n u a0, In (n, u) us -> dict_get (d_actions dom) n = Some a0 -> learned_quantified lb dom types umap inj max h n a0 u)).
  { induction ns as [|n ns IH]; intros Hns.
    - exists []. split; [reflexivity|]. split; [reflexivity|]. intros n u a0 [].
    - destruct IH as (us & E1 & E2 & H); [intros m Hm; apply Hns; right; assumption|].
      assert (Hab := Hns n (or_introl eq_refl)). destruct (proj1 (Habout n) Hab) as (e & He & En).
      destruct (gu_arity _ _ _ _ GU e He) as (a0 & G & _). rewrite En in G.
      destruct (gu_map _ _ _ _ GU e He) as (names & Hm & Hnames). rewrite En in Hm.
      destruct (u_construct_spec lb dom types umap inj max h U W (gu_consts _ _ _ _ GU) (gu_types _ _ _ _ GU) I n a0 names G Hm Hnames Hab) as (u & Eu & Hu).
      exists ((n, u) :: us). cbn [map_res]. rewrite Eu. cbn [bind]. rewrite E1. cbn [bind]. split; [reflexivity|].
      split; [simpl; congruence|]. intros m u' b0 [Em|Hm'] Gb; [|eauto]. injection Em as <- <-. replace b0 with a0 by congruence. assumption. }
  assert (IC := ui_c _ _ _ _ _ _ _ I).
  destruct (Hgo (s_observed (c_sam (u_c U)))) as (us & E1 & E2 & H); [intros n; apply (cv_obsd _ _ _ _ _ IC)|].
  exists us. split; [exact E1|]. rewrite E2. split; [apply (cv_obsd_nodup _ _ _ _ _ IC)|]. split; [|exact H].
  intros n. rewrite <- Habout. apply (cv_obsd _ _ _ _ _ IC).
Qed.
