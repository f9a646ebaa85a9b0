(** * Quantified learning: the invariant over any history *)
From Verif Require Import VocabProofs SamModel SamSpec SamProofs SamFinal LogicProofs DepProofs CondModel CondSpec CondProofs TextProofs UcModel UcSpec UcLift UcStep UcProofs PreludeProofs.

Record u_inv (dom0 : domain) (types : list (string * ptype)) (umap : list (string * list string)) (inj : bool) (max : nat)
    (h : list entry) (U : ulearner) : Prop :=
  { ui_c : cond_inv dom0 inj max (components h) (u_c U);
    ui_types : u_types U = types;
    ui_map : u_map U = umap;
    ui_new : forall n, ~ (exists cp, about (components h) n cp) -> sub_dict (u_param U) n = [] /\ sub_dict (u_q U) n = [];
    ui_param : forall n a0 names, dict_get (d_actions dom0) n = Some a0 -> dict_get umap n = Some names ->
      (exists cp, about (components h) n cp) ->
      (forall tn, In tn names -> dict_get (sub_dict (u_param U) n) tn = Some (xname (a_sig a0) tn)) /\
      (forall tn x, In (tn, x) (sub_dict (u_param U) n) -> In tn names /\ x = xname (a_sig a0) tn) /\
      NoDup (dict_keys (sub_dict (u_param U) n)) /\
      dict_keys (sub_dict (u_q U) n) = dict_keys (sub_dict (u_param U) n);
    ui_q : forall n a0 names tn, dict_get (d_actions dom0) n = Some a0 -> dict_get umap n = Some names -> In tn names ->
      (exists cp, about (components h) n cp) ->
      exists D, dict_get (sub_dict (u_q U) n) tn = Some D /\
        qdep dom0 (xsignature types (a_sig a0) tn) max (xname (a_sig a0) tn) (explains (xsignature types (a_sig a0) tn) (instances tn h) n) D;
    ui_seen : forall n a0 names tn, dict_get (d_actions dom0) n = Some a0 -> dict_get umap n = Some names -> In tn names ->
      In tn (dict_keys types) -> tn <> "object"%string ->
      exists s, dict_get (sub_dict (u_seen U) n) tn = Some s /\
        forall l, In l s <-> In (xname (a_sig a0) tn) (l_args l) /\
                             observed_effect dom0 (xsignature types (a_sig a0) tn) (instances tn h) n l }.

Lemma instances_snoc tn h e n cp : about (instances tn (h ++ [e])) n cp <->
  about (instances tn h) n cp \/ (c_name (entry_call e) = n /\ exists o, In o (other_objects tn e) /\ cp = at_object (snd e) o).
Proof.
  unfold about, instances. rewrite flat_map_app, in_app_iff. cbn [flat_map]. rewrite app_nil_r, in_map_iff. split.
  - intros [[H|(o & <- & Ho)] Hn]; [left; auto|right]. cbn [at_object cp_call c_name] in Hn. split; [exact Hn|exists o; auto].
  - intros [[H Hn]|(Hn & o & Ho & ->)]; [auto|]. split; [right; exists o; auto|]. exact Hn.
Qed.
Lemma explains_snoc tn h e n sig l cd : explains sig (instances tn (h ++ [e])) n l cd <->
  explains sig (instances tn h) n l cd /\ (c_name (entry_call e) = n -> forall o, In o (other_objects tn e) -> explains1 sig (at_object (snd e) o) l cd).
Proof.
  unfold explains. setoid_rewrite instances_snoc. split.
  - intros H. split; [intros cp Hcp; apply H; auto|]. intros Hn o Ho. apply H. right. split; [exact Hn|exists o; auto].
  - intros [H1 H2] cp [Hcp|(Hn & o & Ho & ->)]; [auto|]. exact (H2 Hn o Ho).
Qed.
Lemma observed_snoc tn h e n dom sig l : observed_effect dom sig (instances tn (h ++ [e])) n l <->
  observed_effect dom sig (instances tn h) n l \/
  (mentionable dom sig l /\ c_name (entry_call e) = n /\ exists o, In o (other_objects tn e) /\ became_true sig (at_object (snd e) o) l).
Proof.
  unfold observed_effect. setoid_rewrite instances_snoc. split.
  - intros (Hm & cp & [Hcp|(Hn & o & Ho & ->)] & Hb); [left; split; [exact Hm|exists cp; auto]|right]. split; [exact Hm|]. split; [exact Hn|]. exists o; auto.
  - intros [(Hm & cp & Hcp & Hb)|(Hm & Hn & o & Ho & Hb)]; (split; [exact Hm|]).
    + exists cp. auto.
    + exists (at_object (snd e) o). split; [right; split; [exact Hn|exists o; auto]|exact Hb].
Qed.

Section History.
Variables (dom0 : domain) (types : list (string * ptype)) (umap : list (string * list string)) (inj : bool) (max : nat).
Hypothesis W : wf_domain dom0.
Hypothesis B : blank_domain dom0.
Hypothesis Hcon : d_consts dom0 = [].
Hypothesis Htypes : NoDup (dict_keys types).
Hypothesis Htname : forall tn t, In (tn, t) types -> t_name t = tn.

Section Entry.
Variables (h : list entry) (U : ulearner) (objs : list pobject) (cp : component) (names : list string) (a0 : action).
Let c := cp_call cp.
Let n := c_name c.
Let r := in_view names (objs, cp).
Let prev := discrete_state_snapshot dom0 (cp_prev cp) r.
Let next := discrete_state_snapshot dom0 (cp_next cp) r.
Hypothesis I : u_inv dom0 types umap inj max h U.
Hypothesis Hmap : dict_get umap n = Some names.
Hypothesis Hnames : forall tn, In tn names -> tn <> "object"%string /\ tn <> ""%string /\ In tn (dict_keys types).
Hypothesis G0 : dict_get (d_actions dom0) n = Some a0.
Hypothesis Hlen : length (c_params c) = length (a_sig a0).
Hypothesis Hp : NoDup (c_params c).
Hypothesis Hobjs : NoDup (dict_keys objs).
Hypothesis Hpar : incl (combine (c_params c) (map snd (a_sig a0))) objs.
Hypothesis Hquant : forall o t, In (o, t) objs -> In (t_name t) names -> In (t_name t, t) types.
Hypothesis Hone : forall l, well_typed dom0 r l -> lit_true (cp_next cp) l -> ~ lit_true (cp_prev cp) l ->
  forall o o', In o (l_args l) -> In o' (l_args l) -> ~ In o (c_params c) -> ~ In o' (c_params c) -> o = o'.

Lemma xtype_In tn t : In (tn, t) types -> xtype types tn = t.
Proof. intros Hin. unfold xtype. rewrite (dict_In_get types tn t Htypes Hin). reflexivity. Qed.
Lemma e_sig : NoDup (dict_keys (a_sig a0)).
Proof. apply dict_get_In in G0. exact (wf_sigs _ W _ _ G0). Qed.
Lemma e_types o t : In (o, t) objs -> In (t_name t) names -> t = xtype types (t_name t).
Proof. intros H1 H2. symmetry. apply xtype_In, Hquant with (o := o); assumption. Qed.
Lemma e_fresh tn : In tn names -> ~ In (xname (a_sig a0) tn) (dict_keys (a_sig a0)).
Proof. intros H. apply (xname_spec (a_sig a0) tn). apply Hnames; exact H. Qed.
Lemma e_view st : views dom0 a0 c st (discrete_state_snapshot dom0 st r).
Proof.
  apply (base_view dom0 a0 cp objs names); auto. exact e_sig.
Qed.

(** The conditional part moves like the conditional learner; the rest as [u_rules] says. *)
Lemma after_rules V a1 P C2 :
  u_map V = umap -> u_dom V = set_actions dom0 (d_actions (u_dom V)) ->
  dict_get (d_actions (u_dom V)) n = Some a1 -> a_sig a1 = a_sig a0 ->
  (forall tn x, In (tn, x) (sub_dict (u_param V) n) -> In tn names /\ x = xname (a_sig a0) tn) ->
  (forall tn, In tn names -> dict_get (sub_dict (u_param V) n) tn = Some (xname (a_sig a0) tn)) ->
  (forall tn, In tn names -> exists s, dict_get (sub_dict (u_seen V) n) tn = Some s) ->
  (forall tn, In tn names -> exists D, dict_get (sub_dict (u_q V) n) tn = Some D /\
      qdep dom0 (xsignature types (a_sig a0) tn) max (xname (a_sig a0) tn) (P tn) D) ->
  apply_inductive_rules (u_c V) c prev next = Ok C2 ->
  exists V', u_apply_rules V objs c prev next = Ok V' /\ frame n (with_c V C2) V' /\
    (forall tn, In tn names -> exists D, dict_get (sub_dict (u_q V') n) tn = Some D /\
      qdep dom0 (xsignature types (a_sig a0) tn) max (xname (a_sig a0) tn)
        (fun l cd => P tn l cd /\ forall o, In o (other_objects tn (objs, cp)) -> explains1 (xsignature types (a_sig a0) tn) (at_object cp o) l cd) D) /\
    forall tn s, In tn names -> dict_get (sub_dict (u_seen V) n) tn = Some s ->
      exists s', dict_get (sub_dict (u_seen V') n) tn = Some s' /\
        forall l, In l s' <-> In l s \/ (quantified_literal dom0 (xsignature types (a_sig a0) tn) (xname (a_sig a0) tn) l /\
                      exists o, In o (other_objects tn (objs, cp)) /\ became_true (xsignature types (a_sig a0) tn) (at_object cp o) l).
Proof.
  intros Hm Hd Ga Es Hpin Hpok Hse HQ HA.
  assert (Hsnap : forall st, discrete_state_snapshot (u_dom V) st r = discrete_state_snapshot dom0 st r) by (intros st; rewrite Hd; reflexivity).
  assert (Hwt : forall l, well_typed (u_dom V) r l <-> well_typed dom0 r l) by (intros l; rewrite Hd; reflexivity).
  assert (Hq : forall sig x l, quantified_literal (u_dom V) sig x l <-> quantified_literal dom0 sig x l) by (intros sig x l; rewrite Hd; reflexivity).
  assert (HD : forall sig x R D, qdep (u_dom V) sig max x R D <-> qdep dom0 sig max x R D) by (intros sig x R D; rewrite Hd; apply qdep_actions).
  destruct (u_rules V a1 cp objs names types max) with (P := P) (C2 := C2) as (V' & E & F & Q' & S'); rewrite ?Es; auto.
  - rewrite Hd. exact Hcon.
  - exact e_sig.
  - exact e_types.
  - intros tn Htn. apply e_fresh; exact Htn.
  - intros l Hl. apply Hone. apply Hwt; exact Hl.
  - rewrite Hm. exact Hmap.
  - intros tn Htn. destruct (HQ tn Htn) as (D & ED & HDD). exists D. split; [exact ED|]. rewrite Es. apply HD. exact HDD.
  - unfold r in Hsnap. rewrite !Hsnap. exact HA.
  - exists V'. unfold r in Hsnap. rewrite !Hsnap in E. split; [exact E|]. split; [exact F|]. split.
    + intros tn Htn. destruct (Q' tn Htn) as (D & ED & HDD). exists D. split; [exact ED|]. rewrite Es in HDD. apply HD in HDD. exact HDD.
    + intros tn s Htn Hs. destruct (S' tn s Htn Hs) as (s' & Es' & Hs'). exists s'. split; [exact Es'|]. intros l. rewrite Hs', Es, Hq. reflexivity.
Qed.

Lemma combine_inv V V' C2 : frame n (with_c V C2) V' -> u_types V = types -> u_map V = umap ->
  (forall m, m <> n -> sub_dict (u_q V) m = sub_dict (u_q U) m /\ sub_dict (u_param V) m = sub_dict (u_param U) m /\ sub_dict (u_seen V) m = sub_dict (u_seen U) m) ->
  cond_inv dom0 inj max (components h ++ [cp]) C2 ->
  (forall tn x, In (tn, x) (sub_dict (u_param V) n) -> In tn names /\ x = xname (a_sig a0) tn) ->
  (forall tn, In tn names -> dict_get (sub_dict (u_param V) n) tn = Some (xname (a_sig a0) tn)) ->
  NoDup (dict_keys (sub_dict (u_param V) n)) -> dict_keys (sub_dict (u_q V) n) = dict_keys (sub_dict (u_param V) n) ->
  (forall tn, In tn names -> exists D, dict_get (sub_dict (u_q V') n) tn = Some D /\
      qdep dom0 (xsignature types (a_sig a0) tn) max (xname (a_sig a0) tn)
        (fun l cd => explains (xsignature types (a_sig a0) tn) (instances tn h) n l cd /\
           forall o, In o (other_objects tn (objs, cp)) -> explains1 (xsignature types (a_sig a0) tn) (at_object cp o) l cd) D) ->
  (forall tn, In tn names -> exists s, dict_get (sub_dict (u_seen V') n) tn = Some s /\
      forall l, In l s <-> (In (xname (a_sig a0) tn) (l_args l) /\ observed_effect dom0 (xsignature types (a_sig a0) tn) (instances tn h) n l) \/
                    (quantified_literal dom0 (xsignature types (a_sig a0) tn) (xname (a_sig a0) tn) l /\
                      exists o, In o (other_objects tn (objs, cp)) /\ became_true (xsignature types (a_sig a0) tn) (at_object cp o) l)) ->
  u_inv dom0 types umap inj max (h ++ [(objs, cp)]) V'.
Proof.
  intros F HT HM Hother HC Hpin Hpok Hnd Hkeys HQ HS.
  assert (Hcomp : components (h ++ [(objs, cp)]) = components h ++ [cp]) by (unfold components; rewrite map_app; reflexivity).
  assert (Hab : forall m, m <> n -> (exists cp', about (components (h ++ [(objs, cp)])) m cp') -> exists cp', about (components h) m cp').
  { intros m Hm (cp' & Hcp'). rewrite Hcomp in Hcp'. apply about_snoc in Hcp'. destruct Hcp' as [?|[-> E]]; [eauto|]. fold c n in E. congruence. }
  constructor.
  - rewrite Hcomp, (fr_c _ _ _ F). exact HC.
  - rewrite (fr_types _ _ _ F). exact HT.
  - rewrite (fr_map _ _ _ F). exact HM.
  - intros m Hm. assert (Hne : m <> n).
    { intros ->. apply Hm. exists cp. rewrite Hcomp. apply about_snoc. auto. }
    rewrite (fr_param _ _ _ F), (fr_q _ _ _ F m Hne). destruct (Hother m Hne) as (O1 & O2 & _). cbn [with_c u_param u_q]. rewrite O1, O2.
    destruct (ui_new _ _ _ _ _ _ _ I m); [|auto]. intros (cp' & Hcp'). apply Hm. exists cp'. rewrite Hcomp. apply about_snoc; auto.
  - intros m b0 nms Gb Hmm Hex. rewrite (fr_param _ _ _ F). cbn [with_c u_param]. destruct (eq_dec m n) as [->|Hne].
    + assert (b0 = a0) by congruence. assert (nms = names) by congruence. subst b0 nms. rewrite (fr_qk _ _ _ F). cbn [with_c u_q]. auto.
    + rewrite (fr_q _ _ _ F m Hne). destruct (Hother m Hne) as (O1 & O2 & _). cbn [with_c u_q]. rewrite O1, O2.
      apply (ui_param _ _ _ _ _ _ _ I m b0 nms Gb Hmm). apply Hab; assumption.
  - intros m b0 nms tn Gb Hmm Htn Hex. destruct (eq_dec m n) as [->|Hne].
    + assert (b0 = a0) by congruence. assert (nms = names) by congruence. subst b0 nms.
      destruct (HQ tn Htn) as (D & ED & HD). exists D. split; [exact ED|]. eapply qdep_ext; [|exact HD]. intros l cd _ _. cbv beta. rewrite explains_snoc. cbn [entry_call snd].
      fold c n. split; [intros [A1 A2]; auto|intros [A1 A2]; split; [exact A1|exact (A2 eq_refl)]].
    + rewrite (fr_q _ _ _ F m Hne). destruct (Hother m Hne) as (O1 & _). cbn [with_c u_q]. rewrite O1.
      destruct (ui_q _ _ _ _ _ _ _ I m b0 nms tn Gb Hmm Htn (Hab m Hne Hex)) as (D & ED & HD). exists D. split; [exact ED|].
      eapply qdep_ext; [|exact HD]. intros l cd _ _. cbv beta. rewrite explains_snoc. cbn [entry_call snd]. fold c n.
      split; [intros A; split; [exact A|intros En; exfalso; apply Hne; symmetry; exact En]|intros [A _]; exact A].
  - intros m b0 nms tn Gb Hmm Htn Hty Hob. destruct (eq_dec m n) as [->|Hne].
    + assert (b0 = a0) by congruence. assert (nms = names) by congruence. subst b0 nms.
      destruct (HS tn Htn) as (s & Es & Hs). exists s. split; [exact Es|]. intros l. rewrite Hs, observed_snoc. cbn [entry_call snd]. fold c n.
      unfold quantified_literal. tauto.
    + rewrite (fr_s _ _ _ F m Hne). destruct (Hother m Hne) as (_ & _ & O3). cbn [with_c u_seen]. rewrite O3.
      destruct (ui_seen _ _ _ _ _ _ _ I m b0 nms tn Gb Hmm Htn Hty Hob) as (s & Es & Hs). exists s. split; [exact Es|].
      intros l. rewrite Hs, observed_snoc. cbn [entry_call snd]. fold c n.
      split; [intros [A1 A2]; auto|intros [A1 [A2|(_ & En & _)]]; [auto|exfalso; apply Hne; symmetry; exact En]].
Qed.

Lemma u_step : exists U', u_handle_component U (objs, cp) = Ok U' /\ u_inv dom0 types umap inj max (h ++ [(objs, cp)]) U'.
Proof.
  destruct (cond_process_step dom0 inj max (components h) (u_c U) cp a0 prev next W B (ui_c _ _ _ _ _ _ _ I) G0 Hlen (e_view _) (e_view _)) as (C' & EC & HC).
  assert (Hd : u_dom U = set_actions dom0 (d_actions (u_dom U))) by exact (cv_dom _ _ _ _ _ (ui_c _ _ _ _ _ _ _ I)).
  destruct (cv_act _ _ _ _ _ (ui_c _ _ _ _ _ _ _ I) n a0 G0) as (a & Ga & Ia). assert (Hsig := ci_sig _ _ _ _ _ _ Ia).
  assert (Gc : good_call (u_dom U) a c) by exact (good_call_of dom0 (c_sam (u_c U)) a0 a c W (cv_dom _ _ _ _ _ (ui_c _ _ _ _ _ _ _ I)) G0 Ga Hsig Hlen).
  assert (Hv : views (u_dom U) a c (cp_prev cp) prev).
  { apply (views_sig dom0 (u_dom U) a0 a); [|rewrite Hd; reflexivity|congruence|apply e_view]. intros l. rewrite Hsig, Hd. reflexivity. }
  assert (Hqn : forall V, u_map V = umap -> quantified_names V n = names) by (intros V E; unfold quantified_names; rewrite E, Hmap; reflexivity).
  assert (HM := ui_map _ _ _ _ _ _ _ I).
  assert (Hobs : memb n (s_observed (c_sam (u_c U))) = true <-> exists cp', about (components h) n cp').
  { rewrite memb_In. apply (cv_obsd _ _ _ _ _ (ui_c _ _ _ _ _ _ _ I)). }
  assert (Hse : forall tn, In tn names -> exists s, dict_get (sub_dict (u_seen U) n) tn = Some s /\
     forall l, In l s <-> In (xname (a_sig a0) tn) (l_args l) /\ observed_effect dom0 (xsignature types (a_sig a0) tn) (instances tn h) n l).
  { intros tn Htn. destruct (Hnames tn Htn) as (H1 & _ & H2). exact (ui_seen _ _ _ _ _ _ _ I n a0 names tn G0 Hmap Htn H2 H1). }
  assert (Hsnap : triplet_snapshot_universal (u_dom U) (cp_prev cp) (cp_next cp) c objs (quantified_names U (c_name c)) = (prev, next)).
  { fold n. rewrite (Hqn U HM). unfold triplet_snapshot_universal. cbv zeta.
    replace (d_consts (u_dom U)) with (@nil pobject) by (rewrite Hd; symmetry; exact Hcon). cbn [dict_keys map]. rewrite !app_nil_r.
    rewrite dict_of_NoDup by exact Hobjs. rewrite Hd. reflexivity. }
  unfold u_handle_component. fold c. rewrite Hsnap. fold n.
  unfold cond_process in EC. fold c n in EC.
  destruct (memb n (s_observed (c_sam (u_c U)))) eqn:Em.
  - (* known action *)
    assert (Hex := proj1 Hobs eq_refl).
    destruct (ui_param _ _ _ _ _ _ _ I n a0 names G0 Hmap Hex) as (Hpok & Hpin & Hnd & Hkeys).
    unfold cond_update_action in EC. destruct (update_action_preconditions (c_sam (u_c U)) c prev) as [L1|] eqn:E1; cbn [bind] in EC; [|discriminate].
    unfold u_update_action. rewrite E1. cbn [bind]. fold n. rewrite (Hqn U HM).
    replace (match names with [] => update_action_preconditions L1 c prev | _ :: _ => Ok L1 end) with (Ok L1 : res learner)
      by (destruct names; [symmetry; exact (update_twice (c_sam (u_c U)) a c (cp_prev cp) prev Gc Hv L1 E1)|reflexivity]).
    cbn [bind]. set (V := with_c U (with_sam (u_c U) L1)).
    assert (HL1 : exists p, L1 = put_action (c_sam (u_c U)) n (with_pre a p)).
    { unfold update_action_preconditions in E1. fold n in E1. rewrite (dict_lookup_Some _ _ _ Ga) in E1. cbn [bind] in E1.
      destruct (possible_literal_matches _ _ _ _) as [ms|]; cbn [bind] in E1; [|discriminate]. injection E1 as <-. eexists; reflexivity. }
    destruct HL1 as (p & ->). set (L1 := put_action (c_sam (u_c U)) n (with_pre a p)) in *.
    assert (R := put_action_replaced (c_sam (u_c U)) n a (with_pre a p) Ga). fold L1 in R.
    assert (Hd1 : u_dom V = set_actions dom0 (d_actions (u_dom V))).
    { unfold u_dom, V. cbn [with_c u_c with_sam c_sam]. rewrite (rp_dom _ _ _ _ R). change (s_dom (c_sam (u_c U))) with (u_dom U). rewrite Hd at 1. reflexivity. }
    destruct (after_rules V (with_pre a p) (fun tn => explains (xsignature types (a_sig a0) tn) (instances tn h) n) C') as (V' & EV & F & Q' & S'); auto.
    + exact (replaced_get _ _ _ _ R).
    + intros tn Htn. destruct (Hse tn Htn) as (s & Es & _). exists s; exact Es.
    + intros tn Htn. exact (ui_q _ _ _ _ _ _ _ I n a0 names tn G0 Hmap Htn Hex).
    + exists V'. split; [exact EV|]. apply (combine_inv V V' C'); auto.
      * exact (ui_types _ _ _ _ _ _ _ I).
      * intros tn Htn. destruct (Hse tn Htn) as (s & Es & Hs). destruct (S' tn s Htn Es) as (s' & Es' & Hs'). exists s'. split; [exact Es'|].
        intros l. rewrite Hs', Hs. reflexivity.
  - (* first observation *)
    assert (Hnone : ~ exists cp', about (components h) n cp') by (intros Hx; apply Hobs in Hx; discriminate).
    destruct (ui_new _ _ _ _ _ _ _ I n Hnone) as [N1 N2].
    destruct (initialize_actions_dependencies (u_c U) c) as [C1|] eqn:E0; cbn [bind] in EC |- *; [|discriminate].
    assert (HC1 : c_sam C1 = c_sam (u_c U) /\ c_max C1 = c_max (u_c U)).
    { unfold initialize_actions_dependencies in E0. destruct (dict_lookup _ _); cbn [bind] in E0; [|discriminate]. injection E0 as <-. split; reflexivity. }
    destruct HC1 as [HC1 HC1m].
    assert (HdC : u_dom (with_c U C1) = u_dom U) by (unfold u_dom; cbn [with_c u_c]; rewrite HC1; reflexivity).
    destruct (init_fold dom0 types umap (a_sig a0) c names max Hmap (fun tn H => conj (proj1 (Hnames tn H)) (proj1 (proj2 (Hnames tn H)))) types (with_c U C1))
      as (U1 & EU1 & A1 & A2 & A3 & A4 & A5 & A6 & A7 & A8 & A9); auto.
    { intros tn t Hin. split; [apply Htname; exact Hin|apply xtype_In; exact Hin]. }
    { rewrite HdC. exact Hd. }
    { cbn [with_c u_c]. rewrite HC1m. apply (cv_max _ _ _ _ _ (ui_c _ _ _ _ _ _ _ I)). }
    unfold initialize_universal. fold n. rewrite HdC. rewrite (dict_lookup_Some (d_actions (u_dom U)) n a Ga). cbn [bind with_c u_types]. rewrite (ui_types _ _ _ _ _ _ _ I), Hsig, EU1. cbn [bind].
    cbn [with_c u_c u_types u_map u_q u_param u_seen] in A1, A2, A3, A4, A5, A6, A7, A8, A9. fold n in A5, A6, A7, A8, A9. rewrite N1, N2 in *.
    assert (Hp1 : forall tn, dict_get (sub_dict (u_param U1) n) tn = if memb tn names then Some (xname (a_sig a0) tn) else None).
    { intros tn. rewrite A6. destruct (memb tn names) eqn:Et; cbn [andb]; [|reflexivity]. apply memb_In in Et.
      rewrite (proj2 (memb_In _ _) (proj2 (proj2 (Hnames tn Et)))). reflexivity. }
    assert (Hpok : forall tn, In tn names -> dict_get (sub_dict (u_param U1) n) tn = Some (xname (a_sig a0) tn)).
    { intros tn Htn. rewrite Hp1, (proj2 (memb_In _ _) Htn). reflexivity. }
    assert (Hnd : NoDup (dict_keys (sub_dict (u_param U1) n))) by (apply A9; constructor).
    assert (Hpin : forall tn x, In (tn, x) (sub_dict (u_param U1) n) -> In tn names /\ x = xname (a_sig a0) tn).
    { intros tn x Hin. apply (dict_In_get _ _ _ Hnd) in Hin. rewrite Hp1 in Hin. destruct (memb tn names) eqn:Et; [|discriminate].
      apply memb_In in Et. split; [exact Et|congruence]. }
    assert (Hq1 : forall tn, In tn names -> dict_get (sub_dict (u_q U1) n) tn = Some (qinit dom0 types (a_sig a0) max tn)).
    { intros tn Htn. rewrite A7, (proj2 (memb_In _ _) Htn), (proj2 (memb_In _ _) (proj2 (proj2 (Hnames tn Htn)))). reflexivity. }
    unfold cond_add_new_action in EC. rewrite HC1 in EC.
    destruct (add_new_action_preconditions (c_sam (u_c U)) c prev) as [L1|] eqn:E1; cbn [bind] in EC; [|discriminate].
    destruct (apply_inductive_rules (with_sam C1 L1) c prev next) as [C2|] eqn:E2; cbn [bind] in EC; [|discriminate].
    unfold u_add_new_action. rewrite A1, HC1, E1. fold n.
    replace (u_dom U1) with (u_dom U) by (unfold u_dom; rewrite A1, HC1; reflexivity). rewrite (dict_lookup_Some (d_actions (u_dom U)) n a Ga). cbn [bind].
    rewrite (Hqn U1) by (rewrite A3; exact HM).
    replace (match names with [] => add_new_action_preconditions L1 c prev | _ :: _ => Ok L1 end) with (Ok L1 : res learner)
      by (destruct names; [symmetry; exact (add_twice (c_sam (u_c U)) a c (cp_prev cp) prev Gc Hv L1 E1)|reflexivity]).
    cbn [bind]. set (V := with_c U1 (with_sam C1 L1)).
    assert (HL1 : exists p, L1 = put_action (c_sam (u_c U)) n (with_pre a p)).
    { unfold add_new_action_preconditions in E1. fold n in E1. rewrite (dict_lookup_Some _ _ _ Ga) in E1. cbn [bind] in E1.
      destruct (possible_literal_matches _ _ _ _) as [ms|]; cbn [bind] in E1; [|discriminate]. injection E1 as <-. eexists; reflexivity. }
    destruct HL1 as (p & ->). set (L1 := put_action (c_sam (u_c U)) n (with_pre a p)) in *.
    assert (R := put_action_replaced (c_sam (u_c U)) n a (with_pre a p) Ga). fold L1 in R.
    assert (Hd1 : u_dom V = set_actions dom0 (d_actions (u_dom V))).
    { unfold u_dom, V. cbn [with_c u_c with_sam c_sam]. rewrite (rp_dom _ _ _ _ R). change (s_dom (c_sam (u_c U))) with (u_dom U). rewrite Hd at 1. reflexivity. }
    assert (Hnoinst : forall tn cp', ~ about (instances tn h) n cp').
    { intros tn cp' [Hin Hn']. apply Hnone. unfold instances in Hin. apply in_flat_map in Hin. destruct Hin as (e & He & Hin). apply in_map_iff in Hin.
      destruct Hin as (o & <- & _). exists (snd e). split; [unfold components; apply in_map; exact He|exact Hn']. }
    destruct (after_rules V (with_pre a p) (fun _ _ _ => True) C2) as (V' & EV & F & Q' & S'); auto.
    + unfold V. cbn [with_c u_map]. rewrite A3. exact HM.
    + exact (replaced_get _ _ _ _ R).
    + intros tn Htn. destruct (Hse tn Htn) as (s & Es & _). exists s. unfold V. cbn [with_c u_seen]. rewrite A4. exact Es.
    + intros tn Htn. exists (qinit dom0 types (a_sig a0) max tn). split; [unfold V; cbn [with_c u_q]; apply Hq1; exact Htn|].
      unfold qinit. apply qdep_init; [|apply (xname_spec (a_sig a0) tn); apply Hnames; exact Htn].
      apply (sig_nodup dom0 a0 names (xname (a_sig a0)) (xtype types)); auto; [exact e_sig|exact e_fresh].
    + rewrite EV. cbn [bind]. assert (Hsam : c_sam C2 = L1).
      { unfold apply_inductive_rules in E2. destruct (update_observed_effects _ _ _ _) as [Ca|] eqn:Ea; cbn [bind] in E2; [|discriminate].
        destruct (remove_existing Ca _ _ _) as [Cb|] eqn:Eb; cbn [bind] in E2; [|discriminate].
        rewrite (non_existing_sam _ _ _ _ _ E2), (existing_sam _ _ _ _ _ Eb), (observed_sam _ _ _ _ _ Ea). reflexivity. }
      rewrite Hsam in EC. fold n in EC. rewrite (dict_lookup_Some _ _ _ (replaced_get _ _ _ _ R)) in EC. cbn [bind] in EC. injection EC as EC.
      rewrite (fr_c _ _ _ F). cbn [with_c u_c]. rewrite Hsam.
      eexists. split; [reflexivity|]. assert (EC' : with_sam C2 (with_observed L1 (s_observed L1 ++ [a_name a])) = C') by exact EC. rewrite EC'.
      apply (combine_inv V (with_c V' C') C').
      * apply (frame_with n _ _ C') in F. exact F.
      * unfold V. cbn [with_c u_types]. rewrite A2. exact (ui_types _ _ _ _ _ _ _ I).
      * unfold V. cbn [with_c u_map]. rewrite A3. exact HM.
      * intros m Hm. destruct (A5 m Hm) as [O1 O2]. unfold V. cbn [with_c u_q u_param u_seen]. rewrite O1, O2, A4. auto.
      * exact HC.
      * exact Hpin.
      * exact Hpok.
      * exact Hnd.
      * unfold V. cbn [with_c u_q u_param]. apply A8. reflexivity.
      * intros tn Htn. destruct (Q' tn Htn) as (D & ED & HD). exists D. split; [exact ED|]. eapply qdep_ext; [|exact HD]. intros l cd _ _. cbv beta.
        split; [intros [_ H]; split; [intros cp' Hcp'; exfalso; exact (Hnoinst _ _ Hcp')|exact H]|tauto].
      * intros tn Htn. destruct (Hse tn Htn) as (s & Es & Hs). destruct (S' tn s Htn) as (s' & Es' & Hs').
        { unfold V. cbn [with_c u_seen]. rewrite A4. exact Es. }
        exists s'. split; [exact Es'|]. intros l. rewrite Hs', Hs. reflexivity.
Qed.
End Entry.

Lemma init_u policy : let U0 := init_universal dom0 types max policy inj umap in
  u_inv dom0 types umap inj max [] (with_c U0 (with_sam (u_c U0) (deduce_initial_inequality_preconditions (c_sam (u_c U0))))).
Proof.
  intros U0. assert (Hnone : forall n cp, ~ about (components []) n cp) by (intros n cp [[] _]).
  constructor; try reflexivity.
  - exact (init_inv dom0 inj max policy W B).
  - intros n _. split; [reflexivity|]. cbn [with_c u_q U0 init_universal]. unfold sub_dict. destruct (dict_get _ n) as [q|] eqn:E; [|reflexivity].
    apply dict_get_In in E. apply in_map_iff in E. destruct E as (na & E & _). congruence.
  - intros n a0 names _ _ (cp & Hcp). exfalso; exact (Hnone _ _ Hcp).
  - intros n a0 names tn _ _ _ (cp & Hcp). exfalso; exact (Hnone _ _ Hcp).
  - intros n a0 names tn G _ _ Hty Hob. exists []. split.
    + cbn [with_c u_seen U0 init_universal]. unfold sub_dict.
      assert (E : forall v, dict_get (map (fun na : string * action => (fst na, v)) (d_actions dom0)) n = Some (v : list (string * list literal))).
      { intros v. apply dict_get_key in G. unfold dict_keys in G. induction (d_actions dom0) as [|[k b] l IH]; [destruct G|]. cbn [map dict_get fst snd].
        destruct (eq_dec n k); [reflexivity|]. apply IH. destruct G as [G|G]; [cbn [fst] in G; congruence|exact G]. }
      rewrite E. assert (Hin : In tn (dict_keys (filter (fun tt : string * ptype => negb (String.eqb (fst tt) "object")) types))).
      { unfold dict_keys in *. apply in_map_iff in Hty. destruct Hty as (tt & <- & Hin). apply in_map, filter_In. split; [exact Hin|]. apply String.eqb_neq in Hob. rewrite Hob. reflexivity. }
      clear -Hin. unfold dict_keys in Hin. induction (filter _ types) as [|[k b] l IH]; [destruct Hin|]. cbn [map dict_get fst snd].
      destruct (eq_dec tn k); [reflexivity|]. apply IH. destruct Hin as [G|G]; [cbn [fst] in G; congruence|exact G].
    + intros l. split; [intros []|]. intros (_ & _ & cp & Hcp & _). destruct Hcp as [[] _].
Qed.

Theorem u_history policy h : good_universal dom0 types umap h ->
  exists U, u_observe dom0 types max policy inj umap h = Ok U /\ u_inv dom0 types umap inj max h U.
Proof.
  intros G. unfold u_observe. cbv zeta.
  assert (Hgo : forall rest done U, done ++ rest = h -> u_inv dom0 types umap inj max done U ->
     exists U', fold_res u_handle_component rest U = Ok U' /\ u_inv dom0 types umap inj max (done ++ rest) U').
  { induction rest as [|[objs cp] rest IH]; intros done U Eh I.
    - exists U. rewrite app_nil_r. split; [reflexivity|exact I].
    - assert (Hin : In (objs, cp) h) by (rewrite <- Eh; apply in_app_iff; right; left; reflexivity).
      destruct (gu_map _ _ _ _ G _ Hin) as (names & Hm & Hn). destruct (gu_arity _ _ _ _ G _ Hin) as (a0 & Ga & Hl).
      destruct (u_step done U objs cp names a0) as (U1 & E1 & I1); auto.
      + exact (gu_distinct _ _ _ _ G _ Hin).
      + exact (gu_objs _ _ _ _ G _ Hin).
      + exact (gu_params _ _ _ _ G _ a0 Hin Ga).
      + intros o t. exact (gu_quant _ _ _ _ G _ names o t Hin Hm).
      + intros l. exact (gu_one _ _ _ _ G _ names l Hin Hm).
      + destruct (IH (done ++ [(objs, cp)]) U1) as (U' & E' & I'); [rewrite <- app_assoc; exact Eh|exact I1|].
        exists U'. cbn [fold_res]. rewrite E1. split; [exact E'|]. rewrite <- app_assoc in I'. exact I'. }
  exact (Hgo h [] _ eq_refl (init_u policy)).
Qed.
End History.
