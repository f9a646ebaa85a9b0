(** * The macro learner: safety of one macro action *)
From Coq Require Import Ascii.
From Verif Require Import VocabProofs SamProofs SamFinal SamResults MaSpec CnfProofs MaMatch MaCnf MaProofs MaFinal MaSafety
  MacroSpec GroupProofs TextProofs MacroText MacroMapping MacroShape MacroGroups PreludeProofs.
Open Scope nat_scope.

Lemma is_word_char c : is_word c = true -> word_char c = true.
Proof. destruct c as [[] [] [] [] [] [] [] []]; vm_compute; auto. Qed.
Lemma parameter_word p : parameter_name p -> word p.
Proof.
  intros (w & -> & Hne & Hw). split; [discriminate|]. cbn [all_chars]. apply andb_true_iff. split; [reflexivity|].
  clear Hne. induction w as [|c w IH]; [reflexivity|]. cbn [all_chars] in *. apply andb_true_iff in Hw. destruct Hw. apply andb_true_iff. split; [apply is_word_char; assumption|auto].
Qed.

Section Keep.
Variables (dom0 : domain) (real : string -> option action) (policy : neg_policy).
Hypothesis W : wf_domain dom0.
Notation names := (dict_keys (d_actions dom0)).
Notation inv := (ma_inv dom0 real policy).

(** What is known about every action when the macro actions are built. *)
Definition learned_action (js : list joint) (a0 a : action) : Prop :=
  a_sig a = a_sig a0 /\
  forall l, In l (a_pre a) <-> mentionable dom0 (a_sig a0) l /\ forall cp, ma_evidence js (a_name a) cp -> true_before (a_sig a0) cp l.

Lemma keep_step js M : inv js M -> exists M', construct_safe_actions false M = Ok M' /\ m_cnfs M' = m_cnfs M /\
  s_policy (m_sam M') = policy /\ s_dom (m_sam M') = set_actions dom0 (d_actions (s_dom (m_sam M'))) /\
  dict_keys (d_actions (s_dom (m_sam M'))) = names /\ NoDup (m_unsafe M') /\ incl (m_unsafe M') names /\
  forall n a0, dict_get (d_actions dom0) n = Some a0 ->
    exists a, dict_get (d_actions (s_dom (m_sam M'))) n = Some a /\ a_name a = n /\ learned_action js a0 a /\
      (~ In n (m_unsafe M') -> kept_action dom0 js (m_cnfs M) n a0 a).
Proof.
  intros I. destruct (construct_step dom0 real policy W js M I) as (M1 & E1 & C1 & P1 & _ & S1 & U1 & K1).
  destruct I as [I Un T C]. destruct (unobserved_step dom0 policy W js (m_sam M) I) as (V1 & V2 & V3 & V4 & V5 & V6).
  unfold construct_safe_actions in E1 |- *. set (L := handle_unobserved_actions (m_sam M)) in *. clearbody L.
  apply bind_Ok in E1. destruct E1 as (built & Eb & E1). rewrite Eb. cbn [bind]. apply bind_Ok in E1. destruct E1 as (acts' & Ep & E1).
  set (acts := map (fun nr : string * (action * bool) => (fst nr, fst (snd nr))) built) in *.
  set (unsafe := set_union (m_unsafe M) (map (fun nr : string * (action * bool) => a_name (fst (snd nr))) (filter (fun nr => negb (snd (snd nr))) built))) in *.
  injection E1 as E1. subst M1. cbn [m_unsafe m_sam s_dom set_actions d_actions s_safe] in *.
  eexists; split; [reflexivity|]. cbn [m_cnfs m_sam s_policy s_dom m_unsafe set_actions d_actions].
  split; [reflexivity|]. split; [assumption|]. split; [rewrite V1; reflexivity|].
  assert (Hb : Forall2 (fun (na : string * action) (nr : string * (action * bool)) => fst nr = fst na /\ a_name (fst (snd nr)) = a_name (snd na) /\
                 a_sig (fst (snd nr)) = a_sig (snd na) /\ a_pre (fst (snd nr)) = a_pre (snd na)) (d_actions (s_dom L)) built).
  { apply map_res_Ok in Eb. clear -Eb. induction Eb as [|na nr l l' E _ IH]; constructor; [|assumption].
    apply bind_Ok in E. destruct E as ([b ok] & E & E'). injection E' as <-. cbn [fst snd]. unfold construct_action in E. apply bind_Ok in E.
    destruct E as (safe & _ & E). destruct safe; injection E as <- _; repeat split. }
  assert (Hk : dict_keys acts = names).
  { rewrite <- V2. unfold acts, dict_keys. rewrite map_map. cbn [fst]. clear -Hb. induction Hb as [|x y l l' [H _] _ IH]; [reflexivity|]. cbn [map]. congruence. }
  assert (Hin : incl unsafe names) by (intros n Hn; apply U1; assumption).
  assert (Hnd : NoDup unsafe) by (unfold unsafe; rewrite Un; apply set_union_NoDup; constructor).
  split; [assumption|]. split; [assumption|]. split; [assumption|].
  destruct (pop_all unsafe acts Hnd) as (d' & Ed & Hd); [rewrite Hk; assumption|]. rewrite Ep in Ed. injection Ed as <-.
  intros n a0 G0. destruct (V6 n a0 G0) as (b & Gb & Bn & Bs & _ & Bp).
  assert (Ga : exists a, dict_get acts n = Some a /\ a_name a = a_name b /\ a_sig a = a_sig b /\ a_pre a = a_pre b).
  { unfold acts. clear -Hb Gb. induction Hb as [|[x xa] [y [ya ok]] l l' (H1 & H2 & H3 & H4) _ IH]; [discriminate|]. cbn [fst snd map] in *. subst y.
    cbn [dict_get] in *. destruct (eq_dec n x); [injection Gb as <-; eauto|auto]. }
  destruct Ga as (a & Ga & An & As & Ap). exists a. split; [assumption|]. split; [congruence|]. split.
  - split; [congruence|]. rewrite An, Bn, Ap. assumption.
  - intros Hu. assert (Gd : dict_get acts' n = Some a) by (rewrite Hd; apply memb_nIn in Hu; rewrite Hu; assumption).
    destruct (K1 n a Gd) as (a0' & G0' & Ka). rewrite G0 in G0'. injection G0' as <-. assumption.
Qed.
End Keep.

Section Macro.
Variables (dom0 : domain) (real : string -> option action) (policy : neg_policy) (js : list joint) (M : ma_learner).
Hypothesis W : wf_domain dom0.
Hypothesis RD : real_domain dom0 real.
Hypothesis MD : macro_domain dom0.
Hypothesis I : ma_inv dom0 real policy js M.
Hypothesis SH : table_shape dom0 (m_cnfs M).
Hypothesis RJ : real_joints real js.
Hypothesis Hlast : forall j, In j js -> joint_learnable j -> seen_by_last dom0 real j.
Notation cs := (m_cnfs M).
Notation clauses := (flat_map (fun kc : (string * bool) * cnf => n_clauses (snd kc)) cs).

Lemma clauses_In cl : In cl clauses <-> exists key k, In (key, k) cs /\ In cl (n_clauses k).
Proof.
  rewrite in_flat_map. split.
  - intros ([key k] & H1 & H2). eauto.
  - intros (key & k & H1 & H2). exists (key, k). auto.
Qed.

Lemma clause_real cl : In cl clauses -> exists n l, In (n, l) cl /\ real_effects real n l.
Proof.
  intros H. apply clauses_In in H. destruct H as (key & k & H1 & H2). apply (tk_sat _ _ _ _ _ (mi_table _ _ _ _ _ I) _ _ H1). assumption.
Qed.

Lemma no_consts_mention sig l : mentionable dom0 sig l -> NoDup (l_args l) /\ incl (l_args l) (dict_keys sig) /\ exists psig, In (l_name l, psig) (d_preds dom0).
Proof.
  unfold mentionable, well_typed. rewrite (md_consts _ MD), app_nil_r. intros (psig & objs & H1 & H2 & H3 & H4 & _). rewrite H4. split; [assumption|].
  split; [|eauto]. intros x Hx. apply in_map_iff in Hx. destruct Hx as (o & <- & Ho). apply in_map, H2; assumption.
Qed.

Lemma clause_literals cl : In cl clauses -> exists p b len, forall n l, In (n, l) cl ->
  l_name l = p /\ l_pos l = b /\ length (l_args l) = len /\ text_literal l /\ find_params (untyped l) = l_args l /\
  forall x, In x (l_args l) -> exists a0, dict_get (d_actions dom0) n = Some a0 /\ In x (dict_keys (a_sig a0)).
Proof.
  intros H. destruct (clause_real cl H) as (n0 & l0 & H0 & r0 & Er0 & Hl0). apply clauses_In in H. destruct H as (key & k & H1 & H2).
  destruct (proj1 (proj2 (SH key k H1) cl H2)) as (p & b & len & Hs). exists p, b, len. intros n l Hin.
  destruct (Hs n0 l0 H0) as (Ep & _). destruct (no_consts_mention _ _ (real_eff _ _ RD n0 r0 l0 Er0 Hl0)) as (_ & _ & psig & Hps).
  assert (Hpn := md_preds _ MD _ _ Hps). rewrite Ep in Hpn. destruct (Hs n l Hin) as (E1 & E2 & E3 & E4 & E5). rewrite E1.
  assert (Hpar : Forall parameter_name (l_args l)).
  { apply Forall_forall. intros x Hx. destruct (E5 x Hx) as (a0 & G0 & Hk). eapply md_params; eassumption. }
  repeat (split; [assumption || reflexivity|]). split; [|split; [|assumption]].
  - constructor; [rewrite E1; apply Hpn|rewrite E1; apply Hpn| |assumption]. eapply Forall_impl; [|exact Hpar]. apply parameter_word.
  - apply find_params_untyped; [rewrite E1; assumption|assumption].
Qed.

Lemma clause_readable cl : In cl clauses -> cl <> [] /\ exists len, readable len cl.
Proof.
  intros H. split.
  - destruct (clause_real cl H) as (n & l & Hin & _). intros ->. destruct Hin.
  - destruct (clause_literals cl H) as (p & b & len & Hs). exists len. intros n l Hin. destruct (Hs n l Hin) as (_ & _ & H3 & _ & H5 & _). auto.
Qed.

(** ** One macro action *)
Variables (group : list action) (names : list string) (grouping : list (list param)) (domP : domain) (pre eff : list literal).
Hypothesis Hgrp : forall a, In a group -> exists a0, dict_get (d_actions dom0) (a_name a) = Some a0 /\ learned_action dom0 js a0 a.
Hypothesis Hgn : NoDup (map a_name group).
Hypothesis Hnames : forall n, In n names <-> In n (map a_name group).
Hypothesis Eg : extract_relevant_parameter_groupings cs names = Ok grouping.
Notation mp := (generate_macro_mappings grouping group).
Hypothesis Epre : extract_preconditions_for_macro domP cs group grouping mp = Ok pre.
Hypothesis Eeff : extract_effects_for_macro domP cs group grouping mp = Ok eff.

Lemma group_set : action_set group.
Proof.
  split; [assumption|]. intros a Ha. destruct (Hgrp a Ha) as (a0 & G0 & Es & _). rewrite Es. eapply wf_sigs; [exact W|]. apply dict_get_In; eassumption.
Qed.
Lemma group_over : groups_over grouping group.
Proof.
  apply (grouping_over cs names grouping clause_readable Eg).
  - intros n Hn. apply Hnames, in_map_iff in Hn. destruct Hn as (a & En & Ha). eauto.
  - intros cl n l a Hcl Hin Ha En x Hx. destruct (clause_literals cl Hcl) as (p & b & len & Hs). destruct (Hs n l Hin) as (_ & _ & _ & _ & _ & H6).
    destruct (H6 x Hx) as (a0 & G0 & Hk). destruct (Hgrp a Ha) as (a0' & G0' & Es & _). rewrite En, G0 in G0'. injection G0' as <-. rewrite Es. assumption.
Qed.

Lemma group_real a : In a group -> exists r, real (a_name a) = Some r /\ a_sig r = a_sig a.
Proof.
  intros Ha. destruct (Hgrp a Ha) as (a0 & G0 & Es & _). destruct (real_sig _ _ RD _ _ G0) as (r & Er & Ers). exists r. split; [assumption|congruence].
Qed.
Lemma same_action a b : In a group -> In b group -> a_name a = a_name b -> a = b.
Proof.
  intros Ha Hb E. clear -Hgn Ha Hb E. induction group as [|c l IH]; [destruct Ha|]. cbn [map] in Hgn. apply NoDup_cons_iff in Hgn. destruct Hgn as [H1 H2].
  destruct Ha as [->|Ha], Hb as [->|Hb]; auto.
  - exfalso. apply H1. rewrite E. apply in_map; assumption.
  - exfalso. apply H1. rewrite <- E. apply in_map; assumption.
Qed.

(** Preconditions of the macro action: ambiguous effects and learned preconditions. *)
Lemma macro_pre_complete a l : In a group ->
  In l (a_pre a) \/ (exists cl, In cl clauses /\ ~ inside names cl /\ In (a_name a, l) cl) ->
  exists l', In l' pre /\ adapts mp (a_name a) l l'.
Proof.
  intros Ha Hl. unfold extract_preconditions_for_macro in Epre. apply bind_Ok in Epre. destruct Epre as (vague & Ev & E).
  apply bind_Ok in E. destruct E as (p1 & E1 & E). apply bind_Ok in E. destruct E as (p2 & E2 & E). injection E as E.
  assert (G : forall ps qs, map_res (fun p : cpair => adapt_from_text domP (fst p) (snd p) mp) ps = Ok qs -> In (a_name a, l) ps -> text_literal l ->
    exists l', In l' qs /\ adapts mp (a_name a) l l').
  { clear. intros ps qs E Hin Ht. apply map_res_Ok in E. induction E as [|p q ps qs E _ IH]; [destruct Hin|]. destruct Hin as [->|Hin].
    - exists q. split; [left; reflexivity|]. apply (adapt_spec domP); assumption.
    - destruct (IH Hin) as (l' & H1 & H2). exists l'. simpl; auto. }
  destruct Hl as [Hl|(cl & Hcl & Hi & Hin)].
  - destruct (G _ _ E2) as (l' & H1 & H2).
    + apply in_flat_map. exists a. split; [assumption|]. apply in_map_iff. eauto.
    + destruct (Hgrp a Ha) as (a0 & G0 & Es & Hp). apply Hp in Hl. destruct Hl as [Hm _]. destruct (no_consts_mention _ _ Hm) as (N1 & N2 & psig & N3).
      assert (Hpn := md_preds _ MD _ _ N3). constructor; [apply Hpn|apply Hpn| |assumption]. apply Forall_forall. intros x Hx.
      apply parameter_word. eapply md_params; [exact MD|exact G0|]. apply N2; assumption.
    + exists l'. split; [|assumption]. rewrite <- E. apply to_set_In, in_app_iff. auto.
  - destruct (G _ _ E1) as (l' & H1 & H2).
    + apply in_concat. apply clauses_In in Hcl. destruct Hcl as (key & k & Hk & Hc).
      apply map_res_Ok in Ev. assert (Hv : exists out, In out vague /\ extract_macro_action_preconditions k (map a_name group) grouping = Ok out).
      { clear -Ev Hk. induction Ev as [|kc out l1 l2 E _ IH]; [destruct Hk|]. destruct Hk as [->|Hk]; [exists out; simpl; auto|].
        destruct (IH Hk) as (o & H1 & H2). exists o; simpl; auto. }
      destruct Hv as (out & Hout & Eo). exists out. split; [assumption|].
      apply (macro_pre_In cs names grouping clause_readable Eg k (map a_name group) out); [intros n; symmetry; apply Hnames| |assumption|].
      * intros c Hc'. apply clauses_In. eauto.
      * exists cl. split; [assumption|]. split; [assumption|]. split; [assumption|]. cbn [fst]; apply Hnames, in_map; assumption.
    + destruct (clause_literals cl Hcl) as (p & b & len & Hs). apply (Hs _ _ Hin).
    + exists l'. split; [|assumption]. rewrite <- E. apply to_set_In, in_app_iff. auto.
Qed.

(** Effects of the macro action: the pairs of the clauses about its actions. *)
Lemma macro_eff_iff l' : In l' eff <-> exists cl n l, In cl clauses /\ inside names cl /\ In (n, l) cl /\
  ~ In l (flat_map a_pre group) /\ adapt_from_text domP n l mp = Ok l'.
Proof.
  unfold extract_effects_for_macro in Eeff. apply bind_Ok in Eeff. destruct Eeff as (effs & Ev & E). apply bind_Ok in E. destruct E as (ad & Ea & E).
  injection E as E. rewrite <- E, to_set_In.
  assert (Hc : forall p, In p (concat effs) <-> exists cl, In cl clauses /\ inside names cl /\ In p cl /\ ~ In (snd p) (flat_map a_pre group)).
  { intros p. rewrite in_concat. apply map_res_Ok in Ev.
    assert (Hk : forall key k out, In (key, k) cs -> extract_macro_action_effects k (map a_name group) (flat_map a_pre group) grouping = Ok out ->
      forall p, In p out <-> exists cl, In cl (n_clauses k) /\ inside names cl /\ In p cl /\ ~ In (snd p) (flat_map a_pre group)).
    { intros key k out Hk Eo. apply (macro_effects_In cs names grouping clause_readable Eg k (map a_name group) (flat_map a_pre group) out); [intros n; symmetry; apply Hnames| |assumption].
      intros c Hc. apply clauses_In. eauto. }
    split.
    - intros (out & Hout & Hp). assert (Hkc : exists kc, In kc cs /\ extract_macro_action_effects (snd kc) (map a_name group) (flat_map a_pre group) grouping = Ok out).
      { clear -Ev Hout. induction Ev as [|kc o l1 l2 E _ IH]; [destruct Hout|]. destruct Hout as [->|Hout]; [exists kc; simpl; auto|].
        destruct (IH Hout) as (x & H1 & H2). exists x; simpl; auto. }
      destruct Hkc as ([key k] & Hk' & Eo). apply (Hk key k out Hk' Eo) in Hp. destruct Hp as (cl & H1 & H2). exists cl. split; [apply clauses_In; eauto|assumption].
    - intros (cl & H1 & H2). apply clauses_In in H1. destruct H1 as (key & k & Hk' & Hcl).
      assert (Ho : exists out, In out effs /\ extract_macro_action_effects k (map a_name group) (flat_map a_pre group) grouping = Ok out).
      { clear -Ev Hk'. induction Ev as [|kc o l1 l2 E _ IH]; [destruct Hk'|]. destruct Hk' as [->|Hk']; [exists o; simpl; auto|].
        destruct (IH Hk') as (x & H1 & H2). exists x; simpl; auto. }
      destruct Ho as (out & Hout & Eo). exists out. split; [assumption|]. apply (Hk key k out Hk' Eo). exists cl. auto. }
  apply map_res_Ok in Ea. split.
  - intros Hin. assert (Hp : exists p, In p (concat effs) /\ adapt_from_text domP (fst p) (snd p) mp = Ok l').
    { clear -Ea Hin. induction Ea as [|p q ps qs E _ IH]; [destruct Hin|]. destruct Hin as [->|Hin]; [exists p; simpl; auto|].
      destruct (IH Hin) as (x & H1 & H2). exists x; simpl; auto. }
    destruct Hp as ([n l] & Hp & Ead). apply Hc in Hp. destruct Hp as (cl & H1 & H2 & H3 & H4). exists cl, n, l. auto.
  - intros (cl & n & l & H1 & H2 & H3 & H4 & H5). assert (Hp : In (n, l) (concat effs)) by (apply Hc; exists cl; auto).
    clear -Ea Hp H5. induction Ea as [|p q ps qs E _ IH]; [destruct Hp|]. destruct Hp as [->|Hp]; [left; cbn [fst snd] in E; congruence|right; auto].
Qed.
Lemma macro_eff_complete cl n l : In cl clauses -> inside names cl -> In (n, l) cl -> ~ In l (flat_map a_pre group) ->
  exists l', In l' eff /\ adapts mp n l l'.
Proof.
  intros H1 H2 H3 H4. assert (Hall := macro_eff_iff). unfold extract_effects_for_macro in Eeff. apply bind_Ok in Eeff. destruct Eeff as (effs & Ev & E).
  apply bind_Ok in E. destruct E as (ad & Ea & E). 
  enough (Had : exists l', adapt_from_text domP n l mp = Ok l').
  { destruct Had as (l' & Hl'). exists l'. split; [apply Hall; exists cl, n, l; auto|]. apply (adapt_spec domP); [|assumption].
    destruct (clause_literals cl H1) as (p & b & len & Hs). apply (Hs _ _ H3). }
  assert (Hp : In (n, l) (concat effs)).
  { apply in_concat. apply clauses_In in H1. destruct H1 as (key & k & Hk & Hcl). apply map_res_Ok in Ev.
    assert (Ho : exists out, In out effs /\ extract_macro_action_effects k (map a_name group) (flat_map a_pre group) grouping = Ok out).
    { clear -Ev Hk. induction Ev as [|kc o l1 l2 E _ IH]; [destruct Hk|]. destruct Hk as [->|Hk]; [exists o; simpl; auto|].
      destruct (IH Hk) as (x & H1 & H2). exists x; simpl; auto. }
    destruct Ho as (out & Hout & Eo). exists out. split; [assumption|].
    apply (macro_effects_In cs names grouping clause_readable Eg k (map a_name group) (flat_map a_pre group) out); [intros x; symmetry; apply Hnames| |assumption|exists cl; auto].
    intros c Hc. apply clauses_In. eauto. }
  apply map_res_Ok in Ea. clear -Ea Hp. induction Ea as [|p q ps qs E _ IH]; [destruct Hp|]. destruct Hp as [->|Hp]; [eauto|auto].
Qed.

(** ** Executing the macro action *)
Variables (sg : assignment) (s : state).
Notation calls := (map (micro_call mp sg) group).
Hypothesis Hinj : forall c, In c calls -> NoDup (c_params c).

Lemma micro_value a x sig : In a group -> a_sig a = sig -> In x (dict_keys sig) -> call_assignment sig (micro_call mp sg a) x = macro_value mp sg (a_name a) x.
Proof.
  intros Ha <- Hx. unfold call_assignment, micro_call. cbn [c_params]. 
  assert (G : forall (f : string -> string) (keys : list string), In x keys -> dict_get (combine keys (map f keys)) x = Some (f x)).
  { clear. intros f keys. induction keys as [|k keys IH]; intros [].
    - subst k. cbn [combine map dict_get]. destruct (eq_dec x x); [reflexivity|contradiction].
    - cbn [combine map dict_get]. destruct (eq_dec x k) as [->|]; [reflexivity|auto]. }
  rewrite G by assumption. reflexivity.
Qed.

Lemma adapt_ground a l l' r : In a group -> a_sig r = a_sig a -> adapts mp (a_name a) l l' -> NoDup (l_args l) -> incl (l_args l) (dict_keys (a_sig a)) ->
  ground sg l' = ground (call_assignment (a_sig r) (micro_call mp sg a)) l.
Proof.
  intros Ha Er Had Hn Hi. rewrite (adapts_ground mp (a_name a) l l' sg (dict_keys (a_sig a)) Had Hn Hi).
  - unfold ground. f_equal. apply map_ext_in. intros x Hx. symmetry. rewrite Er. apply micro_value; [assumption|reflexivity|]. apply Hi; assumption.
  - apply (Hinj (micro_call mp sg a)). apply in_map; assumption.
Qed.

(** All pairs of a clause about the group denote the same literal. *)
Lemma same_literal cl a1 a2 l1 l2 l1' : In cl clauses -> inside names cl -> In a1 group -> In a2 group -> In (a_name a1, l1) cl -> In (a_name a2, l2) cl ->
  adapts mp (a_name a1) l1 l1' -> adapts mp (a_name a2) l2 l1'.
Proof.
  intros Hcl Hi Ha1 Ha2 H1 H2 (args & Hf & ->). destruct (clause_literals cl Hcl) as (p & b & len & Hs).
  destruct (Hs _ _ H1) as (N1 & P1 & L1 & _). destruct (Hs _ _ H2) as (N2 & P2 & L2 & _). exists args. split; [|congruence].
  assert (Hnth : forall j p2 v, nth_error (l_args l2) j = Some p2 -> nth_error args j = Some v -> dict_get mp (a_name a2, p2) = Some v).
  { intros j p2 v E2 Ev. assert (Hj : j < length (l_args l1)) by (rewrite L1, <- L2; apply nth_error_Some; congruence).
    destruct (nth_error (l_args l1) j) as [p1|] eqn:E1; [|apply nth_error_None in E1; lia].
    destruct (same_class cs names grouping clause_readable Eg cl l1 l2 (a_name a1) (a_name a2) j p1 p2 Hcl Hi H1 H2 E1 E2) as (c & Hc & C1 & C2).
    destruct (grouping_spec cs names grouping clause_readable Eg) as (groups & _ & _ & G3 & _).
    rewrite <- (mapping_same grouping group (a_name a1, p1) (a_name a2, p2) c G3 Hc C1 C2 group_set group_over).
    clear -Hf E1 Ev. revert j E1 Ev. induction Hf as [|q w qs ws E _ IH]; intros [|j] E1 Ev; try discriminate; cbn [nth_error] in *.
    - injection E1 as <-. injection Ev as <-. assumption.
    - eauto. }
  assert (Hlen : length (l_args l2) = length args) by (rewrite L2, <- L1; eapply Forall2_length; eassumption).
  clear -Hnth Hlen. revert args Hlen Hnth. induction (l_args l2) as [|q qs IH]; intros [|w ws] Hlen Hnth; try discriminate; constructor.
  - apply (Hnth 0); reflexivity.
  - apply IH; [simpl in Hlen; lia|]. intros j. apply (Hnth (S j)).
Qed.

Lemma eff_sound l' : In l' eff -> joint_effect real calls (ground sg l').
Proof.
  intros H. apply macro_eff_iff in H. destruct H as (cl & n & l & Hcl & Hi & Hin & _ & Had).
  destruct (clause_literals cl Hcl) as (p & b & len & Hs). apply (adapt_spec domP) in Had; [|apply (Hs _ _ Hin)].
  destruct (clause_real cl Hcl) as (n2 & l2 & H2 & r & Er & Hl2).
  assert (Hn : exists a, In a group /\ a_name a = n) by (assert (Hn := Hi _ Hin); apply Hnames, in_map_iff in Hn; destruct Hn as (a & E & Ha); eauto).
  assert (Hn2 : exists a, In a group /\ a_name a = n2) by (assert (Hn2 := Hi _ H2); apply Hnames, in_map_iff in Hn2; destruct Hn2 as (a & E & Ha); eauto).
  destruct Hn as (a & Ha & <-). destruct Hn2 as (a2 & Ha2 & <-).
  assert (Had2 := same_literal cl a a2 l l2 l' Hcl Hi Ha Ha2 Hin H2 Had).
  destruct (group_real a2 Ha2) as (r' & Er' & Es). rewrite Er in Er'. injection Er' as <-.
  destruct (no_consts_mention _ _ (real_eff _ _ RD _ _ _ Er Hl2)) as (N1 & N2 & _). rewrite Es in N2.
  exists (micro_call mp sg a2), r, l2. split; [apply in_map; assumption|]. split; [assumption|]. split; [assumption|].
  symmetry. apply adapt_ground; assumption.
Qed.

Hypothesis Happ : forall l, In l pre -> lit_true s (ground sg l).

Lemma learned_pre_true a l r : In a group -> a_sig r = a_sig a -> In l (a_pre a) -> lit_true s (ground (call_assignment (a_sig r) (micro_call mp sg a)) l).
Proof.
  intros Ha Es Hl. destruct (macro_pre_complete a l Ha (or_introl Hl)) as (l' & Hl' & Had).
  destruct (Hgrp a Ha) as (a0 & G0 & Es0 & Hp). assert (Hm := proj1 (proj1 (Hp l) Hl)). destruct (no_consts_mention _ _ Hm) as (N1 & N2 & _).
  rewrite <- (adapt_ground a l l' r Ha Es Had N1); [apply Happ; assumption|]. rewrite Es0. assumption.
Qed.

Lemma real_pre_true a r l : In a group -> real (a_name a) = Some r -> In l (a_pre r) -> lit_true s (ground (call_assignment (a_sig r) (micro_call mp sg a)) l).
Proof.
  intros Ha Er Hl. destruct (group_real a Ha) as (r' & Er' & Es). rewrite Er in Er'. injection Er' as <-.
  apply learned_pre_true; [assumption|assumption|]. destruct (Hgrp a Ha) as (a0 & G0 & Es0 & Hp). apply Hp.
  assert (Ess : a_sig r = a_sig a0) by congruence. split; [rewrite <- Ess; eapply real_pre; eauto|].
  intros cp (j & c & Hj & Hl' & Hc & Hn & ->). destruct (rj_app _ _ (RJ j Hj Hl') c Hc) as (r' & E & Hpr & _).
  rewrite Hn, Er in E. injection E as <-. unfold true_before. cbn [comp_of cp_call cp_prev]. rewrite <- Ess. apply Hpr; assumption.
Qed.

Lemma eff_complete g : joint_effect real calls g -> (exists l', In l' eff /\ ground sg l' = g) \/ lit_true s g.
Proof.
  intros (c & r & l & Hc & Er & Hl & <-). apply in_map_iff in Hc. destruct Hc as (a & <- & Ha). cbn [micro_call c_name] in Er.
  destruct (group_real a Ha) as (r' & Er' & Es). rewrite Er in Er'. injection Er' as <-.
  destruct (Hgrp a Ha) as (a0 & G0 & Es0 & Hp). assert (Hm := real_eff _ _ RD _ _ _ Er Hl). rewrite Es, Es0 in Hm.
  destruct (no_consts_mention _ _ Hm) as (N1 & N2 & _). assert (N2' : incl (l_args l) (dict_keys (a_sig a))) by (rewrite Es0; assumption).
  destruct (In_dec' l (a_pre a)) as [Hin|Hnp]; [right; apply learned_pre_true; assumption|].
  assert (Hpair : exists cl, In cl clauses /\ In (a_name a, l) cl).
  { assert (Hex : exists key k cl, In (key, k) cs /\ In cl (n_clauses k) /\ In (a_name a, l) cl).
    { assert (Hnn : ~ ~ has_pair cs (a_name a) l).
      { intros Hno. apply Hnp, Hp. split; [assumption|]. intros cp (j & c & Hj & Hle & Hc & Hn & ->).
        destruct (lit_true_dec (j_prev j) (ground (call_assignment (a_sig a0) c) l)) as [H|H]; [exact H|]. exfalso. apply Hno. rewrite <- Hn.
        apply (mi_complete _ _ _ _ _ I j c l Hj Hle (Hlast j Hj Hle) Hc).
        - rewrite Hn. exists r; auto.
        - rewrite Hn. intros b Gb. rewrite G0 in Gb. injection Gb as <-. split; [exact H|].
          apply (joint_effect_true real j); [apply RJ; assumption|]. exists c, r, l. rewrite Hn, Es, Es0. auto. }
      assert (Hdec : has_pair cs (a_name a) l \/ ~ has_pair cs (a_name a) l).
      { destruct (existsb (fun cl => memb (a_name a, l) cl) clauses) eqn:E.
        - left. apply existsb_exists in E. destruct E as (cl & H1 & H2). apply memb_In in H2. apply clauses_In in H1. destruct H1 as (key & k & H1 & H3). exists key, k, cl. auto.
        - right. intros (key & k & cl & H1 & H2 & H3). assert (existsb (fun cl => memb (a_name a, l) cl) clauses = true); [|congruence].
          apply existsb_exists. exists cl. split; [apply clauses_In; eauto|]. apply memb_In; assumption. }
      destruct Hdec as [Hd|Hd]; [exact Hd|contradiction]. }
    destruct Hex as (key & k & cl & H1 & H2 & H3). exists cl. split; [apply clauses_In; eauto|assumption]. }
  destruct Hpair as (cl & Hcl & Hin).
  assert (Hdec : inside names cl \/ ~ inside names cl).
  { destruct (consistent_iff cs names grouping clause_readable Eg cl names (fun n => iff_refl _) Hcl) as (b & _ & Hb). destruct b; [left; apply Hb; reflexivity|right].
    intros Hi. apply Hb in Hi. discriminate. }
  destruct Hdec as [Hi|Hni].
  - destruct (In_dec' l (flat_map a_pre group)) as [Hf|Hf].
    + (* a learned precondition of another action: only possible without arguments *)
      right. apply in_flat_map in Hf. destruct Hf as (b & Hb & Hlb). destruct (Hgrp b Hb) as (b0 & Gb & Ebs & Hpb).
      destruct (no_consts_mention _ _ (proj1 (proj1 (Hpb l) Hlb))) as (_ & Nb & _).
      destruct (l_args l) as [|x xs] eqn:Eargs.
      * destruct (group_real b Hb) as (rb & Erb & Esb). assert (Ht := learned_pre_true b l rb Hb Esb Hlb).
        unfold ground in *. rewrite Eargs in *. exact Ht.
      * exfalso. apply Hnp. assert (E : a_name a = a_name b).
        { apply (md_own _ MD _ a0 _ b0 x G0 Gb); [apply N2; left; reflexivity|apply Nb; left; reflexivity]. }
        rewrite (same_action a b Ha Hb E). assumption.
    + left. destruct (macro_eff_complete cl (a_name a) l Hcl Hi Hin Hf) as (l' & Hl' & Had). exists l'. split; [assumption|].
      apply adapt_ground; assumption.
  - right. destruct (macro_pre_complete a l Ha (or_intror (ex_intro _ cl (conj Hcl (conj Hni Hin))))) as (l' & Hl' & Had).
    rewrite <- (adapt_ground a l l' r Ha Es Had N1 N2'). apply Happ; assumption.
Qed.

Hypothesis Hfree : conflict_free real calls.

Lemma macro_outcome m p args : a_eff m = eff -> (after m sg s p args <->
  joint_effect real calls (mkLit p args true) \/ (holds s p args /\ ~ joint_effect real calls (mkLit p args false))).
Proof.
  intros Em. rewrite after_eff_at. unfold eff_at. rewrite Em. split.
  - intros [(l & Hl & E)|[Hh Hnd]].
    + left. rewrite <- E. apply eff_sound; assumption.
    + right. split; [assumption|]. intros Hj. destruct (eff_complete _ Hj) as [H|H]; [contradiction|]. exact (H Hh).
  - intros [Hj|[Hh Hnd]].
    + destruct (eff_complete _ Hj) as [(l & Hl & E)|H]; [left; eauto|]. right. split; [exact H|].
      intros (l & Hl & E). apply (Hfree p args Hj). rewrite <- E. apply eff_sound; assumption.
    + right. split; [assumption|]. intros (l & Hl & E). apply Hnd. rewrite <- E. apply eff_sound; assumption.
Qed.
End Macro.
