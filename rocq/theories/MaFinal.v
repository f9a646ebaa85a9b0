(** * The multi-agent learner: whole runs *)
From Verif Require Import PreludeProofs VocabProofs SamProofs SamFinal SamResults MaSpec CnfProofs MaMatch MaCnf MaProofs.

Section Ma.
Variables (dom0 : domain) (real : string -> option action) (policy : neg_policy).
Hypothesis W : wf_domain dom0.
Hypothesis Hone : length (d_consts dom0) <= 1.
Hypothesis RD : real_domain dom0 real.
Notation R := (real_effects real).
Notation names := (dict_keys (d_actions dom0)).
Notation inv := (ma_inv dom0 real policy).

Lemma ma_evidence_snoc js j n cp :
  ma_evidence (js ++ [j]) n cp <->
  ma_evidence js n cp \/ (joint_learnable j /\ exists c, In c (j_calls j) /\ c_name c = n /\ cp = comp_of j c).
Proof.
  unfold ma_evidence. split.
  - intros (j' & c & Hj & Hl & Hc & Hn & E). apply in_app_iff in Hj. destruct Hj as [Hj|[<-|[]]]; [left; exists j', c; auto|right; eauto].
  - intros [(j' & c & Hj & H)|(Hl & c & H)]; [exists j', c|exists j, c]; rewrite in_app_iff; simpl; auto.
Qed.

Lemma distinct_snoc js j : distinct (js ++ [j]) -> distinct js.
Proof. intros H j' Hj. apply H, in_app_iff; auto. Qed.

Lemma observe_calls_step j Ev M :
  pre_inv dom0 policy Ev (m_sam M) ->
  (forall c, In c (j_calls j) -> good_arity dom0 c) -> (forall c, In c (j_calls j) -> NoDup (c_params c)) ->
  (forall c, In c (j_calls j) -> no_constant_args dom0 c) ->
  exists M1, observe_calls M j = Ok M1 /\
    pre_inv dom0 policy (fun n cp => Ev n cp \/ exists c, In c (j_calls j) /\ c_name c = n /\ cp = comp_of j c) (m_sam M1) /\
    m_cnfs M1 = m_cnfs M /\ m_unsafe M1 = m_unsafe M /\
    forall calls last, j_calls j = calls ++ [last] -> snapshot_of dom0 (call_objects dom0 last) j (m_snap M1).
Proof.
  intros I Ha Hp Hc. unfold observe_calls.
  enough (G : forall todo M Ev, pre_inv dom0 policy Ev (m_sam M) -> incl todo (j_calls j) ->
    exists M1, fold_res (fun M c =>
              let* snap := triplet_snapshot (s_dom (m_sam M)) (j_prev j) (j_next j) c in
              let* L1 := observe_call (m_sam M) c (fst snap) in
              Ok (mkMa L1 (m_cnfs M) snap (m_unsafe M))) todo M = Ok M1 /\
      pre_inv dom0 policy (fun n cp => Ev n cp \/ exists c, In c todo /\ c_name c = n /\ cp = comp_of j c) (m_sam M1) /\
      m_cnfs M1 = m_cnfs M /\ m_unsafe M1 = m_unsafe M /\
      forall calls last, todo = calls ++ [last] -> snapshot_of dom0 (call_objects dom0 last) j (m_snap M1)).
  { apply (G (j_calls j) M Ev I). apply incl_refl. }
  clear M Ev I. induction todo as [|c todo IH]; intros M Ev I Hi.
  - exists M. split; [reflexivity|]. split; [|split; [reflexivity|split; [reflexivity|]]].
    + eapply pre_inv_iff; [|exact I]. intros n cp. split; [auto|intros [?|(? & [] & _)]; assumption].
    + intros calls last E. destruct calls; discriminate.
  - assert (Hin : In c (j_calls j)) by (apply Hi; left; reflexivity).
    destruct (observe_step dom0 policy Ev (m_sam M) (j_prev j) (j_next j) c W I (Ha c Hin) (Hp c Hin) (Hc c Hin))
      as (snap & L1 & E1 & E2 & I1 & S1 & S2).
    cbn [fold_res]. rewrite E1. cbn [bind]. rewrite E2. cbn [bind].
    destruct (IH (mkMa L1 (m_cnfs M) snap (m_unsafe M)) _ I1) as (M1 & E3 & I3 & C3 & U3 & S3); [intros c' H'; apply Hi; right; assumption|].
    exists M1. split; [exact E3|]. split; [|split; [exact C3|split; [exact U3|]]].
    + eapply pre_inv_iff; [|exact I3]. intros n cp. split.
      * intros [[H|[<- ->]]|(c' & H' & H'')]; [auto|right; exists c; split; [left; reflexivity|auto]|right; exists c'; split; [right; assumption|assumption]].
      * intros [H|(c' & [<-|H'] & H1 & H2)]; [auto|left; right; auto|right; eauto].
    + intros calls last E. destruct todo as [|c2 todo].
      * simpl in E3. injection E3 as <-. cbn [m_snap].
        assert (c = last) by (destruct calls as [|? [|? ?]]; simpl in E; congruence). subst last. constructor; assumption.
      * destruct calls as [|c0 calls]; [discriminate|]. injection E as -> E. apply (S3 calls last). exact E.
Qed.

(** Any literal that an effect of a call grounds to is stated over the objects of that call. *)
Lemma own_effect_seen c r l :
  good_arity dom0 c -> NoDup (c_params c) -> no_constant_args dom0 c -> real (c_name c) = Some r -> In l (a_eff r) ->
  well_typed dom0 (call_objects dom0 c ++ d_consts dom0) (ground (call_assignment (a_sig r) c) l).
Proof.
  intros (a0 & G0 & Hl) Hp Hc Hr Hin. destruct (real_sig _ _ RD _ _ G0) as (r' & Er & Es). rewrite Hr in Er. injection Er as <-.
  assert (G0' := G0). apply dict_get_In in G0'.
  assert (Gc : good_call dom0 a0 c).
  { constructor; auto; [eapply wf_sigs; eassumption|intros y; exact (wf_disj _ W _ _ y G0')|apply (wf_consts _ W)]. }
  assert (Hm := real_eff _ _ RD _ _ _ Hr Hin). rewrite Es in *. apply (typing_ground dom0 a0 c l Gc Hp Hc) in Hm.
  destruct Hm as (_ & _ & Hm). unfold parameterized_objects in Hm. rewrite well_typed_dup in Hm.
  unfold call_objects. rewrite G0. exact Hm.
Qed.
Lemma single_seen j c :
  j_calls j = [c] -> good_arity dom0 c -> NoDup (c_params c) -> no_constant_args dom0 c -> seen_by_last dom0 real j.
Proof.
  intros Ej Ha Hp Hc calls last g E (c' & r & l & H1 & H2 & H3 & <-) _. rewrite Ej in *.
  destruct calls as [|? [|? ?]]; [|discriminate|discriminate]. injection E as <-. destruct H1 as [<-|[]].
  apply own_effect_seen; assumption.
Qed.

Lemma joint_step js M j :
  inv js M -> (forall c, In c (j_calls j) -> good_arity dom0 c) ->
  (joint_learnable j -> real_joint real j) ->
  (joint_learnable j -> forall c, In c (j_calls j) -> no_constant_args dom0 c) ->
  exists M', handle_joint M j = Ok M' /\ inv (js ++ [j]) M'.
Proof.
  intros [I U T C] Ha Hr Hn. unfold handle_joint.
  destruct (verify_all_step dom0 policy (ma_evidence js) (m_sam M) (j_calls j) W I Ha) as (L1 & dup & E & I1 & Hd).
  rewrite E. cbn [bind]. destruct dup.
  - (* some call repeats an object *)
    assert (Hnl : ~ joint_learnable j) by (intros H; apply Hd in H; discriminate).
    eexists; split; [reflexivity|]. constructor; auto.
    + eapply pre_inv_iff; [|exact I1]. intros n cp. rewrite ma_evidence_snoc. tauto.
    + eapply tok_weaken; [apply distinct_snoc|exact T].
    + intros j' c l Hj Hl. apply in_app_iff in Hj. destruct Hj as [Hj|[<-|[]]]; [|contradiction]. apply C; assumption.
  - assert (Hl : joint_learnable j) by (intros c; apply Hd; reflexivity).
    specialize (Hr Hl). specialize (Hn Hl).
    assert (Tw : table_ok (d_preds dom0) names R (distinct (js ++ [j])) (m_cnfs M)) by (eapply tok_weaken; [apply distinct_snoc|exact T]).
    assert (HD : distinct (js ++ [j]) -> different_actions j) by (intros H; apply H; [apply in_app_iff; right; left; reflexivity|assumption]).
    assert (Hev : forall n cp, (ma_evidence js n cp \/ exists c, In c (j_calls j) /\ c_name c = n /\ cp = comp_of j c) <-> ma_evidence (js ++ [j]) n cp).
    { intros n cp. rewrite ma_evidence_snoc. tauto. }
    destruct (j_calls j) as [|c0 [|c1 rest]] eqn:Ej; [exfalso; apply (rj_some _ _ Hr); assumption| |].
    + (* one call *)
      assert (Hin0 : In c0 (j_calls j)) by (rewrite Ej; left; reflexivity).
      destruct (observe_step dom0 policy (ma_evidence js) L1 (j_prev j) (j_next j) c0 W I1 (Ha c0 (or_introl eq_refl)) (Hl c0 Hin0) (Hn c0 (or_introl eq_refl)))
        as (snap & L2 & E1 & E2 & I2 & S1 & S2).
      rewrite E1. cbn [bind]. unfold update_single. cbn [m_sam m_snap m_cnfs m_unsafe with_snap with_sam]. rewrite E2. cbn [bind].
      assert (Hso : snapshot_of dom0 (call_objects dom0 c0) j snap) by (constructor; assumption).
      destruct (single_loops dom0 real policy W Hone RD j _ L2 (call_objects dom0 c0) snap I2 Hr) with (D := distinct (js ++ [j])) (cs := m_cnfs M) (c := c0)
        as (cs1 & nes & c' & cs2 & F1 & F2 & F3 & T2 & K2 & P2); auto.
      { rewrite Ej; assumption. } { rewrite Ej; assumption. }
      rewrite F1. cbn [bind]. rewrite F2, F3. cbn [bind]. eexists; split; [reflexivity|]. constructor; auto.
      * cbn [m_sam]. eapply pre_inv_iff; [|exact I2]. intros n cp. rewrite <- Hev. split.
        -- intros [H|[H ->]]; [auto|right; exists c0; split; [left; reflexivity|auto]].
        -- intros [H|(c & [<-|[]] & H)]; [auto|right; exact H].
      * intros j' c l Hj Hl' Hs Hc HR Hb. cbn [m_cnfs]. apply in_app_iff in Hj. destruct Hj as [Hj|[<-|[]]].
        -- apply K2; [assumption|]. eapply C; eauto.
        -- eapply (recorded_complete dom0 real policy RD j _ L2 (call_objects dom0 c0) snap I2); eauto.
           { rewrite Ej; assumption. } intros g Hg Hng. apply (Hs [] c0 g); auto.
    + (* several calls *)
      set (calls := c0 :: c1 :: rest) in *.
      destruct (observe_calls_step j (ma_evidence js) (with_sam M L1)) as (M1 & E1 & I2 & C1 & U1 & S1); auto.
      { rewrite Ej; assumption. } { rewrite Ej; assumption. }
      unfold update_multiple. rewrite E1. cbn [bind].
      destruct (exists_last (l := calls)) as (pre & last & El); [discriminate|].
      assert (Hso := S1 pre last (eq_trans Ej El)).
      destruct (multiple_loops dom0 real policy W Hone RD j _ (m_sam M1) (call_objects dom0 last) (m_snap M1) I2 Hr) with (D := distinct (js ++ [j])) (cs := m_cnfs M1)
        as (acc & cs2 & calls2 & F1 & F2 & T2 & K2 & P2); auto.
      { rewrite Ej; assumption. } { rewrite Ej; assumption. } { rewrite C1. exact Tw. }
      rewrite F1. cbn [bind]. rewrite F2. cbn [bind]. eexists; split; [reflexivity|]. constructor; cbn [with_cnfs m_sam m_cnfs m_unsafe fst].
      * eapply pre_inv_iff; [|exact I2]. intros n cp. rewrite Ej. apply Hev.
      * rewrite U1. exact U.
      * exact T2.
      * intros j' c l Hj Hl' Hs Hc HR Hb. apply in_app_iff in Hj. destruct Hj as [Hj|[<-|[]]].
        -- apply K2; [assumption|]. rewrite C1. eapply C; eauto.
        -- eapply (recorded_complete dom0 real policy RD j _ (m_sam M1) (call_objects dom0 last) (m_snap M1) I2); eauto.
           { rewrite Ej; assumption. }
           intros g Hg Hng. apply (Hs pre last g); auto. rewrite Ej. exact El.
Qed.

(** ** Start *)
Lemma initialize_table dom preds cs :
  (forall key k, In (key, k) cs -> k = init_cnf (dict_keys (d_actions dom))) ->
  let fresh := init_cnf (dict_keys (d_actions dom)) in
  let t := fold_left (fun cs (p : string * signature) => dict_set (dict_set cs (fst p, true) fresh) (fst p, false) fresh) preds cs in
  (forall key k, In (key, k) t -> k = fresh) /\
  (forall p ps b, In (p, ps) preds -> In (p, b) (dict_keys t)) /\ (forall key, In key (dict_keys cs) -> In key (dict_keys t)).
Proof.
  cbv zeta. revert cs. induction preds as [|[p ps] preds IH]; intros cs H; cbn [fold_left fst].
  - repeat split; auto. intros ? ? ? [].
  - destruct (IH (dict_set (dict_set cs (p, true) (init_cnf (dict_keys (d_actions dom)))) (p, false) (init_cnf (dict_keys (d_actions dom))))) as (H1 & H2 & H3).
    { intros key k Hin. apply dict_set_In in Hin. destruct Hin as [Hin|[_ ->]]; [|reflexivity].
      apply dict_set_In in Hin. destruct Hin as [Hin|[_ ->]]; [eauto|reflexivity]. }
    split; [assumption|]. split.
    + intros q qs b [E|Hin]; [|eauto]. injection E as <- <-. apply H3. rewrite !dict_set_keys_In. destruct b; auto.
    + intros key Hk. apply H3. rewrite !dict_set_keys_In. auto.
Qed.

Lemma start_ma : blank_domain dom0 ->
  inv [] (with_sam (initialize_cnfs (init_ma dom0 policy)) (deduce_initial_inequality_preconditions (m_sam (initialize_cnfs (init_ma dom0 policy))))).
Proof.
  intros B. pose proof (initialize_table dom0 (d_preds dom0) []) as Ht. cbv zeta in Ht. destruct Ht as (H1 & H2 & _); [intros ? ? []|].
  assert (Hno : forall n cp, ~ ma_evidence [] n cp) by (intros n cp (j & c & [] & _)).
  constructor.
  - cbn [m_sam with_sam initialize_cnfs with_cnfs init_ma]. unfold deduce_initial_inequality_preconditions, init_learner.
    cbn [s_injective s_dom with_dom set_actions d_actions].
    constructor; cbn [s_dom with_dom set_actions d_actions s_observed s_safe s_policy].
    + reflexivity.
    + apply (dict_keys_map_vals (fun na => initial_inequalities (snd na))).
    + intros n. split; [intros []|intros [cp Hc]; destruct (Hno _ _ Hc)].
    + intros n a0 G. rewrite (dict_get_map_vals (fun na => initial_inequalities (snd na))). rewrite G. eexists; split; [reflexivity|].
      apply dict_get_In in G. destruct (B _ _ G) as (B1 & B2 & B3). cbn [snd]. unfold initial_inequalities. cbn [a_name a_sig a_eff a_pre with_ineq].
      split; [eapply wf_names; eassumption|]. split; [reflexivity|]. split; [assumption|].
      intros l. rewrite B1. simpl. split; [intros []|intros ((cp & Hc) & _); destruct (Hno _ _ Hc)].
    + reflexivity.
    + reflexivity.
  - reflexivity.
  - cbn [m_cnfs with_sam initialize_cnfs with_cnfs init_ma m_sam s_dom init_learner]. constructor.
    + exact H2.
    + intros key k Hin. rewrite (H1 _ _ Hin). apply init_cnf_names.
    + intros key k Hin. rewrite (H1 _ _ Hin). apply init_cnf_satisfies.
    + intros _ key k cl Hin Hcl. rewrite (H1 _ _ Hin) in Hcl. destruct Hcl.
  - intros j c l [].
Qed.

Lemma learn_joints_concat M obs : learn_joints M obs = fold_res handle_joint (concat obs) M.
Proof.
  unfold learn_joints. revert M; induction obs as [|o obs IH]; intros M; simpl; [reflexivity|].
  rewrite fold_res_app. destruct (fold_res handle_joint o M); simpl; [apply IH|reflexivity].
Qed.

Lemma joints_loop js0 M js :
  inv js0 M -> good_joints dom0 js -> real_joints real js -> no_constant_joints dom0 js ->
  exists M', fold_res handle_joint js M = Ok M' /\ inv (js0 ++ js) M'.
Proof.
  revert js0 M; induction js as [|j js IH]; intros js0 M I Hg Hr Hn.
  - exists M; rewrite app_nil_r; auto.
  - destruct (joint_step js0 M j I) as (M1 & E1 & I1).
    { intros c. apply Hg; left; reflexivity. } { apply Hr; left; reflexivity. } { intros Hl c. apply Hn; [left; reflexivity|assumption]. }
    destruct (IH (js0 ++ [j]) M1 I1) as (M2 & E2 & I2).
    { intros j' c Hj; apply Hg; right; assumption. } { intros j' Hj; apply Hr; right; assumption. } { intros j' c Hj; apply Hn; right; assumption. }
    exists M2. rewrite <- app_assoc in I2. cbn [fold_res]. rewrite E1. cbn [bind]. auto.
Qed.

(** ** End *)
Lemma ma_action_safe_spec D cs n pre :
  table_ok (d_preds dom0) names R D cs -> In n names ->
  exists b, ma_action_safe cs n pre = Ok b /\
    (b = true -> forall key k cl l, In (key, k) cs -> In cl (n_clauses k) -> In (n, l) cl -> is_action_safe k n pre = true).
Proof.
  intros T Hn. unfold ma_action_safe.
  enough (G : forall todo ok, incl todo cs -> exists b,
    fold_res (fun ok (kc : (string * bool) * cnf) =>
              if (ok : bool) then
                let* acting := is_action_acting (snd kc) n in
                Ok (if (acting : bool) then is_action_safe (snd kc) n pre else true)
              else Ok false) todo ok = Ok b /\
    (b = true -> ok = true /\ forall key k cl l, In (key, k) todo -> In cl (n_clauses k) -> In (n, l) cl -> is_action_safe k n pre = true)).
  { destruct (G cs true (incl_refl _)) as (b & E & H). exists b; split; [exact E|]. intros Hb. apply H; assumption. }
  induction todo as [|[key k] todo IH]; intros ok Hi.
  - exists ok. split; [reflexivity|]. intros ->. split; [reflexivity|]. intros ? ? ? ? [].
  - cbn [fold_res snd]. destruct ok.
    + assert (Hk := tk_names _ _ _ _ _ T key k (Hi _ (or_introl eq_refl))).
      assert (Ha : exists acting, is_action_acting k n = Ok acting).
      { unfold is_action_acting. destruct (existsb (mentions n) (n_clauses k)); [eauto|].
        apply Hk, dict_get_Some_iff in Hn. destruct Hn as [s Es]. unfold dict_lookup. rewrite Es. cbn [bind]. eauto. }
      destruct Ha as (acting & Ea). rewrite Ea. cbn [bind].
      destruct (IH (if acting then is_action_safe k n pre else true)) as (b & E & H); [intros x Hx; apply Hi; right; assumption|].
      exists b. split; [exact E|]. intros Hb. specialize (H Hb). destruct H as [H1 H2]. split; [reflexivity|].
      intros key' k' cl l [E'|Hin] Hcl Hl; [|eapply H2; eassumption]. injection E' as <- <-.
      rewrite (acting_spec k n acting Ea) in H1 by eauto. assumption.
    + cbn [bind]. destruct (IH false) as (b & E & H); [intros x Hx; apply Hi; right; assumption|].
      exists b. split; [exact E|]. intros Hb. destruct (H Hb). discriminate.
Qed.

Lemma effects_from_cnf_In cs n pre l :
  In l (effects_from_cnf cs n pre) <-> (exists key k, In (key, k) cs /\ In [(n, l)] (n_clauses k)) /\ ~ In l pre.
Proof.
  unfold effects_from_cnf. rewrite in_flat_map. split.
  - intros ([key k] & Hin & H). cbn [snd] in H. apply extract_In in H. destruct H as [H1 H2]. eauto.
  - intros ((key & k & Hin & H) & Hp). exists (key, k). split; [assumption|]. apply extract_In. auto.
Qed.

Lemma pop_all (ns : list string) (d : list (string * action)) :
  NoDup ns -> incl ns (dict_keys d) ->
  exists d', fold_res (fun acts n => let* _ := dict_lookup acts n in Ok (dict_pop acts n)) ns d = Ok d' /\
    forall k, dict_get d' k = if memb k ns then None else dict_get d k.
Proof.
  revert d; induction ns as [|n ns IH]; intros d Hn Hi.
  - exists d. auto.
  - apply NoDup_cons_iff in Hn. destruct Hn as [Hn Hns]. cbn [fold_res]. unfold dict_lookup at 1.
    assert (Hk : In n (dict_keys d)) by (apply Hi; left; reflexivity). apply dict_get_Some_iff in Hk. destruct Hk as [v Ev].
    rewrite Ev. cbn [bind]. destruct (IH (dict_pop d n)) as (d' & E & H); [assumption| |].
    + intros k Hk. assert (Hk' : In k (dict_keys d)) by (apply Hi; right; assumption).
      apply dict_get_Some_iff in Hk'. apply dict_get_Some_iff. rewrite dict_pop_get.
      destruct (eq_dec k n) as [->|]; [contradiction|assumption].
    + exists d'. split; [exact E|]. intros k. rewrite H, dict_pop_get. simpl.
      destruct (eq_dec k n) as [->|Hne].
      * rewrite PreludeProofs.eqb_refl. destruct (memb n ns); reflexivity.
      * rewrite (proj2 (PreludeProofs.eqb_neq k n) Hne). reflexivity.
Qed.

(** What is known about an action of the learned model. *)
Record kept_action (js : list joint) (cs : table) (n : string) (a0 a : action) : Prop :=
  { ka_name : a_name a = n;
    ka_sig : a_sig a = a_sig a0;
    ka_pre : forall l, In l (a_pre a) <-> mentionable dom0 (a_sig a0) l /\ forall cp, ma_evidence js n cp -> true_before (a_sig a0) cp l;
    ka_eff : forall l, In l (a_eff a) <-> In l (effects_from_cnf cs n (a_pre a));
    ka_safe : forall key k cl l, In (key, k) cs -> In cl (n_clauses k) -> In (n, l) cl -> is_action_safe k n (a_pre a) = true }.

Lemma unobserved_step js L :
  pre_inv dom0 policy (ma_evidence js) L ->
  let U := handle_unobserved_actions L in
  s_dom U = set_actions dom0 (d_actions (s_dom U)) /\ dict_keys (d_actions (s_dom U)) = names /\
  s_observed U = s_observed L /\ s_safe U = [] /\ s_policy U = policy /\
  forall n a0, dict_get (d_actions dom0) n = Some a0 -> exists a, dict_get (d_actions (s_dom U)) n = Some a /\
    a_name a = n /\ a_sig a = a_sig a0 /\ a_eff a = [] /\
    (forall l, In l (a_pre a) <-> mentionable dom0 (a_sig a0) l /\ forall cp, ma_evidence js n cp -> true_before (a_sig a0) cp l).
Proof.
  intros I. cbv zeta. unfold handle_unobserved_actions; simpl.
  assert (Eq : forall acts, map (fun na : string * action => if memb (fst na) (s_observed L) then na else
            (fst na, with_pre (snd na) (set_union (a_pre (snd na)) (lifted_vocabulary (s_dom L) (a_sig (snd na)) None)))) acts
          = map (fun na => (fst na, (fun na : string * action => if memb (fst na) (s_observed L) then snd na else
            with_pre (snd na) (set_union (a_pre (snd na)) (lifted_vocabulary (s_dom L) (a_sig (snd na)) None))) na)) acts).
  { intros acts. apply map_ext. intros [k b]; simpl. destruct (memb k (s_observed L)); reflexivity. }
  rewrite Eq. split; [rewrite (pi_dom _ _ _ _ I); reflexivity|]. split; [rewrite dict_keys_map_vals; apply (pi_keys _ _ _ _ I)|].
  split; [reflexivity|]. split; [apply (pi_safe _ _ _ _ I)|]. split; [apply (pi_policy _ _ _ _ I)|].
  intros n a0 G. rewrite dict_get_map_vals. destruct (pi_act _ _ _ _ I n a0 G) as (a & Ga & H1 & H2 & H3 & H4).
  rewrite Ga. eexists; split; [reflexivity|]. simpl fst; simpl snd.
  destruct (memb n (s_observed L)) eqn:Em.
  - apply memb_In, (pi_obs _ _ _ _ I) in Em. repeat (split; [assumption|]). intros l. rewrite H4. tauto.
  - assert (Hno : ~ exists cp, ma_evidence js n cp) by (rewrite <- (pi_obs _ _ _ _ I); apply memb_nIn; assumption).
    cbn [a_name a_sig a_eff a_pre with_pre]. repeat (split; [assumption|]).
    intros l. rewrite set_union_In, H4, lifted_vocabulary_exact.
    + rewrite H2, (pi_dom _ _ _ _ I). simpl. split.
      * intros [[? _]|[? _]]; [contradiction|]. split; [assumption|]. intros cp Hcp; exfalso; eauto.
      * intros (? & _). right; auto.
    + rewrite H2, (pi_dom _ _ _ _ I). apply (wf_names_NoDup dom0 n a0); assumption.
Qed.

Lemma construct_step js M :
  inv js M -> exists M', construct_safe_actions true M = Ok M' /\ m_cnfs M' = m_cnfs M /\
    s_policy (m_sam M') = policy /\ s_observed (m_sam M') = s_observed (m_sam M) /\
    (forall n, In n (s_safe (m_sam M')) <-> exists a, dict_get (d_actions (s_dom (m_sam M'))) n = Some a) /\
    (forall n, In n (m_unsafe M') <-> In n names /\ ~ In n (s_safe (m_sam M'))) /\
    forall n a, dict_get (d_actions (s_dom (m_sam M'))) n = Some a ->
      exists a0, dict_get (d_actions dom0) n = Some a0 /\ kept_action js (m_cnfs M) n a0 a.
Proof.
  intros [I U T C]. destruct (unobserved_step js (m_sam M) I) as (U1 & U2 & U3 & U4 & U5 & U6).
  unfold construct_safe_actions. set (L := handle_unobserved_actions (m_sam M)) in *. clearbody L.
  set (safe_b := fun a : action => match ma_action_safe (m_cnfs M) (a_name a) (a_pre a) with Ok b => b | Err _ => false end).
  set (build := fun a : action => if safe_b a then with_eff a (set_union (a_eff a) (effects_from_cnf (m_cnfs M) (a_name a) (a_pre a))) else a).
  assert (Hact : forall n a, In (n, a) (d_actions (s_dom L)) -> dict_get (d_actions (s_dom L)) n = Some a).
  { intros n a Hin. apply dict_In_get; [|assumption]. rewrite U2. apply (wf_acts _ W). }
  assert (Hinfo : forall n a, In (n, a) (d_actions (s_dom L)) -> a_name a = n /\ In n names).
  { intros n a Hin. assert (Hk : In n names) by (rewrite <- U2; apply (in_map fst) in Hin; exact Hin). split; [|assumption].
    apply dict_get_Some_iff in Hk. destruct Hk as [a0 G0]. destruct (U6 n a0 G0) as (a' & Ga & Hn & _).
    rewrite (Hact n a Hin) in Ga. congruence. }
  rewrite (map_res_total _ (fun na : string * action => (fst na, (build (snd na), safe_b (snd na))))).
  2:{ intros [n a] Hin. cbn [snd fst]. destruct (Hinfo n a Hin) as [Hn Hk]. unfold construct_action, build, safe_b.
      destruct (ma_action_safe_spec _ _ n (a_pre a) T Hk) as (b & E & _). rewrite Hn, E. cbn [bind]. destruct b; reflexivity. }
  cbn [bind]. rewrite U.
  set (acts := map (fun nr : string * (action * bool) => (fst nr, fst (snd nr))) (map (fun na : string * action => (fst na, (build (snd na), safe_b (snd na)))) (d_actions (s_dom L)))).
  assert (Ea : acts = map (fun na : string * action => (fst na, build (snd na))) (d_actions (s_dom L))) by (unfold acts; rewrite map_map; reflexivity).
  assert (Hbn : forall a, a_name (build a) = a_name a) by (intros a; unfold build; destruct (safe_b a); reflexivity).
  assert (Hsel : forall (f : bool -> bool) n,
    In n (map (fun nr : string * (action * bool) => a_name (fst (snd nr)))
         (filter (fun nr => f (snd (snd nr))) (map (fun na : string * action => (fst na, (build (snd na), safe_b (snd na)))) (d_actions (s_dom L))))) <->
    exists a, dict_get (d_actions (s_dom L)) n = Some a /\ f (safe_b a) = true).
  { intros f n. rewrite in_map_iff. split.
    - intros ([k [b v]] & E & H). apply filter_In in H. destruct H as [H Hv]. apply in_map_iff in H. destruct H as ([k' a] & E' & Hin).
      injection E' as <- <- <-. cbn [fst snd] in *. rewrite Hbn in E. destruct (Hinfo _ _ Hin) as [Hn _]. rewrite <- E, Hn. exists a; auto.
    - intros (a & G & Hf). apply dict_get_In in G. exists (n, (build a, safe_b a)). cbn [fst snd]. rewrite Hbn. split; [apply (Hinfo _ _ G)|].
      apply filter_In. split; [|assumption]. apply in_map_iff. exists (n, a); auto. }
  pose proof (Hsel (fun b => b)) as Hsafe. pose proof (Hsel negb) as Hunsafe. clear Hsel.
  set (safe := map (fun nr : string * (action * bool) => a_name (fst (snd nr)))
         (filter (fun nr => snd (snd nr)) (map (fun na : string * action => (fst na, (build (snd na), safe_b (snd na)))) (d_actions (s_dom L))))) in *.
  set (unsafe := map (fun nr : string * (action * bool) => a_name (fst (snd nr)))
         (filter (fun nr => negb (snd (snd nr))) (map (fun na : string * action => (fst na, (build (snd na), safe_b (snd na)))) (d_actions (s_dom L))))) in *.
  clearbody safe unsafe acts.
  destruct (pop_all (set_union [] unsafe) acts) as (acts' & Ep & Hp).
  { apply set_union_NoDup. constructor. }
  { intros n Hn. rewrite set_union_In in Hn. destruct Hn as [[]|Hn]. apply Hunsafe in Hn. destruct Hn as (a & G & _).
    rewrite Ea, (dict_keys_map_vals (fun na => build (snd na))). eapply dict_get_key; eassumption. }
  rewrite Ep. cbn [bind]. eexists; split; [reflexivity|]. split; [reflexivity|]. cbn [m_sam s_policy s_observed s_safe s_dom m_unsafe set_actions d_actions].
  assert (Hget : forall n, dict_get acts' n = match dict_get (d_actions (s_dom L)) n with
                  | Some a => if safe_b a then Some (build a) else None | None => None end).
  { intros n. rewrite Hp, Ea, (dict_get_map_vals (fun na => build (snd na))). cbn [snd].
    destruct (dict_get (d_actions (s_dom L)) n) as [a|] eqn:G; [|destruct (memb n (set_union [] unsafe)); reflexivity].
    destruct (safe_b a) eqn:Es.
    - replace (memb n (set_union [] unsafe)) with false; [reflexivity|]. symmetry. apply memb_nIn. rewrite set_union_In.
      intros [[]|Hn]. apply Hunsafe in Hn. destruct Hn as (a' & G' & Hf). rewrite G in G'. injection G' as <-. rewrite Es in Hf. discriminate.
    - replace (memb n (set_union [] unsafe)) with true; [reflexivity|]. symmetry. apply memb_In. rewrite set_union_In. right.
      apply Hunsafe. exists a. rewrite Es; auto. }
  split; [assumption|]. split; [assumption|]. rewrite U4. cbn [app]. split; [|split].
  - intros n. rewrite Hsafe, Hget. split.
    + intros (a & -> & ->). eauto.
    + intros (b & E). destruct (dict_get (d_actions (s_dom L)) n) as [a|]; [|discriminate]. destruct (safe_b a) eqn:Es; [eauto|discriminate].
  - intros n. rewrite set_union_In, Hunsafe, Hsafe. split.
    + intros [[]|(a & G & Hf)]. split; [rewrite <- U2; eapply dict_get_key; eassumption|]. intros (a' & G' & Hf'). rewrite G in G'. injection G' as <-.
      rewrite Hf' in Hf. discriminate.
    + intros [Hk Hn]. right. rewrite <- U2 in Hk. apply dict_get_Some_iff in Hk. destruct Hk as (a & G). exists a. split; [assumption|].
      apply negb_true_iff. destruct (safe_b a) eqn:Es; [exfalso; eauto|reflexivity].
  - intros n b E. rewrite Hget in E. destruct (dict_get (d_actions (s_dom L)) n) as [a|] eqn:G; [|discriminate].
    destruct (safe_b a) eqn:Es; [|discriminate]. injection E as <-.
    assert (Hk : In n names) by (rewrite <- U2; eapply dict_get_key; eassumption).
    assert (Hk' := Hk). apply dict_get_Some_iff in Hk'. destruct Hk' as [a0 G0]. exists a0. split; [assumption|].
    destruct (U6 n a0 G0) as (a' & Ga & H1 & H2 & H3 & H4). rewrite G in Ga. injection Ga as <-.
    unfold build. rewrite Es. constructor; cbn [a_name a_sig a_pre a_eff with_eff]; auto.
    + intros l. rewrite set_union_In, H3, H1. simpl. tauto.
    + unfold safe_b in Es. destruct (ma_action_safe_spec _ _ n (a_pre a) T Hk) as (b & Eb & Hb). rewrite H1, Eb in Es. subst b. apply Hb; reflexivity.
Qed.
End Ma.
