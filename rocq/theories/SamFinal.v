(** * The result of [learn_action_model] and its safety *)
From Verif Require Import PreludeProofs SamModel SamSpec VocabProofs SamProofs.

(** ** Maps over the actions of a domain *)
Lemma dict_get_map_vals {V W} (f : string * V -> W) (d : list (string * V)) k :
  dict_get (map (fun na => (fst na, f na)) d) k =
  match dict_get d k with Some v => Some (f (k, v)) | None => None end.
Proof.
  induction d as [|[k' v] d IH]; simpl; [reflexivity|].
  destruct (eq_dec k k') as [->|Hne]; [reflexivity|assumption].
Qed.
Lemma dict_keys_map_vals {V W} (f : string * V -> W) (d : list (string * V)) :
  dict_keys (map (fun na => (fst na, f na)) d) = dict_keys d.
Proof. unfold dict_keys. rewrite map_map. reflexivity. Qed.

(** ** Start of learning *)
Lemma complete_id L :
  (forall n, In n (map fst (s_sigs L)) -> In n (dict_keys (d_actions (s_dom L)))) ->
  complete_possibly_missing_actions L = L.
Proof.
  unfold complete_possibly_missing_actions. generalize (s_sigs L). induction l as [|[n sg] l IH]; intros Hs; [reflexivity|].
  cbn [fold_left fst]. replace (dict_mem n (d_actions (s_dom L))) with true.
  - apply IH. intros k Hk; apply Hs; right; assumption.
  - symmetry. apply memb_In, Hs. left; reflexivity.
Qed.

Lemma initial_inequalities_In a x y :
  In (x, y) (a_ineq (initial_inequalities a)) <->
  In (x, y) (a_ineq a) \/ (before_in (a_sig a) x y /\ same_type (a_sig a) x y).
Proof.
  unfold initial_inequalities; cbn [a_ineq with_ineq].
  rewrite (fold_In_gen (fun p q => q = p /\ same_type (a_sig a) (fst p) (snd p))).
  - unfold before_in. rewrite <- pairs2_In. split.
    + intros [?|(p & Hp & <- & Ht)]; auto.
    + intros [?|[Hp Ht]]; [auto|right; exists (x, y); auto].
  - intros v p q. unfold same_type. destruct (dict_get (a_sig a) (fst p)) as [t1|]; [|split; [auto|intros [?|(_ & ? & ? & ? & _)]; [assumption|discriminate]]].
    destruct (dict_get (a_sig a) (snd p)) as [t2|]; [|split; [auto|intros [?|(_ & ? & ? & _ & ? & _)]; [assumption|discriminate]]].
    unfold type_eqb. destruct (eqb (t_name t1) (t_name t2)) eqn:E.
    + apply eqb_true in E. rewrite set_add_In. split.
      * intros [->|?]; [right; split; [reflexivity|eauto]|auto].
      * intros [?|[-> _]]; auto.
    + apply eqb_false in E. split; [auto|]. intros [?|(_ & ? & ? & E1 & E2 & E3)]; [assumption|congruence].
Qed.

Definition start (dom : domain) (policy : neg_policy) (inj : bool) : learner :=
  complete_possibly_missing_actions (deduce_initial_inequality_preconditions (init_learner dom policy inj)).

Lemma start_eq dom policy inj :
  start dom policy inj = deduce_initial_inequality_preconditions (init_learner dom policy inj).
Proof.
  unfold start. apply complete_id. intros n Hn. unfold deduce_initial_inequality_preconditions, init_learner in *; simpl in *.
  destruct inj; simpl in *; rewrite map_map in Hn; simpl in Hn; [rewrite dict_keys_map_vals|]; exact Hn.
Qed.

Lemma cbe_of_map (acts : list (string * action)) n :
  match dict_get (map (fun na => (fst na, @nil literal)) acts) n with Some s => s | None => [] end = [].
Proof. induction acts as [|[k a] acts IH]; simpl; [reflexivity|]. destruct (eq_dec n k); [reflexivity|assumption]. Qed.

Lemma start_inv dom policy inj :
  wf_domain dom -> blank_domain dom -> sam_inv dom inj policy [] (start dom policy inj).
Proof.
  intros W B. rewrite start_eq.
  assert (Hev : forall n cp, ~ evidence [] n cp) by (intros n cp [[] _]).
  assert (Hai : forall n a0, dict_get (d_actions dom) n = Some a0 ->
     forall a, a_name a = a_name a0 -> a_sig a = a_sig a0 -> a_pre a = [] -> a_eff a = [] ->
     (forall x y, In (x, y) (a_ineq a) <-> inj = true /\ before_in (a_sig a0) x y /\ same_type (a_sig a0) x y) ->
     action_inv dom inj [] n a0 a).
  { intros n a0 G a E1 E2 E3 E4 E5. apply dict_get_In in G. constructor.
    - rewrite E1. eapply wf_names; eassumption.
    - assumption.
    - intros l. rewrite E3. split; [intros []|]. intros [[cp Hcp] _]. exfalso; eapply Hev; eassumption.
    - intros l. rewrite E4. intros [].
    - intros l _ [cp [Hcp _]]. exfalso; eapply Hev; eassumption.
    - intros x y. rewrite E5. split; [intros (? & ? & ?); repeat split; auto; intros cp []|tauto]. }
  unfold deduce_initial_inequality_preconditions. destruct inj; simpl s_injective; cbn [s_injective init_learner].
  - constructor; try reflexivity; simpl.
    + apply dict_keys_map_vals.
    + intros n; split; [intros []|intros [cp [[] _]]].
    + intros n a0 G. rewrite (dict_get_map_vals (fun na => initial_inequalities (snd na))), G. eexists; split; [reflexivity|].
      assert (G' := dict_get_In _ _ _ G). destruct (B n a0 G') as (B1 & B2 & B3).
      apply (Hai n a0 G); try reflexivity; try assumption. intros x y. cbn [snd].
      rewrite initial_inequalities_In, B2. simpl. tauto.
    + intros n Hn. rewrite (dict_keys_map_vals (fun _ => [])). assumption.
    + intros n a0 l G. unfold cbe_of; simpl. rewrite cbe_of_map. intros [].
  - constructor; try reflexivity; simpl.
    + destruct dom; reflexivity.
    + intros n; split; [intros []|intros [cp [[] _]]].
    + intros n a0 G. exists a0; split; [assumption|].
      assert (G' := dict_get_In _ _ _ G). destruct (B n a0 G') as (B1 & B2 & B3).
      apply (Hai n a0 G); auto. intros x y. rewrite B2. simpl. split; [tauto|intros [? _]; discriminate].
    + intros n Hn. rewrite (dict_keys_map_vals (fun _ => [])). assumption.
    + intros n a0 l G. unfold cbe_of; simpl. rewrite cbe_of_map. intros [].
Qed.

(** ** The loop over the observations *)
Definition comp_step (L : learner) (cp : component) : res learner :=
  if cp_ok cp then handle_component L cp else Ok L.

Lemma learn_components_concat L obs : learn_components L obs = fold_res comp_step (concat obs) L.
Proof.
  unfold learn_components. revert L; induction obs as [|o obs IH]; intros L; simpl; [reflexivity|].
  rewrite fold_res_app. unfold comp_step at 2. destruct (fold_res _ o L); simpl; [apply IH|reflexivity].
Qed.

Lemma learn_loop_inv dom inj policy cps0 L cps :
  wf_domain dom -> good_calls dom cps -> no_constant_calls dom cps ->
  sam_inv dom inj policy cps0 L ->
  exists L', fold_res comp_step cps L = Ok L' /\ sam_inv dom inj policy (cps0 ++ cps) L'.
Proof.
  intros W. revert cps0 L; induction cps as [|cp cps IH]; intros cps0 L Hg Hn I.
  - exists L; rewrite app_nil_r; auto.
  - destruct (sam_step dom inj policy cps0 L cp W I) as (L1 & E1 & I1).
    { apply Hg; left; reflexivity. } { apply Hn; left; reflexivity. }
    destruct (IH (cps0 ++ [cp]) L1) as (L2 & E2 & I2); auto.
    { intros c Hc; apply Hg; right; assumption. } { intros c Hc; apply Hn; right; assumption. }
    exists L2. rewrite <- app_assoc in I2. split; [|exact I2].
    cbn [fold_res]. unfold comp_step at 1. rewrite E1. exact E2.
Qed.

(** Literals that survive the negative-precondition policy. *)
Definition kept (policy : neg_policy) (eff : list literal) (l : literal) : Prop :=
  match policy with
  | no_remove => True
  | soft => l_pos l = true \/ ~ In (neg_lit l) eff
  | hard => l_pos l = true
  end.

Lemma drop_negative_spec policy a l :
  policy <> no_remove ->
  (In l (a_pre (drop_negative policy a)) <-> In l (a_pre a) /\ kept policy (a_eff a) l).
Proof.
  intros Hp. unfold drop_negative; cbn [a_pre with_pre]. rewrite filter_In. unfold kept.
  destruct (l_pos l) eqn:E.
  - destruct policy; [congruence| |]; intuition.
  - destruct policy; [congruence| |].
    + rewrite negb_true_iff, memb_nIn, (copy_lit_true l), filter_In. simpl. rewrite E. intuition congruence.
    + intuition congruence.
Qed.

(** Everything known about one action of the result. *)
Record learned_action (dom : domain) (policy : neg_policy) (inj : bool) (cps : list component) (n : string) (a0 a : action) : Prop :=
  { la_name : a_name a = n;
    la_sig : a_sig a = a_sig a0;
    la_pre : forall l, In l (a_pre a) <->
       mentionable dom (a_sig a0) l /\ (forall cp, evidence cps n cp -> true_before (a_sig a0) cp l) /\ kept policy (a_eff a) l;
    la_eff_sound : forall l, In l (a_eff a) ->
       mentionable dom (a_sig a0) l /\ exists cp, evidence cps n cp /\ became_true (a_sig a0) cp l;
    la_eff_complete : forall l, mentionable dom (a_sig a0) l ->
       (exists cp, evidence cps n cp /\ became_true (a_sig a0) cp l) ->
       (d_consts dom = [] \/ forall cp, evidence cps n cp -> true_after (a_sig a0) cp l) -> In l (a_eff a);
    la_ineq : forall x y, In (x, y) (a_ineq a) <->
       inj = true /\ before_in (a_sig a0) x y /\ same_type (a_sig a0) x y /\
       forall cp, In cp cps -> cp_ok cp = true -> c_name (cp_call cp) = n ->
         call_assignment (a_sig a0) (cp_call cp) x <> call_assignment (a_sig a0) (cp_call cp) y }.

Lemma wf_names_NoDup dom n a0 :
  wf_domain dom -> dict_get (d_actions dom) n = Some a0 -> NoDup (map fst (a_sig a0 ++ d_consts dom)).
Proof.
  intros W G. apply dict_get_In in G. rewrite map_app. apply NoDup_app_iff. split; [eapply wf_sigs; eassumption|].
  split; [apply wf_consts; assumption|]. intros x Hx. exact (wf_disj _ W _ _ x G Hx).
Qed.

Lemma finish_inv dom inj policy cps L :
  wf_domain dom -> sam_inv dom inj policy cps L ->
  let L' := handle_negative_preconditions_policy (handle_unobserved_actions L) in
  s_dom L' = set_actions dom (d_actions (s_dom L')) /\
  dict_keys (d_actions (s_dom L')) = dict_keys (d_actions dom) /\
  s_observed L' = s_observed L /\ s_safe L' = [] /\
  forall n a0, dict_get (d_actions dom) n = Some a0 ->
    exists a, dict_get (d_actions (s_dom L')) n = Some a /\ learned_action dom policy inj cps n a0 a.
Proof.
  intros W I L'.
  assert (U : let U := handle_unobserved_actions L in
     s_dom U = set_actions dom (d_actions (s_dom U)) /\ dict_keys (d_actions (s_dom U)) = dict_keys (d_actions dom) /\
     s_observed U = s_observed L /\ s_safe U = [] /\ s_policy U = policy /\
     forall n a0, dict_get (d_actions dom) n = Some a0 ->
       exists a, dict_get (d_actions (s_dom U)) n = Some a /\ learned_action dom no_remove inj cps n a0 a).
  { cbv zeta. unfold handle_unobserved_actions; simpl.
    assert (Eq : forall acts, map (fun na : string * action => if memb (fst na) (s_observed L) then na else
              (fst na, with_pre (snd na) (set_union (a_pre (snd na)) (lifted_vocabulary (s_dom L) (a_sig (snd na)) None)))) acts
            = map (fun na => (fst na, (fun na : string * action => if memb (fst na) (s_observed L) then snd na else
              with_pre (snd na) (set_union (a_pre (snd na)) (lifted_vocabulary (s_dom L) (a_sig (snd na)) None))) na)) acts).
    { intros acts. apply map_ext. intros [k b]; simpl. destruct (memb k (s_observed L)); reflexivity. }
    rewrite Eq. split; [rewrite (si_dom _ _ _ _ _ I); reflexivity|]. split; [rewrite dict_keys_map_vals; apply (si_keys _ _ _ _ _ I)|].
    split; [reflexivity|]. split; [apply (si_safe _ _ _ _ _ I)|]. split; [apply (si_policy _ _ _ _ _ I)|].
    intros n a0 G. rewrite dict_get_map_vals. destruct (si_act _ _ _ _ _ I n a0 G) as (a & Ga & [I1 I2 I3 I4 I5 I6]).
    rewrite Ga. eexists; split; [reflexivity|]. simpl fst; simpl snd.
    destruct (memb n (s_observed L)) eqn:Em.
    - apply memb_In, (si_obs _ _ _ _ _ I) in Em. constructor; auto. intros l. rewrite I3. simpl. tauto.
    - assert (Hno : ~ exists cp, evidence cps n cp) by (rewrite <- (si_obs _ _ _ _ _ I); apply memb_nIn; assumption).
      constructor; auto. intros l. cbn [a_pre with_pre]. rewrite set_union_In, I3, lifted_vocabulary_exact.
      + rewrite I2, (si_dom _ _ _ _ _ I). simpl. split.
        * intros [[? _]|[? _]]; [contradiction|]. repeat split; auto. intros cp Hcp; exfalso; eauto.
        * intros (? & _ & _). right; auto.
      + rewrite I2, (si_dom _ _ _ _ _ I). apply (wf_names_NoDup dom n a0); assumption. }
  destruct U as (U1 & U2 & U3 & U4 & U5 & U6).
  unfold L', handle_negative_preconditions_policy. set (U := handle_unobserved_actions L) in *. clearbody U. rewrite U5.
  destruct (match policy with no_remove => true | _ => false end) eqn:Ep.
  - destruct policy; try discriminate. repeat split; auto.
  - assert (Hp : policy <> no_remove) by (destruct policy; congruence).
    assert (Em : (match policy with no_remove => U | _ => remove_negative_preconditions U end) = remove_negative_preconditions U)
      by (destruct policy; congruence).
    rewrite Em. clear Em. unfold remove_negative_preconditions. rewrite U5. cbn [s_dom with_dom d_actions set_actions s_observed s_safe].
    split; [rewrite U1; reflexivity|]. split; [rewrite (dict_keys_map_vals (fun na => drop_negative policy (snd na))); assumption|].
    split; [assumption|]. split; [assumption|].
    intros n a0 G. rewrite (dict_get_map_vals (fun na => drop_negative policy (snd na))).
    destruct (U6 n a0 G) as (a & Ga & [I1 I2 I3 I4 I5 I6]). rewrite Ga. eexists; split; [reflexivity|].
    constructor; auto. intros l. simpl snd. rewrite drop_negative_spec, I3 by assumption. simpl. tauto.
Qed.

(** Normal form of a run of the learner. *)
Lemma learn_spec dom policy inj obs :
  wf_domain dom -> blank_domain dom -> good_calls dom (concat obs) -> no_constant_calls dom (concat obs) ->
  exists L rep, learn_action_model (init_learner dom policy inj) obs = Ok (L, rep) /\
    rep = learning_report L /\
    s_dom L = set_actions dom (d_actions (s_dom L)) /\
    dict_keys (d_actions (s_dom L)) = dict_keys (d_actions dom) /\
    s_safe L = [] /\ (forall n, In n (s_observed L) <-> exists cp, evidence (concat obs) n cp) /\
    forall n a0, dict_get (d_actions dom) n = Some a0 ->
      exists a, dict_get (d_actions (s_dom L)) n = Some a /\ learned_action dom policy inj (concat obs) n a0 a.
Proof.
  intros W B Hg Hn. unfold learn_action_model. fold (start dom policy inj). rewrite learn_components_concat.
  destruct (learn_loop_inv dom inj policy [] (start dom policy inj) (concat obs) W Hg Hn (start_inv dom policy inj W B)) as (L2 & E2 & I2).
  rewrite E2. cbn [bind]. simpl app in I2.
  destruct (finish_inv dom inj policy (concat obs) L2 W I2) as (F1 & F2 & F3 & F4 & F5).
  eexists; eexists; split; [reflexivity|]. split; [reflexivity|]. repeat split; auto.
  - rewrite F3. apply (si_obs _ _ _ _ _ I2).
  - rewrite F3. apply (si_obs _ _ _ _ _ I2).
Qed.

Definition learned (dom : domain) (policy : neg_policy) (inj : bool) (obs : list (list component)) (L : learner) : Prop :=
  exists rep, learn_action_model (init_learner dom policy inj) obs = Ok (L, rep).

Lemma learned_spec dom policy inj obs L n a :
  wf_domain dom -> blank_domain dom -> good_calls dom (concat obs) -> no_constant_calls dom (concat obs) ->
  learned dom policy inj obs L -> dict_get (d_actions (s_dom L)) n = Some a ->
  exists a0, dict_get (d_actions dom) n = Some a0 /\ learned_action dom policy inj (concat obs) n a0 a.
Proof.
  intros W B Hg Hn [rep E] G. destruct (learn_spec dom policy inj obs W B Hg Hn) as (L' & rep' & E' & _ & _ & Ek & _ & _ & Ha).
  rewrite E in E'. injection E' as <- <-.
  assert (Hk : In n (dict_keys (d_actions dom))) by (rewrite <- Ek; eapply dict_get_key; eassumption).
  apply dict_get_Some_iff in Hk. destruct Hk as [a0 G0]. destruct (Ha n a0 G0) as (a' & Ga & La).
  exists a0; split; [assumption|]. congruence.
Qed.

(** ** Safety *)
Lemma mentionable_names dom sig l : mentionable dom sig l -> incl (l_args l) (dict_keys sig ++ dict_keys (d_consts dom)).
Proof.
  intros (psig & os & _ & Hi & _ & Ha & _). rewrite Ha. unfold dict_keys. rewrite <- map_app. apply incl_map; assumption.
Qed.

Lemma call_binding dom n a0 cp :
  wf_domain dom -> dict_get (d_actions dom) n = Some a0 -> length (c_params (cp_call cp)) = length (a_sig a0) ->
  NoDup (c_params (cp_call cp)) -> no_constant_args dom (cp_call cp) ->
  injective_binding dom (a_sig a0) (call_assignment (a_sig a0) (cp_call cp)).
Proof.
  intros W G Hl Hp Hc. apply dict_get_In in G. constructor.
  - intros x Hx. apply call_assignment_other. intros Hk. exact (wf_disj _ W _ _ x G Hk Hx).
  - apply ground_injective; auto; [eapply wf_sigs; eassumption|]. intros y; exact (wf_disj _ W _ _ y G).
Qed.

Definition eff_at (a : action) (sg : assignment) (g : literal) : Prop := exists l, In l (a_eff a) /\ ground sg l = g.
Lemma eff_at_dec a sg g : eff_at a sg g \/ ~ eff_at a sg g.
Proof.
  unfold eff_at. destruct (existsb (fun l => eqb (ground sg l) g) (a_eff a)) eqn:E.
  - apply existsb_exists in E. destruct E as (l & Hl & E). apply eqb_true in E. left; eauto.
  - right. intros (l & Hl & El). assert (existsb (fun l => eqb (ground sg l) g) (a_eff a) = true); [|congruence].
    apply existsb_exists. exists l. split; [assumption|]. rewrite El. apply PreludeProofs.eqb_refl.
Qed.
Lemma after_eff_at a sg s n args :
  after a sg s n args <-> eff_at a sg (mkLit n args true) \/ (holds s n args /\ ~ eff_at a sg (mkLit n args false)).
Proof.
  unfold after, eff_at. split.
  - intros [(l & H1 & H2 & H3)|[H1 H2]]; [left; eauto|right; split; [assumption|]].
    intros (l & H3 & H4). apply H2. exists l; repeat split; auto. apply (f_equal l_pos) in H4; exact H4.
  - intros [(l & H1 & H2)|[H1 H2]].
    + left; exists l; repeat split; auto. apply (f_equal l_pos) in H2; exact H2.
    + right; split; [assumption|]. intros (l & H3 & _ & H4). apply H2; eauto.
Qed.

(** When dropping negative preconditions is harmless for the real action. *)
Definition policy_ok (policy : neg_policy) (cps : list component) (n : string) (r : action) : Prop :=
  match policy with
  | no_remove => True
  | soft => forall l, In l (a_pre r) -> l_pos l = false -> ~ In (neg_lit l) (a_eff r)
  | hard => (forall l, In l (a_pre r) -> l_pos l = true) /\
            (forall l, In l (a_eff r) -> l_pos l = false -> In (neg_lit l) (a_pre r)) /\
            exists cp, evidence cps n cp
  end.

Section Safety.
  Variables (dom : domain) (policy : neg_policy) (inj : bool) (cps : list component) (n : string) (a0 a r : action).
  Variable real : string -> option action.
  Hypothesis W : wf_domain dom.
  Hypothesis G0 : dict_get (d_actions dom) n = Some a0.
  Hypothesis LA : learned_action dom policy inj cps n a0 a.
  Hypothesis RD : real_domain dom real.
  Hypothesis Hr : real n = Some r.
  Hypothesis RC : real_components real cps.
  Hypothesis GC : good_calls dom cps.
  Hypothesis NC : no_constant_calls dom cps.
  Hypothesis PO : policy_ok policy cps n r.

  Lemma sig_eq : a_sig r = a_sig a0.
  Proof. destruct (real_sig _ _ RD n a0 G0) as (r' & E & Es). congruence. Qed.

  Lemma ev_binding cp : evidence cps n cp -> injective_binding dom (a_sig a0) (call_assignment (a_sig a0) (cp_call cp)).
  Proof.
    intros (Hin & Hl & Hn). destruct (GC cp Hin (proj1 Hl)) as (b & Gb & Hlen). rewrite Hn in Gb.
    eapply call_binding; eauto; [congruence|apply Hl].
  Qed.
  Lemma ev_real cp : evidence cps n cp ->
    applicable r (call_assignment (a_sig a0) (cp_call cp)) (cp_prev cp) /\
    is_result r (call_assignment (a_sig a0) (cp_call cp)) (cp_prev cp) (cp_next cp).
  Proof.
    intros (Hin & Hl & Hn). destruct (RC cp Hin (proj1 Hl)) as (r' & E & H1 & H2). rewrite Hn, Hr in E. injection E as <-.
    rewrite sig_eq in H1, H2. auto.
  Qed.
  Lemma eff_ment l : In l (a_eff r) -> mentionable dom (a_sig a0) l.
  Proof. intros H. rewrite <- sig_eq. eapply real_eff; eauto. Qed.
  Lemma ground_inj sg l m :
    injective_binding dom (a_sig a0) sg -> mentionable dom (a_sig a0) l -> mentionable dom (a_sig a0) m ->
    ground sg l = ground sg m -> l = m.
  Proof.
    intros [_ Hi] H1 H2. apply (ground_lit_injective sg (dict_keys (a_sig a0) ++ dict_keys (d_consts dom))); auto;
    apply mentionable_names; assumption.
  Qed.
  Lemma mentionable_neg l : mentionable dom (a_sig a0) (neg_lit l) <-> mentionable dom (a_sig a0) l.
  Proof. apply well_typed_neg. Qed.

  (** Value of a mentionable literal after a real transition. *)
  Lemma real_after cp l : evidence cps n cp -> mentionable dom (a_sig a0) l ->
    (In l (a_eff r) -> (l_pos l = true \/ ~ In (neg_lit l) (a_eff r)) -> true_after (a_sig a0) cp l) /\
    (became_true (a_sig a0) cp l -> In l (a_eff r)).
  Proof.
    intros Hev Hm. assert (Hb := ev_binding cp Hev). destruct (ev_real cp Hev) as [_ Hres].
    set (sg := call_assignment (a_sig a0) (cp_call cp)) in *.
    assert (Heff : forall m, mentionable dom (a_sig a0) m -> (eff_at r sg (ground sg m) <-> In m (a_eff r))).
    { intros m Hmm. split; [intros (l' & H1 & H2)|intros H; exists m; auto].
      replace m with l'; [assumption|]. eapply ground_inj; eauto. apply eff_ment; assumption. }
    unfold became_true, true_after, true_before, lit_true. fold sg.
    assert (Hat := Hres (l_name l) (map sg (l_args l))). rewrite after_eff_at in Hat.
    simpl l_name; simpl l_args; simpl l_pos.
    assert (Hgp : mkLit (l_name l) (map sg (l_args l)) (l_pos l) = ground sg l) by reflexivity.
    assert (Hgn : mkLit (l_name l) (map sg (l_args l)) (negb (l_pos l)) = ground sg (neg_lit l)) by reflexivity.
    pose proof (Heff l Hm) as H1. pose proof (Heff (neg_lit l) (proj2 (mentionable_neg l) Hm)) as H2.
    rewrite <- Hgp in H1. rewrite <- Hgn in H2.
    assert (D := holds_dec (cp_prev cp) (l_name l) (map sg (l_args l))).
    destruct (In_dec' l (a_eff r)) as [Hin|Hin], (In_dec' (neg_lit l) (a_eff r)) as [Hin'|Hin'];
    destruct (l_pos l); simpl negb in *; (split; [intros; intuition congruence|intros; intuition]).
  Qed.

  Lemma eff_real l : In l (a_eff a) -> In l (a_eff r) /\ (l_pos l = false -> ~ In (neg_lit l) (a_eff r)).
  Proof.
    intros Hl. destruct (la_eff_sound _ _ _ _ _ _ _ LA l Hl) as (Hm & cp & Hev & Hbt).
    split; [apply (real_after cp l Hev Hm); assumption|].
    intros Hp Hn. destruct (real_after cp (neg_lit l) Hev (proj2 (mentionable_neg l) Hm)) as [Ht _].
    specialize (Ht Hn). destruct Hbt as [_ Hta]. unfold true_after in *. rewrite ground_neg, lit_true_neg in Ht.
    apply Ht; [|assumption]. left; simpl; rewrite Hp; reflexivity.
  Qed.

  Lemma eff_missing l : In l (a_eff r) -> (l_pos l = true \/ ~ In (neg_lit l) (a_eff r)) -> ~ In l (a_eff a) -> In l (a_pre a).
  Proof.
    intros Hl Hu Hna. assert (Hm := eff_ment l Hl).
    assert (Hall : forall cp, evidence cps n cp -> true_before (a_sig a0) cp l).
    { intros cp Hev. destruct (lit_true_dec (cp_prev cp) (ground (call_assignment (a_sig a0) (cp_call cp)) l)) as [H|H]; [exact H|].
      exfalso. apply Hna. apply (la_eff_complete _ _ _ _ _ _ _ LA); [assumption| |].
      - exists cp; split; [assumption|]. split; [exact H|]. apply (real_after cp l Hev Hm); assumption.
      - right. intros cp' Hev'. apply (real_after cp' l Hev' Hm); assumption. }
    apply (la_pre _ _ _ _ _ _ _ LA). split; [assumption|]. split; [assumption|].
    pose proof eff_real as ER. unfold kept. unfold policy_ok in PO. destruct policy.
    - trivial.
    - destruct (l_pos l) eqn:Ep; [auto|]. right. intros Hn. destruct Hu as [Hu|Hu]; [congruence|]. apply Hu.
      apply ER; assumption.
    - destruct (l_pos l) eqn:Ep; [reflexivity|]. exfalso. destruct PO as (_ & Hdel & cp & Hev).
      specialize (Hall cp Hev). destruct (ev_real cp Hev) as [[Hpre _] _]. specialize (Hpre _ (Hdel l Hl Ep)).
      unfold true_before in Hall. rewrite ground_neg, lit_true_neg in Hpre. contradiction.
  Qed.

  Lemma real_pre_learned l : In l (a_pre r) -> In l (a_pre a).
  Proof.
    intros Hl. apply (la_pre _ _ _ _ _ _ _ LA). split; [|split].
    - rewrite <- sig_eq. eapply real_pre; eauto.
    - intros cp Hev. destruct (ev_real cp Hev) as [[Hpre _] _]. apply Hpre; assumption.
    - pose proof eff_real as ER. unfold kept. unfold policy_ok in PO. destruct policy.
      + trivial.
      + destruct (l_pos l) eqn:Ep; [auto|]. right. intros Hn. apply (PO l Hl Ep). apply ER; assumption.
      + apply PO; assumption.
  Qed.

  Lemma safety : safe_for dom a r.
  Proof.
    intros sg s Hb [Hpre _]. rewrite sig_eq in Hb. split.
    - intros l Hl. apply Hpre, real_pre_learned; assumption.
    - intros p args. rewrite !after_eff_at.
      assert (Hta : forall g, eff_at a sg g -> eff_at r sg g).
      { intros g (l & Hl & E). exists l; split; [apply eff_real; assumption|assumption]. }
      split.
      + intros [H|[Hh Hnd]]; [left; auto|].
        destruct (eff_at_dec r sg (mkLit p args false)) as [(l & Hl & E)|Hd]; [|auto].
        assert (Ep : l_pos l = false) by (apply (f_equal l_pos) in E; exact E).
        destruct (In_dec' (neg_lit l) (a_eff r)) as [Hn|Hn].
        * left. exists (neg_lit l); split; [assumption|]. rewrite ground_neg, E. reflexivity.
        * exfalso. assert (Hna : ~ In l (a_eff a)) by (intros H; apply Hnd; exists l; auto).
          assert (Hin := eff_missing l Hl (or_intror Hn) Hna). apply Hpre in Hin. rewrite E in Hin. exact (Hin Hh).
      + intros [(l & Hl & E)|[Hh Hnd]].
        * assert (Ep : l_pos l = true) by (apply (f_equal l_pos) in E; exact E).
          destruct (In_dec' l (a_eff a)) as [Hin|Hna]; [left; exists l; auto|].
          assert (Hin := eff_missing l Hl (or_introl Ep) Hna). apply Hpre in Hin. rewrite E in Hin.
          right. split; [exact Hin|]. intros (l' & Hl' & E').
          assert (Ep' : l_pos l' = false) by (apply (f_equal l_pos) in E'; exact E').
          destruct (eff_real l' Hl') as [Hr' Hn']. apply (Hn' Ep').
          replace (neg_lit l') with l; [assumption|]. apply (ground_inj sg); auto.
          -- apply eff_ment; assumption.
          -- apply mentionable_neg, eff_ment; assumption.
          -- rewrite ground_neg, E', E. reflexivity.
        * right. split; [assumption|]. intros H; apply Hnd, Hta; assumption.
  Qed.

  (** C08: every learned-from transition is explained. *)
  Lemma explained cp : evidence cps n cp ->
    applicable a (call_assignment (a_sig a0) (cp_call cp)) (cp_prev cp) /\
    is_result a (call_assignment (a_sig a0) (cp_call cp)) (cp_prev cp) (cp_next cp).
  Proof.
    intros Hev. assert (Happ : applicable a (call_assignment (a_sig a0) (cp_call cp)) (cp_prev cp)).
    { split.
      - intros l Hl. apply (la_pre _ _ _ _ _ _ _ LA) in Hl. destruct Hl as (_ & H & _). apply H; assumption.
      - intros x y Hxy. apply (la_ineq _ _ _ _ _ _ _ LA) in Hxy. destruct Hxy as (_ & _ & _ & H).
        destruct Hev as (Hin & Hl & Hn). apply H; auto. apply Hl. }
    split; [assumption|].
    assert (Hb := ev_binding cp Hev). rewrite <- sig_eq in Hb at 1.
    destruct (safety _ _ Hb Happ) as [_ Hs]. destruct (ev_real cp Hev) as [_ Hres].
    intros p args. rewrite (Hres p args). symmetry. apply Hs.
  Qed.
End Safety.
