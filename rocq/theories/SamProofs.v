(** * Proofs about the SAM learner *)
From Verif Require Import PreludeProofs SamModel SamSpec VocabProofs.

(** ** Decidability of ground truth *)
Lemma holds_dec s n args : holds s n args \/ ~ holds s n args.
Proof.
  unfold holds. destruct (dict_get s n) as [f|] eqn:E.
  - destruct (In_dec' args f) as [H|H]; [left; eauto|right]. intros (f' & Ef & Hin). congruence.
  - right; intros (f' & Ef & _); discriminate.
Qed.
Lemma lit_true_dec s l : lit_true s l \/ ~ lit_true s l.
Proof. unfold lit_true. destruct (l_pos l), (holds_dec s (l_name l) (l_args l)); tauto. Qed.
Lemma lit_true_neg s l : lit_true s (neg_lit l) <-> ~ lit_true s l.
Proof.
  unfold lit_true, neg_lit; simpl. destruct (l_pos l); simpl; [tauto|].
  destruct (holds_dec s (l_name l) (l_args l)); tauto.
Qed.
Lemma ground_neg sg l : ground sg (neg_lit l) = neg_lit (ground sg l).
Proof. reflexivity. Qed.

(** ** Components of a good call *)
Record good_call (dom : domain) (a : action) (c : call) : Prop :=
  { gc_get : dict_get (d_actions dom) (c_name c) = Some a;
    gc_sig : NoDup (dict_keys (a_sig a));
    gc_disj : forall y, In y (dict_keys (a_sig a)) -> ~ In y (dict_keys (d_consts dom));
    gc_cons : NoDup (dict_keys (d_consts dom));
    gc_len : length (c_params c) = length (a_sig a) }.

Lemma dict_lookup_Some {V} (d : list (string * V)) k v : dict_get d k = Some v -> dict_lookup d k = Ok v.
Proof. unfold dict_lookup; intros ->; reflexivity. Qed.

(** Matching a set of ground literals. *)
Lemma plm_exact dom a c lits :
  good_call dom a c -> (forall g, In g lits -> NoDup (l_args g)) ->
  exists ms, possible_literal_matches dom c lits None = Ok ms /\
    forall m, In m ms <-> NoDup (l_args m) /\ incl (l_args m) (dict_keys (a_sig a) ++ dict_keys (d_consts dom)) /\
                          In (ground (call_assignment (a_sig a) c) m) lits.
Proof.
  intros [Hg Hs Hd _ Hl] Hn. unfold possible_literal_matches. unfold dict_lookup at 1; rewrite Hg; simpl.
  set (step := fun acc l => _).
  assert (G : forall lits acc, (forall g, In g lits -> NoDup (l_args g)) ->
     exists ms, fold_res step lits acc = Ok ms /\
     forall m, In m ms <-> In m acc \/ (NoDup (l_args m) /\ incl (l_args m) (dict_keys (a_sig a) ++ dict_keys (d_consts dom)) /\
                          In (ground (call_assignment (a_sig a) c) m) lits)).
  { clear lits Hn. induction lits as [|g lits IH]; intros acc Hn.
    - exists acc; simpl; split; [reflexivity|]. intros m; tauto.
    - destruct (match_predicate_total dom a c g Hg) as [mg Emg].
      destruct (IH (acc ++ mg)) as (ms & Ems & Hms); [intros g' Hg'; apply Hn; right; assumption|].
      exists ms. simpl. unfold step at 1. rewrite Emg. simpl. split; [exact Ems|].
      intros m. rewrite Hms, in_app_iff.
      rewrite (match_predicate_exact dom a c g mg m Hg Hs Hd Hl (Hn g (or_introl eq_refl)) Emg).
      simpl. split.
      + intros [[?|(? & ? & <-)]|(? & ? & ?)]; auto 6.
      + intros [?|(? & ? & [E|?])]; auto 6. }
  destruct (G lits [] Hn) as (ms & E & Hms). exists ms; split; [exact E|]. intros m; rewrite Hms; simpl; tauto.
Qed.

Lemma combine_types (ps : list string) (sig : signature) o t :
  In (o, t) (combine ps (map snd sig)) -> exists x, In (o, x) (combine ps (dict_keys sig)) /\ In (x, t) sig.
Proof.
  revert ps; induction sig as [|[k kt] sig IH]; intros [|p ps]; simpl; try tauto.
  intros [E|H].
  - injection E as -> ->. exists k; auto.
  - destruct (IH ps H) as (x & H1 & H2). exists x; auto.
Qed.
Lemma combine_types_of (ps : list string) (sig : signature) o x t :
  NoDup (dict_keys sig) -> length ps = length sig ->
  In (o, x) (combine ps (dict_keys sig)) -> In (x, t) sig -> In (o, t) (combine ps (map snd sig)).
Proof.
  revert ps; induction sig as [|[k kt] sig IH]; intros [|p ps]; simpl; try tauto.
  intros Hn Hl. inversion Hn as [|? ? Hn1 Hn2]; subst. intros [E|H] [E'|H'].
  - injection E as -> ->. injection E' as ->. auto.
  - injection E as -> ->. exfalso; apply Hn1. apply in_map_iff; exists (x, t); auto.
  - injection E' as -> ->. exfalso; apply Hn1. apply in_combine_r in H; assumption.
  - right; apply IH; auto.
Qed.

(** Typing of a literal under an injective, constant-free call is typing of its grounding. *)
Lemma typing_ground dom a c m :
  good_call dom a c -> NoDup (c_params c) -> no_constant_args dom c ->
  ((NoDup (l_args m) /\ incl (l_args m) (dict_keys (a_sig a) ++ dict_keys (d_consts dom)) /\
    well_typed dom (parameterized_objects dom a c ++ d_consts dom) (ground (call_assignment (a_sig a) c) m)) <->
   mentionable dom (a_sig a) m).
Proof.
  intros [Hg Hs Hd Hcn Hl] Hp Hc.
  assert (Hinj := ground_injective dom (a_sig a) c Hs Hd Hl Hp Hc).
  set (sg := call_assignment (a_sig a) c) in *.
  unfold mentionable, well_typed, parameterized_objects. split.
  - intros (Hn & Hi & psig & objs & Hin & Hobj & Hno & Ha & HF). simpl in *.
    assert (Hty : forall x o t, In x (dict_keys (a_sig a) ++ dict_keys (d_consts dom)) ->
              In (o, t) ((combine (c_params c) (map snd (a_sig a)) ++ d_consts dom) ++ d_consts dom) ->
              sg x = o -> In (x, t) (a_sig a ++ d_consts dom)).
    { intros x o t Hx Ho E. apply in_app_iff.
      assert (Ho' : In (o, t) (combine (c_params c) (map snd (a_sig a))) \/ In (o, t) (d_consts dom)).
      { rewrite !in_app_iff in Ho; tauto. } clear Ho.
      destruct Ho' as [Ho|Ho].
      - apply combine_types in Ho. destruct Ho as (y & Hy1 & Hy2).
        assert (Ey : sg y = o) by (apply call_assignment_spec; assumption).
        assert (x = y).
        { apply Hinj; [assumption| |congruence]. apply in_app_iff; left. apply in_combine_r in Hy1; assumption. }
        subst y. auto.
      - right. assert (In o (dict_keys (d_consts dom))) by (apply in_map_iff; exists (o, t); auto).
        assert (Exo : x = o).
        { apply Hinj; [assumption|apply in_app_iff; auto|]. rewrite E. symmetry. apply call_assignment_other.
          intros Hk; apply (Hd _ Hk); assumption. }
        rewrite Exo; assumption. }
    assert (G : forall args psig objs, incl objs ((combine (c_params c) (map snd (a_sig a)) ++ d_consts dom) ++ d_consts dom) ->
       map sg args = map fst objs -> Forall2 (fun o p => is_sub_type (snd o) (snd p) = true) objs psig ->
       incl args (dict_keys (a_sig a) ++ dict_keys (d_consts dom)) ->
       exists os, incl os (a_sig a ++ d_consts dom) /\ args = map fst os /\
          Forall2 (fun o (p : string * ptype) => is_sub_type (snd o) (snd p) = true) os psig).
    { induction args as [|x args IH]; intros ps [|[o t] objs0] Hob E HF' Hi'; simpl in E; try discriminate.
      - exists []; repeat split; [intros ? []|assumption].
      - injection E as E1 E2. inversion HF' as [|? p ? ps' Ht HF2]; subst.
        destruct (IH ps' objs0) as (os & Ho1 & Ho2 & Ho3); auto.
        + intros z Hz; apply Hob; right; assumption.
        + intros z Hz; apply Hi'; right; assumption.
        + exists ((x, t) :: os). simpl. repeat split.
          * intros z [<-|Hz]; [|auto]. apply (Hty x (sg x) t); auto; [apply Hi'|apply Hob]; left; reflexivity.
          * congruence.
          * constructor; assumption. }
    destruct (G (l_args m) psig objs Hobj Ha HF Hi) as (os & H1 & H2 & H3).
    exists psig, os. repeat split; auto. rewrite <- H2; assumption.
  - intros (psig & os & Hin & Hi & Hn & Ha & HF).
    assert (Hnames : incl (map fst os) (dict_keys (a_sig a) ++ dict_keys (d_consts dom))).
    { unfold dict_keys. rewrite <- map_app. apply incl_map; assumption. }
    rewrite Ha. split; [assumption|]. split; [assumption|].
    exists psig, (map (fun o => (sg (fst o), snd o)) os). simpl. repeat split.
    + assumption.
    + intros [o t] Ho. apply in_map_iff in Ho. destruct Ho as ([x t'] & E & Hx). simpl in E. injection E as <- <-.
      apply in_app_iff; left. apply in_app_iff. apply Hi in Hx as Hx'. apply in_app_iff in Hx'. destruct Hx' as [Hx'|Hx'].
      * left. apply (combine_types_of _ _ _ x); auto. apply call_assignment_param; auto.
        apply in_map_iff; exists (x, t'); auto.
      * right. assert (In x (dict_keys (d_consts dom))) by (apply in_map_iff; exists (x, t'); auto).
        replace (sg x) with x; [assumption|]. symmetry; apply call_assignment_other. intros Hk; apply (Hd _ Hk); assumption.
    + rewrite map_map. simpl. rewrite <- (map_map fst sg). apply NoDup_map_inj; [|assumption].
      intros x y Hx Hy; apply Hinj; auto.
    + rewrite Ha, !map_map; reflexivity.
    + clear -HF. induction HF; simpl; constructor; assumption.
Qed.

Lemma snapshot_NoDup_args dom st objs g : In g (discrete_state_snapshot dom st objs) -> NoDup (l_args g).
Proof. intros H. apply snapshot_exact in H. destruct H as [(psig & os & _ & _ & Hn & Ha & _) _]. rewrite Ha; assumption. Qed.

(** Lifting a whole snapshot: exactly the mentionable literals that are true. *)
Lemma lifted_snapshot dom a c st :
  good_call dom a c -> NoDup (c_params c) -> no_constant_args dom c ->
  exists ms, possible_literal_matches dom c (discrete_state_snapshot dom st (parameterized_objects dom a c)) None = Ok ms /\
    forall m, In m ms <-> mentionable dom (a_sig a) m /\ lit_true st (ground (call_assignment (a_sig a) c) m).
Proof.
  intros Hg Hp Hc.
  destruct (plm_exact dom a c (discrete_state_snapshot dom st (parameterized_objects dom a c)) Hg) as (ms & E & Hms).
  { intros g; apply snapshot_NoDup_args. }
  exists ms; split; [assumption|]. intros m. rewrite Hms, snapshot_exact, <- (typing_ground dom a c m Hg Hp Hc). tauto.
Qed.

(** The lifted effects of one component: exactly the mentionable literals that became true. *)
Lemma lifted_effects (L : learner) a c st st' :
  good_call (s_dom L) a c -> NoDup (c_params c) -> no_constant_args (s_dom L) c ->
  let po := parameterized_objects (s_dom L) a c in
  exists adds dels,
    handle_action_effects L c (discrete_state_snapshot (s_dom L) st po) (discrete_state_snapshot (s_dom L) st' po) = Ok (adds, dels) /\
    forall m, In m adds \/ In m dels <->
      mentionable (s_dom L) (a_sig a) m /\
      ~ lit_true st (ground (call_assignment (a_sig a) c) m) /\ lit_true st' (ground (call_assignment (a_sig a) c) m).
Proof.
  intros Hg Hp Hc po. unfold handle_action_effects.
  pose proof (extract_discrete_effects_exact (discrete_state_snapshot (s_dom L) st po) (discrete_state_snapshot (s_dom L) st' po)) as He.
  destruct (extract_discrete_effects _ _) as [ga gd]. destruct He as [Ha Hd].
  destruct (plm_exact (s_dom L) a c ga Hg) as (adds & Ea & Hadds).
  { intros g Hin. apply Ha in Hin. destruct Hin as (_ & Hin & _). eapply snapshot_NoDup_args; eassumption. }
  destruct (plm_exact (s_dom L) a c gd Hg) as (dels & Ed & Hdels).
  { intros g Hin. apply Hd in Hin. destruct Hin as (_ & Hin & _). apply snapshot_NoDup_args in Hin. exact Hin. }
  exists adds, dels. rewrite Ea; simpl. rewrite Ed; simpl. split; [reflexivity|].
  intros m. rewrite Hadds, Hdels, Ha, Hd, <- !ground_neg, !snapshot_exact.
  rewrite <- (typing_ground (s_dom L) a c m Hg Hp Hc). fold po.
  rewrite !ground_neg, !lit_true_neg, well_typed_neg.
  set (g := ground _ m).
  assert (Hpos : l_pos g = l_pos m) by reflexivity. rewrite Hpos.
  destruct (lit_true_dec st g), (lit_true_dec st' g); destruct (l_pos m); intuition congruence.
Qed.

(** ** Abstract effect of one component on the learner *)

(** [L'] is [L] with the record of action [n] replaced by [a']. *)
Record replaced (L L' : learner) (n : string) (a' : action) : Prop :=
  { rp_dom : s_dom L' = set_actions (s_dom L) (d_actions (s_dom L'));
    rp_get : forall k, dict_get (d_actions (s_dom L')) k = if eq_dec k n then Some a' else dict_get (d_actions (s_dom L)) k;
    rp_keys : dict_keys (d_actions (s_dom L')) = dict_keys (d_actions (s_dom L));
    rp_safe : s_safe L' = s_safe L;
    rp_sigs : s_sigs L' = s_sigs L;
    rp_policy : s_policy L' = s_policy L;
    rp_inj : s_injective L' = s_injective L }.

Lemma put_action_replaced L n a a' :
  dict_get (d_actions (s_dom L)) n = Some a -> replaced L (put_action L n a') n a'.
Proof.
  intros E. constructor; try reflexivity.
  - intros k. simpl. apply dict_get_set.
  - simpl. apply dict_set_keys_existing. apply dict_get_Some_iff; eauto.
Qed.
Lemma replaced_trans L L1 L2 n a1 a2 : replaced L L1 n a1 -> replaced L1 L2 n a2 -> replaced L L2 n a2.
Proof.
  intros [d1 g1 k1 s1 si1 p1 i1] [d2 g2 k2 s2 si2 p2 i2]. constructor; try congruence.
  - rewrite d2, d1. reflexivity.
  - intros k. rewrite g2, g1. destruct (eq_dec k n); reflexivity.
Qed.
Lemma replaced_get L L' n a' : replaced L L' n a' -> dict_get (d_actions (s_dom L')) n = Some a'.
Proof. intros H. rewrite (rp_get _ _ _ _ H). destruct (eq_dec n n); congruence. Qed.
Lemma good_call_replaced L L' a a' c :
  replaced L L' (c_name c) a' -> a_sig a' = a_sig a -> good_call (s_dom L) a c -> good_call (s_dom L') a' c.
Proof.
  intros HR Hs [H1 H2 H3 H4 H5]. constructor; rewrite ?Hs; auto.
  - eapply replaced_get; eassumption.
  - rewrite (rp_dom _ _ _ _ HR). exact H3.
  - rewrite (rp_dom _ _ _ _ HR). exact H4.
Qed.

(** What the learner remembers as impossible effects of [n]. *)
Definition cbe_of (L : learner) (n : string) : list literal :=
  match dict_get (s_cbe L) n with Some s => s | None => [] end.

(** First learned component of an action. *)
Lemma add_new_action_step L cp a :
  good_call (s_dom L) a (cp_call cp) -> NoDup (c_params (cp_call cp)) -> no_constant_args (s_dom L) (cp_call cp) ->
  let c := cp_call cp in let po := parameterized_objects (s_dom L) a c in
  exists L' a',
    add_new_action L c (discrete_state_snapshot (s_dom L) (cp_prev cp) po) (discrete_state_snapshot (s_dom L) (cp_next cp) po) = Ok L' /\
    replaced L L' (c_name c) a' /\ a_name a' = a_name a /\ a_sig a' = a_sig a /\ a_ineq a' = a_ineq a /\
    s_observed L' = s_observed L ++ [a_name a] /\ s_cbe L' = s_cbe L /\
    (forall l, In l (a_pre a') <-> In l (a_pre a) \/ (mentionable (s_dom L) (a_sig a) l /\ true_before (a_sig a) cp l)) /\
    (forall l, In l (a_eff a') <-> In l (a_eff a) \/ (mentionable (s_dom L) (a_sig a) l /\ became_true (a_sig a) cp l)).
Proof.
  intros Hg Hp Hc c po. fold c in Hg, Hp, Hc. unfold add_new_action.
  destruct (lifted_snapshot (s_dom L) a c (cp_prev cp) Hg Hp Hc) as (ms & Ems & Hms). fold po in Ems.
  unfold add_new_action_preconditions. rewrite (dict_lookup_Some _ _ _ (gc_get _ _ _ Hg)). cbn [bind]. rewrite Ems. cbn [bind].
  set (a1 := with_pre a _). set (L1 := put_action L (c_name c) a1).
  assert (R1 : replaced L L1 (c_name c) a1) by (eapply put_action_replaced; apply (gc_get _ _ _ Hg)).
  destruct (lifted_effects L1 a1 c (cp_prev cp) (cp_next cp)) as (adds & dels & Ee & He).
  { exact (good_call_replaced L L1 a a1 c R1 eq_refl Hg). } { assumption. } { exact Hc. }
  cbv zeta in Ee. change (parameterized_objects (s_dom L1) a1 c) with po in Ee.
  change (discrete_state_snapshot (s_dom L1)) with (discrete_state_snapshot (s_dom L)) in Ee.
  rewrite Ee. cbn [bind]. rewrite (dict_lookup_Some _ _ _ (replaced_get _ _ _ _ R1)). cbn [bind].
  set (a2 := with_eff a1 _). set (L2 := put_action L1 (c_name c) a2).
  assert (R2 : replaced L L2 (c_name c) a2).
  { eapply replaced_trans; [exact R1|]. eapply put_action_replaced; apply (replaced_get _ _ _ _ R1). }
  eexists; exists a2. split; [reflexivity|]. split; [|repeat split; try reflexivity].
  - destruct R2. constructor; assumption.
  - simpl. rewrite set_union_In, to_set_In, Hms. unfold true_before; tauto.
  - simpl. rewrite set_union_In, to_set_In, Hms. unfold true_before; tauto.
  - unfold a2, a1; cbn [a_eff with_eff with_pre]. rewrite !set_union_In, to_set_In. rewrite He. unfold became_true, true_before, true_after. tauto.
  - unfold a2, a1; cbn [a_eff with_eff with_pre]. rewrite !set_union_In, to_set_In. rewrite He. unfold became_true, true_before, true_after. tauto.
Qed.

Lemma fold_discard_In ds (e : list literal) l :
  In l (fold_left (fun e p => set_discard p e) ds e) <-> In l e /\ ~ In l ds.
Proof.
  revert e; induction ds as [|d ds IH]; simpl; intros e; [tauto|].
  rewrite IH, set_discard_In. intuition congruence.
Qed.

(** A further learned component of an action. *)
Lemma update_action_step L cp a :
  good_call (s_dom L) a (cp_call cp) -> NoDup (c_params (cp_call cp)) -> no_constant_args (s_dom L) (cp_call cp) ->
  In (c_name (cp_call cp)) (dict_keys (s_cbe L)) ->
  let c := cp_call cp in let po := parameterized_objects (s_dom L) a c in
  exists L' a',
    update_action L c (discrete_state_snapshot (s_dom L) (cp_prev cp) po) (discrete_state_snapshot (s_dom L) (cp_next cp) po) = Ok L' /\
    replaced L L' (c_name c) a' /\ a_name a' = a_name a /\ a_sig a' = a_sig a /\ a_ineq a' = a_ineq a /\
    s_observed L' = s_observed L /\ (forall k, In k (dict_keys (s_cbe L')) <-> In k (dict_keys (s_cbe L))) /\
    (forall l, In l (a_pre a') <-> In l (a_pre a) /\ mentionable (s_dom L) (a_sig a) l /\ true_before (a_sig a) cp l) /\
    (forall k, k <> c_name c -> cbe_of L' k = cbe_of L k) /\
    (d_consts (s_dom L) = [] -> s_cbe L' = s_cbe L /\
      (forall l, In l (a_eff a') <-> In l (a_eff a) \/ (mentionable (s_dom L) (a_sig a) l /\ became_true (a_sig a) cp l))) /\
    (d_consts (s_dom L) <> [] ->
      (forall l, In l (cbe_of L' (c_name c)) <-> In l (cbe_of L (c_name c)) \/
         (mentionable (s_dom L) (a_sig a) l /\ ~ true_after (a_sig a) cp l)) /\
      (forall l, In l (a_eff a') <->
         (In l (a_eff a) \/ (mentionable (s_dom L) (a_sig a) l /\ became_true (a_sig a) cp l)) /\ ~ In l (cbe_of L' (c_name c)))).
Proof.
  intros Hg Hp Hc Hk c po. fold c in Hg, Hp, Hc, Hk. unfold update_action.
  destruct (lifted_snapshot (s_dom L) a c (cp_prev cp) Hg Hp Hc) as (ms & Ems & Hms). fold po in Ems.
  unfold update_action_preconditions. rewrite (dict_lookup_Some _ _ _ (gc_get _ _ _ Hg)). cbn [bind]. rewrite Ems. cbn [bind].
  set (a1 := with_pre a _). set (L1 := put_action L (c_name c) a1).
  assert (R1 : replaced L L1 (c_name c) a1) by (eapply put_action_replaced; apply (gc_get _ _ _ Hg)).
  assert (G1 : good_call (s_dom L1) a1 c) by exact (good_call_replaced L L1 a a1 c R1 eq_refl Hg).
  destruct (lifted_effects L1 a1 c (cp_prev cp) (cp_next cp) G1 Hp Hc) as (adds & dels & Ee & He).
  change (parameterized_objects (s_dom L1) a1 c) with po in Ee.
  change (discrete_state_snapshot (s_dom L1)) with (discrete_state_snapshot (s_dom L)) in Ee.
  rewrite Ee. cbn [bind]. rewrite (dict_lookup_Some _ _ _ (replaced_get _ _ _ _ R1)). cbn [bind].
  set (a2 := with_eff a1 _). set (L2 := put_action L1 (c_name c) a2).
  assert (R2 : replaced L L2 (c_name c) a2).
  { eapply replaced_trans; [exact R1|]. eapply put_action_replaced; apply (replaced_get _ _ _ _ R1). }
  assert (Hpre : forall l, In l (a_pre a1) <-> In l (a_pre a) /\ mentionable (s_dom L) (a_sig a) l /\ true_before (a_sig a) cp l).
  { intros l. unfold a1; cbn [a_pre with_pre]. rewrite filter_In, memb_In, to_set_In, Hms. unfold true_before; tauto. }
  assert (Heff : forall l, In l (a_eff a2) <-> In l (a_eff a) \/ (mentionable (s_dom L) (a_sig a) l /\ became_true (a_sig a) cp l)).
  { intros l. unfold a2, a1; cbn [a_eff with_eff with_pre]. rewrite !set_union_In, to_set_In. rewrite He.
    unfold became_true, true_before, true_after. tauto. }
  change (d_consts (s_dom L2)) with (d_consts (s_dom L)).
  destruct (d_consts (s_dom L)) as [|c0 cs] eqn:Ec.
  - exists L2, a2. split; [reflexivity|]. split; [assumption|]. repeat split; try reflexivity; try (apply Hpre); try (apply Heff); auto.
    all: try congruence. 
  - unfold handle_consts_in_effects.
    assert (G2 : good_call (s_dom L2) a2 c) by exact (good_call_replaced L L2 a a2 c R2 eq_refl Hg).
    rewrite (dict_lookup_Some _ _ _ (gc_get _ _ _ G2)). cbn [bind].
    destruct (lifted_snapshot (s_dom L2) a2 c (cp_next cp) G2 Hp Hc) as (ns & Ens & Hns).
    change (parameterized_objects (s_dom L2) a2 c) with po in Ens.
    change (discrete_state_snapshot (s_dom L2)) with (discrete_state_snapshot (s_dom L)) in Ens.
    rewrite Ens. cbn [bind].
    unfold dict_lookup. change (s_cbe L2) with (s_cbe L).
    destruct (dict_get (s_cbe L) (c_name c)) as [cb|] eqn:Ecb; [|exfalso; apply dict_get_None in Ecb; contradiction].
    cbn [bind]. set (cb' := set_union cb _). set (a3 := with_eff a2 _).
    eexists; exists a3. split; [reflexivity|].
    set (L3 := with_cbe L2 (dict_set (s_cbe L) (c_name c) cb')).
    assert (Hcb' : forall l, In l cb' <-> In l cb \/ (mentionable (s_dom L) (a_sig a) l /\ ~ true_after (a_sig a) cp l)).
    { intros l. unfold cb'. rewrite set_union_In, filter_In, negb_true_iff, memb_nIn, Hns.
      rewrite lifted_vocabulary_exact.
      - change (mentionable (s_dom L2) (a_sig a2) l) with (mentionable (s_dom L) (a_sig a) l).
        unfold true_after. simpl mentions_required.
        change (a_sig a2) with (a_sig a). tauto.
      - change (a_sig a2) with (a_sig a). change (d_consts (s_dom L2)) with (d_consts (s_dom L)).
        rewrite map_app. destruct Hg as [_ H2 H3 H4 _]. apply NoDup_app_iff. auto. }
    assert (R3 : replaced L (put_action L3 (c_name c) a3) (c_name c) a3).
    { assert (R23 : replaced L L3 (c_name c) a2) by (destruct R2; constructor; assumption).
      eapply replaced_trans; [exact R23|]. eapply put_action_replaced. apply (replaced_get _ _ _ _ R23). }
    assert (Ecbe : cbe_of (put_action L3 (c_name c) a3) (c_name c) = cb').
    { unfold cbe_of; simpl. rewrite dict_get_set_same; reflexivity. }
    assert (Ecbe0 : cbe_of L (c_name c) = cb) by (unfold cbe_of; rewrite Ecb; reflexivity).
    split; [exact R3|]. split; [reflexivity|]. split; [reflexivity|]. split; [reflexivity|]. split; [reflexivity|].
    split; [|split; [|split; [|split]]].
    + intros k. simpl. rewrite dict_set_keys_In. split; [intros [->|?]; assumption|auto].
    + exact Hpre.
    + intros k Hne. unfold cbe_of; simpl. rewrite dict_get_set_other by assumption. reflexivity.
    + intros E; discriminate.
    + intros _. rewrite Ecbe, Ecbe0. split; [exact Hcb'|].
      intros l. unfold a3; cbn [a_eff with_eff]. rewrite fold_discard_In, Heff. tauto.
Qed.

(** ** Calls that repeat an object *)
Lemma pairs2_filter {A} (f : A -> bool) l x y :
  In (x, y) (pairs2 (filter f l)) <-> In (x, y) (pairs2 l) /\ f x = true /\ f y = true.
Proof.
  induction l as [|z l IH]; simpl; [tauto|].
  destruct (f z) eqn:Ez; simpl; rewrite ?in_app_iff, ?in_map_iff, IH.
  - split.
    + intros [(w & E & Hw)|?]; [|tauto]. injection E as <- <-. apply filter_In in Hw. destruct Hw.
      split; [left; exists w; auto|auto].
    + intros [[(w & E & Hw)|?] [Hx Hy]]; [|tauto]. injection E as <- <-. left; exists w. split; [reflexivity|].
      apply filter_In; auto.
  - split; [tauto|]. intros [[(w & E & Hw)|?] [Hx Hy]]; [|tauto]. injection E as <- <-. congruence.
Qed.
Lemma pairs2_map {A B} (f : A -> B) l u v :
  In (u, v) (pairs2 (map f l)) <-> exists x y, In (x, y) (pairs2 l) /\ f x = u /\ f y = v.
Proof.
  induction l as [|z l IH]; simpl; [split; [tauto|intros (? & ? & [] & _)]|].
  rewrite in_app_iff, in_map_iff, IH. split.
  - intros [(w & E & Hw)|(x & y & Hxy & E1 & E2)].
    + injection E as <- <-. apply in_map_iff in Hw. destruct Hw as (y & <- & Hy).
      exists z, y. split; [apply in_app_iff; left; apply in_map_iff; exists y; auto|auto].
    + exists x, y. split; [apply in_app_iff; auto|auto].
  - intros (x & y & Hxy & <- & <-). apply in_app_iff in Hxy. destruct Hxy as [Hxy|Hxy]; [left|right; eauto].
    apply in_map_iff in Hxy. destruct Hxy as (w & E & Hw). injection E as -> ->. exists (f y). split; [reflexivity|].
    apply in_map; assumption.
Qed.

Lemma gsm_get (l : list (string * string)) m o :
  dict_get (fold_left (fun m gl => dict_set m (fst gl)
                           ((match dict_get m (fst gl) with Some l => l | None => [] end) ++ [snd gl])) l m) o =
  match map snd (filter (fun gl => if eq_dec (fst gl) o then true else false) l) with
  | [] => dict_get m o
  | xs => Some (match dict_get m o with Some l => l | None => [] end ++ xs)
  end.
Proof.
  revert m; induction l as [|[g k] l IH]; intros m; simpl; [reflexivity|].
  rewrite IH. simpl. destruct (eq_dec g o) as [->|Hne]; simpl.
  - rewrite dict_get_set_same.
    destruct (map snd (filter _ l)) eqn:E.
    + reflexivity.
    + rewrite <- app_assoc. reflexivity.
  - rewrite dict_get_set_other by congruence. destruct (map snd (filter _ l)); reflexivity.
Qed.
Lemma gsm_keys_NoDup (l : list (string * string)) m :
  NoDup (dict_keys m) ->
  NoDup (dict_keys (fold_left (fun m gl => dict_set m (fst gl)
                           ((match dict_get m (fst gl) with Some l => l | None => [] end) ++ [snd gl])) l m)).
Proof. revert m; induction l as [|x l IH]; intros m Hm; simpl; [assumption|]. apply IH, dict_set_keys_NoDup; assumption. Qed.

(** Two parameters end up in the same group iff the call gives them the same object. *)
Lemma gsm_pairs dom a c x y :
  good_call dom a c ->
  ((exists g, In g (dict_vals (grounded_signature_map c a)) /\ In (x, y) (pairs2 g)) <->
   before_in (a_sig a) x y /\ call_assignment (a_sig a) c x = call_assignment (a_sig a) c y).
Proof.
  intros [Hg Hs Hd Hcn Hl]. unfold grounded_signature_map.
  set (l := combine (c_params c) (dict_keys (a_sig a))).
  assert (El : map snd l = dict_keys (a_sig a)).
  { apply map_snd_combine. unfold dict_keys; rewrite map_length; assumption. }
  unfold before_in. rewrite <- pairs2_In, <- El.
  assert (Hasg : forall o z, In (o, z) l -> call_assignment (a_sig a) c z = o).
  { intros o z Hz; apply call_assignment_spec; assumption. }
  set (m := fold_left _ l []).
  assert (Hm : forall o, dict_get m o = match map snd (filter (fun gl => if eq_dec (fst gl) o then true else false) l) with [] => None | xs => Some xs end).
  { intros o. unfold m. rewrite gsm_get. simpl. destruct (map snd _); reflexivity. }
  assert (Hmn : NoDup (dict_keys m)) by (apply gsm_keys_NoDup; constructor).
  split.
  - intros (g & Hin & Hp). unfold dict_vals in Hin. apply in_map_iff in Hin. destruct Hin as ([o g'] & Eg & Hin). simpl in Eg; subst g'.
    apply (dict_In_get m o g Hmn) in Hin. rewrite Hm in Hin.
    assert (Hg' : g = map snd (filter (fun gl => if eq_dec (fst gl) o then true else false) l)).
    { destruct (map snd (filter _ l)); congruence. }
    subst g. apply pairs2_map in Hp. destruct Hp as ([o1 x1] & [o2 y1] & Hp & E1 & E2). simpl in E1, E2; subst x1 y1.
    apply pairs2_filter in Hp. destruct Hp as (Hp & F1 & F2). simpl in F1, F2.
    destruct (eq_dec o1 o); [|discriminate]. destruct (eq_dec o2 o); [|discriminate]. subst o1 o2.
    split.
    + apply pairs2_map. exists (o, x), (o, y); auto.
    + apply pairs2_In_l in Hp. destruct Hp as [H1 H2]. rewrite (Hasg o x H1), (Hasg o y H2). reflexivity.
  - intros [Hp E]. apply pairs2_map in Hp. destruct Hp as ([o1 x1] & [o2 y1] & Hp & E1 & E2). simpl in E1, E2; subst x1 y1.
    assert (Hp' := pairs2_In_l _ _ _ Hp). destruct Hp' as [H1 H2].
    rewrite (Hasg _ _ H1), (Hasg _ _ H2) in E. subst o2.
    exists (map snd (filter (fun gl => if eq_dec (fst gl) o1 then true else false) l)).
    assert (Hp2 : In (x, y) (pairs2 (map snd (filter (fun gl => if eq_dec (fst gl) o1 then true else false) l)))).
    { apply pairs2_map. exists (o1, x), (o1, y). repeat split. apply pairs2_filter. simpl.
      destruct (eq_dec o1 o1); [auto|congruence]. }
    split; [|assumption].
    unfold dict_vals. apply in_map_iff. exists (o1, map snd (filter (fun gl => if eq_dec (fst gl) o1 then true else false) l)).
    split; [reflexivity|]. apply dict_get_In. rewrite Hm.
    destruct (map snd (filter (fun gl => if eq_dec (fst gl) o1 then true else false) l)); [destruct Hp2|reflexivity].
Qed.

Lemma fold_discard_groups {A} `{EqDec A} (gs : list (list (A * A))) (i : list (A * A)) p :
  In p (fold_left (fun i ps => fold_left (fun i p => set_discard p i) ps i) gs i) <->
  In p i /\ ~ exists ps, In ps gs /\ In p ps.
Proof.
  revert i; induction gs as [|g gs IH]; intros i; cbn [fold_left].
  - split; [intros ?; split; [assumption|intros (? & [] & _)]|tauto].
  - rewrite IH. assert (G : forall ds i, In p (fold_left (fun i p => set_discard p i) ds i) <-> In p i /\ ~ In p ds).
    { induction ds as [|d ds IHd]; simpl; intros i0; [tauto|]. rewrite IHd, set_discard_In. intuition congruence. }
    rewrite G. split.
    + intros [[? ?] Hn]. split; [assumption|]. intros (ps & [->|Hin] & Hp); [contradiction|]. apply Hn; eauto.
    + intros [? Hn]. repeat split; auto.
      * intros Hp; apply Hn; exists g; split; [left; reflexivity|assumption].
      * intros (ps & Hin & Hp); apply Hn; exists ps; split; [right; assumption|assumption].
Qed.
Lemma fold_left_map {A B S} (f : S -> B -> S) (g : A -> B) l s : fold_left f (map g l) s = fold_left (fun s x => f s (g x)) l s.
Proof. revert s; induction l as [|x l IH]; simpl; intros s; auto. Qed.

Lemma dup_step L c a :
  good_call (s_dom L) a c -> ~ NoDup (c_params c) ->
  exists L' a', verify_parameter_duplication L c = Ok (L', true) /\ replaced L L' (c_name c) a' /\
    s_observed L' = s_observed L /\ s_cbe L' = s_cbe L /\
    a_name a' = a_name a /\ a_sig a' = a_sig a /\ a_pre a' = a_pre a /\ a_eff a' = a_eff a /\
    (forall x y, In (x, y) (a_ineq a') <->
       In (x, y) (a_ineq a) /\
       ~ (before_in (a_sig a) x y /\ call_assignment (a_sig a) c x = call_assignment (a_sig a) c y)).
Proof.
  intros Hg Hd. unfold verify_parameter_duplication.
  rewrite (proj2 (contains_duplicates_true _) Hd). rewrite (dict_lookup_Some _ _ _ (gc_get _ _ _ Hg)). cbn [bind].
  eexists; eexists. split; [reflexivity|]. split; [eapply put_action_replaced; apply (gc_get _ _ _ Hg)|].
  repeat split; try reflexivity; cbn [a_ineq with_ineq] in *.
  - rewrite <- (fold_left_map (fun i ps => fold_left (fun i p => set_discard p i) ps i) pairs2) in H.
    apply fold_discard_groups in H. tauto.
  - rewrite <- (fold_left_map (fun i ps => fold_left (fun i p => set_discard p i) ps i) pairs2) in H.
    apply fold_discard_groups in H. destruct H as [_ H]. intros Hc. apply (gsm_pairs (s_dom L) a c x y Hg) in Hc.
    apply H. destruct Hc as (g & H1 & H2). exists (pairs2 g). split; [apply in_map; assumption|assumption].
  - intros [Hin Hn]. rewrite <- (fold_left_map (fun i ps => fold_left (fun i p => set_discard p i) ps i) pairs2).
    apply fold_discard_groups. split; [assumption|]. intros (ps & Hps & Hp). apply in_map_iff in Hps. destruct Hps as (g & <- & Hg').
    apply Hn. apply (gsm_pairs (s_dom L) a c x y Hg). eauto.
Qed.

(** ** The invariant *)
Record action_inv (dom0 : domain) (inj : bool) (cps : list component) (n : string) (a0 a : action) : Prop :=
  { ai_name : a_name a = n;
    ai_sig : a_sig a = a_sig a0;
    ai_pre : forall l, In l (a_pre a) <->
       (exists cp, evidence cps n cp) /\ mentionable dom0 (a_sig a0) l /\
       forall cp, evidence cps n cp -> true_before (a_sig a0) cp l;
    ai_eff_sound : forall l, In l (a_eff a) ->
       mentionable dom0 (a_sig a0) l /\ exists cp, evidence cps n cp /\ became_true (a_sig a0) cp l;
    ai_eff_complete : forall l, mentionable dom0 (a_sig a0) l ->
       (exists cp, evidence cps n cp /\ became_true (a_sig a0) cp l) ->
       (d_consts dom0 = [] \/ forall cp, evidence cps n cp -> true_after (a_sig a0) cp l) -> In l (a_eff a);
    ai_ineq : forall x y, In (x, y) (a_ineq a) <->
       inj = true /\ before_in (a_sig a0) x y /\ same_type (a_sig a0) x y /\
       forall cp, In cp cps -> cp_ok cp = true -> c_name (cp_call cp) = n ->
         call_assignment (a_sig a0) (cp_call cp) x <> call_assignment (a_sig a0) (cp_call cp) y }.

Record sam_inv (dom0 : domain) (inj : bool) (policy : neg_policy) (cps : list component) (L : learner) : Prop :=
  { si_dom : s_dom L = set_actions dom0 (d_actions (s_dom L));
    si_keys : dict_keys (d_actions (s_dom L)) = dict_keys (d_actions dom0);
    si_obs : forall n, In n (s_observed L) <-> exists cp, evidence cps n cp;
    si_act : forall n a0, dict_get (d_actions dom0) n = Some a0 ->
       exists a, dict_get (d_actions (s_dom L)) n = Some a /\ action_inv dom0 inj cps n a0 a;
    si_cbek : forall n, In n (dict_keys (d_actions dom0)) -> In n (dict_keys (s_cbe L));
    si_cbe : forall n a0 l, dict_get (d_actions dom0) n = Some a0 -> In l (cbe_of L n) ->
       exists cp, evidence cps n cp /\ ~ true_after (a_sig a0) cp l;
    si_safe : s_safe L = [];
    si_policy : s_policy L = policy;
    si_inj : s_injective L = inj }.

Lemma evidence_snoc cps cp n cp' :
  evidence (cps ++ [cp]) n cp' <-> evidence cps n cp' \/ (cp' = cp /\ learnable cp /\ c_name (cp_call cp) = n).
Proof.
  unfold evidence. rewrite in_app_iff. simpl. split.
  - intros [[?|[<-|[]]] [? ?]]; auto.
  - intros [(? & ? & ?)|(-> & ? & ?)]; auto.
Qed.

Lemma learnable_dec cp : learnable cp \/ ~ learnable cp.
Proof.
  unfold learnable. destruct (cp_ok cp); [|right; intros [? _]; discriminate].
  destruct (contains_duplicates (c_params (cp_call cp))) eqn:E.
  - apply contains_duplicates_true in E. right; tauto.
  - apply contains_duplicates_spec in E. left; auto.
Qed.

(** A component that carries no evidence about [n]. *)
Lemma action_inv_other dom0 inj cps cp n a0 a :
  ~ (learnable cp /\ c_name (cp_call cp) = n) ->
  (cp_ok cp = true -> c_name (cp_call cp) = n ->
     forall x y, In (x, y) (a_ineq a) -> call_assignment (a_sig a0) (cp_call cp) x <> call_assignment (a_sig a0) (cp_call cp) y) ->
  action_inv dom0 inj cps n a0 a -> action_inv dom0 inj (cps ++ [cp]) n a0 a.
Proof.
  intros Hno Hq [I1 I2 I3 I4 I5 I6].
  assert (Hev : forall cp', evidence (cps ++ [cp]) n cp' <-> evidence cps n cp').
  { intros cp'. rewrite evidence_snoc. split; [intros [?|(-> & ? & ?)]; [assumption|tauto]|auto]. }
  constructor; auto.
  - intros l. rewrite I3. setoid_rewrite Hev. reflexivity.
  - intros l Hl. setoid_rewrite Hev. auto.
  - intros l Hm. setoid_rewrite Hev. auto.
  - intros x y. split.
    + intros Hin. destruct (proj1 (I6 x y) Hin) as (? & ? & ? & H4). repeat split; auto.
      intros cp' Hin' Hok Hn. apply in_app_iff in Hin'. destruct Hin' as [?|[<-|[]]]; auto.
    + intros (? & ? & ? & H4). apply I6. repeat split; auto. intros cp' Hin'. apply H4, in_app_iff; auto.
Qed.

Lemma good_call_of dom0 L a0 a c :
  wf_domain dom0 -> s_dom L = set_actions dom0 (d_actions (s_dom L)) ->
  dict_get (d_actions dom0) (c_name c) = Some a0 -> dict_get (d_actions (s_dom L)) (c_name c) = Some a ->
  a_sig a = a_sig a0 -> length (c_params c) = length (a_sig a0) -> good_call (s_dom L) a c.
Proof.
  intros W Hd G0 G Hs Hl. apply dict_get_In in G0. constructor; rewrite ?Hs; auto.
  - eapply wf_sigs; eassumption.
  - rewrite Hd. intros y. exact (wf_disj _ W _ _ y G0).
  - rewrite Hd. exact (wf_consts _ W).
Qed.

Lemma injective_call sig c x y :
  NoDup (dict_keys sig) -> length (c_params c) = length sig -> NoDup (c_params c) ->
  In x (dict_keys sig) -> In y (dict_keys sig) ->
  call_assignment sig c x = call_assignment sig c y -> x = y.
Proof.
  intros Hn Hl Hp Hx Hy.
  apply (ground_injective (mkDom [] [] [] []) sig c); auto; try (apply in_app_iff; auto).
  intros o _ [].
Qed.
Lemma before_in_In sig x y : before_in sig x y -> In x (dict_keys sig) /\ In y (dict_keys sig).
Proof. unfold before_in. rewrite <- pairs2_In. apply pairs2_In_l. Qed.
Lemma before_in_neq sig x y : NoDup (dict_keys sig) -> before_in sig x y -> x <> y.
Proof. unfold before_in. rewrite <- pairs2_In. apply pairs2_neq. Qed.

Lemma sam_step dom0 inj policy cps L cp :
  wf_domain dom0 -> sam_inv dom0 inj policy cps L ->
  (cp_ok cp = true -> good_arity dom0 (cp_call cp)) ->
  (learnable cp -> no_constant_args dom0 (cp_call cp)) ->
  exists L', (if cp_ok cp then handle_component L cp else Ok L) = Ok L' /\ sam_inv dom0 inj policy (cps ++ [cp]) L'.
Proof.
  intros W I Har Hnc. destruct (cp_ok cp) eqn:Eok.
  2:{ exists L; split; [reflexivity|]. destruct I. 
      assert (Hev : forall n cp', evidence (cps ++ [cp]) n cp' <-> evidence cps n cp').
      { intros n cp'. rewrite evidence_snoc. split; [intros [?|(-> & [? ?] & ?)]; [assumption|congruence]|auto]. }
      constructor; auto.
      - intros n. setoid_rewrite Hev. apply si_obs0.
      - intros n a0 G. destruct (si_act0 n a0 G) as (a & Ga & Ia). exists a; split; [assumption|].
        apply action_inv_other; auto; [intros [[? ?] ?]; congruence|congruence].
      - intros n a0 l G Hl. setoid_rewrite Hev. eauto. }
  destruct (Har eq_refl) as (a0 & G0 & Hlen).
  set (n := c_name (cp_call cp)) in *.
  destruct (si_act _ _ _ _ _ I n a0 G0) as (a & Ga & Ia).
  assert (Gc : good_call (s_dom L) a (cp_call cp)).
  { exact (good_call_of dom0 L a0 a (cp_call cp) W (si_dom _ _ _ _ _ I) G0 Ga (ai_sig _ _ _ _ _ _ Ia) Hlen). }
  assert (Hsig : a_sig a = a_sig a0) by apply (ai_sig _ _ _ _ _ _ Ia).
  assert (Hname : a_name a = n) by apply (ai_name _ _ _ _ _ _ Ia).
  assert (Hment : forall l, mentionable (s_dom L) (a_sig a) l <-> mentionable dom0 (a_sig a0) l).
  { intros l. rewrite (si_dom _ _ _ _ _ I), Hsig. reflexivity. }
  unfold handle_component.
  destruct (contains_duplicates (c_params (cp_call cp))) eqn:Edup.
  - (* the call repeats an object *)
    apply contains_duplicates_true in Edup.
    destruct (dup_step L (cp_call cp) a Gc Edup) as (L' & a' & E & R & Eo & Ecb & En & Es & Ep & Ee & Hi).
    rewrite E. cbn [bind]. exists L'; split; [reflexivity|].
    assert (Hnl : ~ learnable cp) by (intros [_ ?]; contradiction).
    assert (Hev : forall n cp', evidence (cps ++ [cp]) n cp' <-> evidence cps n cp').
    { intros n' cp'. rewrite evidence_snoc. split; [intros [?|(-> & ? & ?)]; [assumption|contradiction]|auto]. }
    destruct I, R. constructor; try congruence.
    + rewrite rp_dom0, si_dom0. reflexivity.
    + intros k. rewrite Eo. setoid_rewrite Hev. apply si_obs0.
    + intros k b0 Gb. destruct (eq_dec k n) as [->|Hne].
      * exists a'. fold n in rp_get0. rewrite rp_get0. destruct (eq_dec n n); [|congruence]. split; [reflexivity|].
        assert (b0 = a0) by congruence. subst b0. destruct Ia as [I1 I2 I3 I4 I5 I6].
        constructor; try congruence.
        -- intros l. rewrite Ep, I3. setoid_rewrite Hev. reflexivity.
        -- intros l. rewrite Ee. setoid_rewrite Hev. auto.
        -- intros l. rewrite Ee. setoid_rewrite Hev. auto.
        -- intros x y. rewrite Hi, I6, Hsig. split.
           ++ intros [(A1 & A2 & A3 & A4) A5]. repeat split; auto. intros cp' Hin. apply in_app_iff in Hin.
              destruct Hin as [Hin|[<-|[]]]; [auto|]. tauto.
           ++ intros (A1 & A2 & A3 & A4). split.
              ** repeat split; auto. intros cp' Hin; apply A4, in_app_iff; auto.
              ** intros [_ A5]. apply (A4 cp); auto. apply in_app_iff; right; left; reflexivity.
      * destruct (si_act0 k b0 Gb) as (b & Gb' & Ib). exists b. fold n in rp_get0. rewrite rp_get0. destruct (eq_dec k n); [congruence|].
        split; [assumption|]. apply action_inv_other; auto; try tauto.
    + intros k Hk. rewrite Ecb. auto.
    + intros k b0 l Gb. unfold cbe_of. rewrite Ecb. setoid_rewrite Hev. eauto.
  - (* learned from *)
    assert (Hdup := Edup). apply contains_duplicates_spec in Edup.
    assert (Hl : learnable cp) by (split; assumption).
    assert (Hnc' : no_constant_args (s_dom L) (cp_call cp)) by (rewrite (si_dom _ _ _ _ _ I); apply Hnc; assumption).
    unfold verify_parameter_duplication. rewrite Hdup. cbn [bind].
    unfold triplet_snapshot. rewrite (dict_lookup_Some _ _ _ (gc_get _ _ _ Gc)). cbn [bind].
    assert (Hobs : memb n (s_observed L) = true <-> exists cp', evidence cps n cp').
    { rewrite memb_In. apply (si_obs _ _ _ _ _ I). }
    fold n.
    assert (Hineq : forall x y, In (x, y) (a_ineq a) <->
       inj = true /\ before_in (a_sig a0) x y /\ same_type (a_sig a0) x y /\
       forall cp', In cp' (cps ++ [cp]) -> cp_ok cp' = true -> c_name (cp_call cp') = n ->
         call_assignment (a_sig a0) (cp_call cp') x <> call_assignment (a_sig a0) (cp_call cp') y).
    { intros x y. rewrite (ai_ineq _ _ _ _ _ _ Ia). split.
      - intros (A1 & A2 & A3 & A4). repeat split; auto. intros cp' Hin. apply in_app_iff in Hin.
        destruct Hin as [Hin|[<-|[]]]; [auto|]. intros _ _ Eq.
        destruct (before_in_In _ _ _ A2) as [Hx Hy]. rewrite <- Hsig in *.
        apply (before_in_neq _ _ _ (gc_sig _ _ _ Gc) A2).
        apply (injective_call (a_sig a) (cp_call cp)); auto; apply (gc_sig _ _ _ Gc) || apply (gc_len _ _ _ Gc).
      - intros (A1 & A2 & A3 & A4). repeat split; auto. intros cp' Hin; apply A4, in_app_iff; auto. }
    destruct (memb n (s_observed L)) eqn:Em.
    + (* update *)
      destruct (proj1 Hobs eq_refl) as (cp1 & Hcp1).
      assert (Hk : In n (dict_keys (s_cbe L))).
      { apply (si_cbek _ _ _ _ _ I). apply dict_get_Some_iff; eauto. }
      destruct (update_action_step L cp a Gc Edup Hnc' Hk)
        as (L' & a' & E & R & En & Es & Ei & Eo & Ek & Hpre & Hcbo & Hno & Hyes).
      exists L'; split; [exact E|]. fold n in R, Hcbo, Hyes.
      assert (Hex : exists cp', evidence cps n cp') by eauto.
      assert (Hev : forall cp', evidence (cps ++ [cp]) n cp' <-> evidence cps n cp' \/ cp' = cp).
      { intros cp'. rewrite evidence_snoc. split; [intros [?|(-> & _)]; auto|intros [?| ->]; auto]. }
      assert (Hconst : d_consts (s_dom L) = d_consts dom0) by (rewrite (si_dom _ _ _ _ _ I); reflexivity).
      assert (Ia' : action_inv dom0 inj (cps ++ [cp]) n a0 a').
      { destruct Ia as [I1 I2 I3 I4 I5 I6]. constructor; try congruence.
        - intros l. rewrite Hpre, I3, Hment, Hsig. setoid_rewrite Hev. split.
          + intros ((A1 & A2 & A3) & A4 & A5). split; [exists cp; auto|]. split; [assumption|]. intros cp' [?| ->]; auto.
          + intros (A1 & A2 & A3). repeat split; auto.
        - intros l Hin.
          assert (Hc : In l (a_eff a) \/ (mentionable (s_dom L) (a_sig a) l /\ became_true (a_sig a) cp l)).
          { destruct (d_consts (s_dom L)) eqn:Ec.
            - apply (proj2 (Hno eq_refl)); assumption.
            - apply (proj2 (Hyes ltac:(discriminate))) in Hin; tauto. }
          rewrite Hment, Hsig in Hc. setoid_rewrite Hev. destruct Hc as [Hc|[Hc1 Hc2]].
          + destruct (I4 l Hc) as (? & cp' & ? & ?). split; [assumption|]. exists cp'; auto.
          + split; [assumption|]. exists cp; auto.
        - intros l Hm (cp' & Hcp' & Hbt) Hside. setoid_rewrite Hev in Hside. apply Hev in Hcp'.
          assert (Hpre_in : d_consts dom0 = [] \/ (forall cp', evidence cps n cp' -> true_after (a_sig a0) cp' l)) by (destruct Hside; auto).
          assert (Hc : In l (a_eff a) \/ (mentionable (s_dom L) (a_sig a) l /\ became_true (a_sig a) cp l)).
          { destruct Hcp' as [Hcp'| ->].
            - left. apply I5; eauto.
            - right. rewrite Hment, Hsig. auto. }
          destruct (d_consts (s_dom L)) eqn:Ec.
          + apply (proj2 (Hno eq_refl)); assumption.
          + apply (proj2 (Hyes ltac:(discriminate))). split; [assumption|].
            intros Hcb. apply (proj1 (Hyes ltac:(discriminate))) in Hcb.
            destruct Hside as [Hs0|Hs0]; [congruence|].
            destruct Hcb as [Hcb|[_ Hcb]].
            * destruct (si_cbe _ _ _ _ _ I n a0 l G0 Hcb) as (cp2 & Hcp2 & Hna). apply Hna. auto.
            * apply Hcb. rewrite Hsig. auto.
        - rewrite Ei. exact Hineq. }
      destruct I, R. constructor; try congruence.
      * rewrite rp_dom0, si_dom0. reflexivity.
      * intros k. rewrite Eo, si_obs0. split.
        -- intros (cp' & H'). exists cp'. apply evidence_snoc; auto.
        -- intros (cp' & H'). apply evidence_snoc in H'. destruct H' as [H'|(-> & _ & <-)]; [eauto|]. fold n; eauto.
      * intros k b0 Gb. rewrite rp_get0. destruct (eq_dec k n) as [->|Hne].
        -- exists a'; split; [reflexivity|]. assert (b0 = a0) by congruence. subst; assumption.
        -- destruct (si_act0 k b0 Gb) as (b & Gb' & Ib). exists b; split; [assumption|].
           apply action_inv_other; auto; intros [_ E']; unfold n in Hne; congruence.
      * intros k Hk'. apply Ek; auto.
      * intros k b0 l Gb Hin. destruct (eq_dec k n) as [->|Hne].
        -- assert (b0 = a0) by congruence. subst b0. setoid_rewrite Hev.
           destruct (d_consts (s_dom L)) eqn:Ec.
           ++ unfold cbe_of in Hin. rewrite (proj1 (Hno eq_refl)) in Hin. destruct (si_cbe0 n a0 l Gb Hin) as (cp' & ? & ?).
              exists cp'; auto.
           ++ apply (proj1 (Hyes ltac:(discriminate))) in Hin. destruct Hin as [Hin|[_ Hin]].
              ** destruct (si_cbe0 n a0 l Gb Hin) as (cp' & ? & ?). exists cp'; auto.
              ** exists cp. rewrite Hsig in Hin. auto.
        -- rewrite Hcbo in Hin by assumption. destruct (si_cbe0 k b0 l Gb Hin) as (cp' & H' & ?). exists cp'. split; [|assumption].
           apply evidence_snoc; auto.
    + (* add *)
      assert (Hnone : ~ exists cp', evidence cps n cp') by (intros H'; apply Hobs in H'; discriminate).
      destruct (add_new_action_step L cp a Gc Edup Hnc') as (L' & a' & E & R & En & Es & Ei & Eo & Ek & Hpre & Heff).
      exists L'; split; [exact E|]. fold n in R.
      assert (Hev : forall cp', evidence (cps ++ [cp]) n cp' <-> cp' = cp).
      { intros cp'. rewrite evidence_snoc. split; [intros [?|(-> & _)]; [exfalso; eauto|reflexivity]|intros ->; auto]. }
      assert (Ia' : action_inv dom0 inj (cps ++ [cp]) n a0 a').
      { destruct Ia as [I1 I2 I3 I4 I5 I6]. constructor; try congruence.
        - intros l. rewrite Hpre, I3, Hment, Hsig. setoid_rewrite Hev. split.
          + intros [(A1 & _)|[A1 A2]]; [contradiction|]. split; [eauto|]. split; [assumption|]. intros cp' ->; assumption.
          + intros (_ & A1 & A2). right; auto.
        - intros l. rewrite Heff, Hment, Hsig. setoid_rewrite Hev. intros [Hin|[A1 A2]].
          + destruct (I4 l Hin) as (_ & cp' & H' & _). exfalso; eauto.
          + split; [assumption|]. exists cp; auto.
        - intros l Hm (cp' & Hcp' & Hbt) _. apply Hev in Hcp'. subst cp'. apply Heff. right. rewrite Hment, Hsig; auto.
        - rewrite Ei. exact Hineq. }
      destruct I, R. constructor; try congruence.
      * rewrite rp_dom0, si_dom0. reflexivity.
      * intros k. rewrite Eo, in_app_iff, si_obs0, Hname. simpl. split.
        -- intros [(cp' & H')|[<-|[]]].
           ++ exists cp'. apply evidence_snoc; auto.
           ++ exists cp. apply Hev; reflexivity.
        -- intros (cp' & H'). apply evidence_snoc in H'. destruct H' as [H'|(-> & _ & <-)]; [eauto|]. fold n; auto.
      * intros k b0 Gb. rewrite rp_get0. destruct (eq_dec k n) as [->|Hne].
        -- exists a'; split; [reflexivity|]. assert (b0 = a0) by congruence. subst; assumption.
        -- destruct (si_act0 k b0 Gb) as (b & Gb' & Ib). exists b; split; [assumption|].
           apply action_inv_other; auto; intros [_ E']; unfold n in Hne; congruence.
      * intros k Hk'. rewrite Ek; auto.
      * intros k b0 l Gb. unfold cbe_of. rewrite Ek. intros Hin. destruct (si_cbe0 k b0 l Gb Hin) as (cp' & H' & ?).
        exists cp'. split; [apply evidence_snoc; auto|assumption].
Qed.
