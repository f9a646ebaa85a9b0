(** * Proofs about the multi-agent learner *)
From Verif Require Import PreludeProofs VocabProofs SamProofs SamFinal SamResults MaSpec CnfProofs MaMatch MaCnf.

(** ** Preconditions: what is known after the evidence [Ev] *)
Record pre_inv (dom0 : domain) (policy : neg_policy) (Ev : string -> component -> Prop) (L : learner) : Prop :=
  { pi_dom : s_dom L = set_actions dom0 (d_actions (s_dom L));
    pi_keys : dict_keys (d_actions (s_dom L)) = dict_keys (d_actions dom0);
    pi_obs : forall n, In n (s_observed L) <-> exists cp, Ev n cp;
    pi_act : forall n a0, dict_get (d_actions dom0) n = Some a0 ->
       exists a, dict_get (d_actions (s_dom L)) n = Some a /\ a_name a = n /\ a_sig a = a_sig a0 /\ a_eff a = [] /\
         forall l, In l (a_pre a) <-> (exists cp, Ev n cp) /\ mentionable dom0 (a_sig a0) l /\
                                      forall cp, Ev n cp -> true_before (a_sig a0) cp l;
    pi_safe : s_safe L = [];
    pi_policy : s_policy L = policy }.

Lemma pre_inv_iff dom0 policy Ev Ev' L :
  (forall n cp, Ev n cp <-> Ev' n cp) -> pre_inv dom0 policy Ev L -> pre_inv dom0 policy Ev' L.
Proof.
  intros H [I1 I2 I3 I4 I5 I6]. constructor; auto.
  - intros n. rewrite I3. split; intros [cp Hc]; exists cp; apply H; assumption.
  - intros n a0 G. destruct (I4 n a0 G) as (a & Ga & H1 & H2 & H3 & H4). exists a. repeat (split; [assumption|]).
    intros l. rewrite H4. split; intros ((cp & Hc) & Hm & Hb); (split; [exists cp; apply H; assumption|]); (split; [assumption|]);
    intros cp' Hc'; apply Hb, H; assumption.
Qed.

Lemma replaced_pre_inv dom0 policy Ev Ev' L L' n a a' a0 :
  pre_inv dom0 policy Ev L -> replaced L L' n a' -> dict_get (d_actions dom0) n = Some a0 ->
  dict_get (d_actions (s_dom L)) n = Some a ->
  a_name a' = a_name a -> a_sig a' = a_sig a -> a_eff a' = a_eff a ->
  (forall k cp, k <> n -> (Ev' k cp <-> Ev k cp)) ->
  (forall k, In k (s_observed L') <-> exists cp, Ev' k cp) ->
  (forall l, In l (a_pre a') <-> (exists cp, Ev' n cp) /\ mentionable dom0 (a_sig a0) l /\ forall cp, Ev' n cp -> true_before (a_sig a0) cp l) ->
  pre_inv dom0 policy Ev' L'.
Proof.
  intros I R G0 Ga En Es Ee Ho Hobs Hp. destruct (pi_act _ _ _ _ I n a0 G0) as (b & Gb & B1 & B2 & B3 & _).
  assert (b = a) by congruence. subst b.
  destruct I, R. constructor; try congruence.
  - rewrite rp_dom, pi_dom0. reflexivity.
  - exact Hobs.
  - intros k b0 Gk. rewrite rp_get. destruct (eq_dec k n) as [->|Hne].
    + exists a'. assert (b0 = a0) by congruence. subst b0. split; [reflexivity|]. repeat (split; [congruence|]). exact Hp.
    + destruct (pi_act0 k b0 Gk) as (b & Gkb & C1 & C2 & C3 & C4). exists b. repeat (split; [assumption|]).
      intros l. rewrite C4. split; intros ((cp & Hc) & Hm & Hb); (split; [exists cp; apply Ho; assumption|]); (split; [assumption|]);
      intros cp' Hc'; apply Hb; apply Ho; assumption.
Qed.

Lemma good_call_pre dom0 policy Ev L c :
  wf_domain dom0 -> pre_inv dom0 policy Ev L -> good_arity dom0 c ->
  exists a0 a, dict_get (d_actions dom0) (c_name c) = Some a0 /\ dict_get (d_actions (s_dom L)) (c_name c) = Some a /\
    a_sig a = a_sig a0 /\ good_call (s_dom L) a c.
Proof.
  intros W I (a0 & G0 & Hl). destruct (pi_act _ _ _ _ I _ _ G0) as (a & Ga & B1 & B2 & _).
  exists a0, a. repeat (split; [assumption|]). eapply good_call_of; eauto. apply (pi_dom _ _ _ _ I).
Qed.

Lemma verify_step dom0 policy Ev L c :
  wf_domain dom0 -> pre_inv dom0 policy Ev L -> good_arity dom0 c ->
  exists L' dup, verify_parameter_duplication L c = Ok (L', dup) /\ pre_inv dom0 policy Ev L' /\ (dup = false <-> NoDup (c_params c)).
Proof.
  intros W I Ha. destruct (good_call_pre dom0 policy Ev L c W I Ha) as (a0 & a & G0 & Ga & Es & Gc).
  destruct (contains_duplicates (c_params c)) eqn:Ed.
  - assert (Hd := proj1 (contains_duplicates_true _) Ed).
    destruct (dup_step L c a Gc Hd) as (L' & a' & E & R & Eo & _ & En & Es' & Ep & Ee & _).
    exists L', true. split; [assumption|]. split; [|split; [discriminate|intros; contradiction]].
    eapply (replaced_pre_inv dom0 policy Ev Ev L L' (c_name c) a a' a0); eauto; try tauto.
    + intros k. rewrite Eo. apply (pi_obs _ _ _ _ I).
    + intros l. rewrite Ep. destruct (pi_act _ _ _ _ I _ _ G0) as (b & Gb & _ & _ & _ & Hb). assert (b = a) by congruence. subst b. apply Hb.
  - exists L, false. unfold verify_parameter_duplication. rewrite Ed. split; [reflexivity|]. split; [assumption|].
    split; [|reflexivity]. intros _. apply contains_duplicates_spec; assumption.
Qed.

Lemma verify_all_step dom0 policy Ev L calls :
  wf_domain dom0 -> pre_inv dom0 policy Ev L -> (forall c, In c calls -> good_arity dom0 c) ->
  exists L' dup, verify_all L calls = Ok (L', dup) /\ pre_inv dom0 policy Ev L' /\ (dup = false <-> forall c, In c calls -> NoDup (c_params c)).
Proof.
  intros W I Ha. unfold verify_all.
  enough (G : forall calls L b, pre_inv dom0 policy Ev L -> (forall c, In c calls -> good_arity dom0 c) ->
    exists L' dup, fold_res (fun (acc : learner * bool) c =>
              let* (L1, dup) := verify_parameter_duplication (fst acc) c in Ok (L1, snd acc || dup)) calls (L, b) = Ok (L', dup) /\
      pre_inv dom0 policy Ev L' /\ (dup = false <-> b = false /\ forall c, In c calls -> NoDup (c_params c))).
  { destruct (G calls L false I Ha) as (L' & dup & E & I' & Hd). exists L', dup. split; [assumption|]. split; [assumption|]. rewrite Hd; tauto. }
  clear calls L I Ha. induction calls as [|c calls IH]; intros L b I Ha.
  - exists L, b. split; [reflexivity|]. split; [assumption|]. simpl. split; [intros ->; split; [reflexivity|intros ? []]|tauto].
  - cbn [fold_res fst snd]. destruct (verify_step dom0 policy Ev L c W I (Ha c (or_introl eq_refl))) as (L1 & d1 & E1 & I1 & D1).
    rewrite E1. cbn [bind]. destruct (IH L1 (b || d1) I1) as (L2 & d2 & E2 & I2 & D2); [intros c0 H0; apply Ha; right; assumption|].
    exists L2, d2. split; [assumption|]. split; [assumption|]. rewrite D2, orb_false_iff, D1. split.
    + intros ((H1 & H2) & H3). split; [assumption|]. intros c0 [<-|H0]; auto.
    + intros (H1 & H2). repeat split; auto; [apply H2; left; reflexivity|intros c0 H0; apply H2; right; assumption].
Qed.

Lemma observe_step dom0 policy Ev L st st' c :
  wf_domain dom0 -> pre_inv dom0 policy Ev L -> good_arity dom0 c -> NoDup (c_params c) -> no_constant_args dom0 c ->
  exists snap L', triplet_snapshot (s_dom L) st st' c = Ok snap /\
    observe_call L c (fst snap) = Ok L' /\
    pre_inv dom0 policy (fun n cp => Ev n cp \/ (c_name c = n /\ cp = mkComp st c st' true)) L' /\
    (forall l, In l (fst snap) <-> well_typed dom0 (call_objects dom0 c ++ d_consts dom0) l /\ lit_true st l) /\
    (forall l, In l (snd snap) <-> well_typed dom0 (call_objects dom0 c ++ d_consts dom0) l /\ lit_true st' l).
Proof.
  intros W I Ha Hp Hc. destruct (good_call_pre dom0 policy Ev L c W I Ha) as (a0 & a & G0 & Ga & Es & Gc).
  set (cp := mkComp st c st' true).
  assert (Hc' : no_constant_args (s_dom L) c) by (rewrite (pi_dom _ _ _ _ I); exact Hc).
  unfold triplet_snapshot. rewrite (dict_lookup_Some _ _ _ Ga). cbn [bind].
  exists (discrete_state_snapshot (s_dom L) st (parameterized_objects (s_dom L) a c), discrete_state_snapshot (s_dom L) st' (parameterized_objects (s_dom L) a c)). cbn [fst snd].
  destruct (lifted_snapshot (s_dom L) a c st Gc Hp Hc') as (ms & Ems & Hms).
  assert (Hms' : forall m, In m ms <-> mentionable dom0 (a_sig a0) m /\ true_before (a_sig a0) cp m).
  { intros m. rewrite Hms, Es, (pi_dom _ _ _ _ I). reflexivity. }
  destruct (pi_act _ _ _ _ I _ _ G0) as (b & Gb & Bn & _ & Be & Hb). assert (b = a) by congruence. subst b.
  set (Ev' := fun n cp' => Ev n cp' \/ (c_name c = n /\ cp' = cp)).
  assert (Hoth : forall k cp', k <> c_name c -> (Ev' k cp' <-> Ev k cp')).
  { intros k cp' Hk. unfold Ev'. split; [intros [?|[? _]]; [assumption|congruence]|auto]. }
  assert (Hsnap : forall s l, In l (discrete_state_snapshot (s_dom L) s (parameterized_objects (s_dom L) a c)) <->
            well_typed dom0 (call_objects dom0 c ++ d_consts dom0) l /\ lit_true s l).
  { intros s l. rewrite snapshot_exact. unfold parameterized_objects. rewrite well_typed_dup, Es.
    unfold call_objects. rewrite G0, (pi_dom _ _ _ _ I). reflexivity. }
  unfold observe_call. rewrite (dict_lookup_Some _ _ _ Ga). cbn [bind].
  destruct (memb (c_name c) (s_observed L)) eqn:Em.
  - apply memb_In, (pi_obs _ _ _ _ I) in Em. destruct Em as (cp0 & Hcp0).
    unfold update_action_preconditions. rewrite (dict_lookup_Some _ _ _ Ga). cbn [bind]. rewrite Ems. cbn [bind].
    eexists. split; [reflexivity|]. split; [reflexivity|]. split; [|split; apply Hsnap].
    eapply (replaced_pre_inv dom0 policy Ev Ev' L _ (c_name c) a (with_pre a _) a0 I).
    + eapply put_action_replaced; eassumption.
    + auto. + auto. + auto. + auto. + auto. + auto.
    + intros k. cbn [s_observed put_action with_dom]. rewrite (pi_obs _ _ _ _ I). unfold Ev'. split.
      * intros [cp' H']; eauto.
      * intros [cp' [H'|[<- ->]]]; eauto.
    + intros l. cbn [a_pre with_pre]. rewrite filter_In, memb_In, to_set_In, Hms', Hb. unfold Ev'. split.
      * intros ((_ & Hm & Hall) & _ & Ht). split; [eauto|]. split; [assumption|]. intros cp' [H'|[_ ->]]; auto.
      * intros (_ & Hm & Hall). split; [split; [eauto|split; [assumption|auto]]|]. split; [assumption|]. apply Hall; right; auto.
  - assert (Hno : ~ exists cp', Ev (c_name c) cp').
    { intros H. apply (pi_obs _ _ _ _ I) in H. apply memb_In in H. congruence. }
    unfold add_new_action_preconditions. rewrite (dict_lookup_Some _ _ _ Ga). cbn [bind]. rewrite Ems. cbn [bind].
    eexists. split; [reflexivity|]. split; [reflexivity|]. split; [|split; apply Hsnap].
    eapply (replaced_pre_inv dom0 policy Ev Ev' L _ (c_name c) a (with_pre a _) a0 I).
    + pose proof (put_action_replaced L (c_name c) a (with_pre a (set_union (a_pre a) (to_set ms))) Ga) as [R1 R2 R3 R4 R5 R6 R7].
      constructor; eassumption.
    + auto. + auto. + auto. + auto. + auto. + auto.
    + intros k. cbn [s_observed put_action with_dom with_observed]. rewrite in_app_iff, (pi_obs _ _ _ _ I), Bn. unfold Ev'. simpl. split.
      * intros [[cp' H']|[<-|[]]]; eauto.
      * intros [cp' [H'|[<- ->]]]; eauto.
    + intros l. cbn [a_pre with_pre]. rewrite set_union_In, to_set_In, Hms', Hb. unfold Ev'. split.
      * intros [(H & _)|(Hm & Ht)]; [contradiction|]. split; [eauto|]. split; [assumption|]. intros cp' [H'|[_ ->]]; [exfalso; eauto|assumption].
      * intros (_ & Hm & Hall). right. split; [assumption|]. apply Hall; right; auto.
Qed.

(** ** Facts about one real joint action *)
Lemma joint_effect_dec real calls g : joint_effect real calls g \/ ~ joint_effect real calls g.
Proof.
  unfold joint_effect. induction calls as [|c calls IH].
  - right. intros (c & r & l & [] & _).
  - destruct IH as [(c' & r & l & H & H')|Hn]; [left; exists c', r, l; split; [right; assumption|assumption]|].
    destruct (real (c_name c)) as [r|] eqn:Er.
    + destruct (eff_at_dec r (call_assignment (a_sig r) c) g) as [(l & Hl & E)|Hd].
      * left. exists c, r, l. split; [left; reflexivity|auto].
      * right. intros (c' & r' & l & [<-|H] & H1 & H2 & H3); [apply Hd; rewrite Er in H1; injection H1 as <-; exists l; auto|].
        apply Hn. exists c', r', l; auto.
    + right. intros (c' & r' & l & [<-|H] & H1 & H2 & H3); [congruence|]. apply Hn. exists c', r', l; auto.
Qed.

Lemma joint_effect_true real j g : real_joint real j -> joint_effect real (j_calls j) g -> lit_true (j_next j) g.
Proof.
  intros [_ _ Hf Hr] He. destruct g as [n args b]. unfold lit_true. simpl. specialize (Hr n args). destruct b.
  - apply Hr. auto.
  - intros Hh. apply Hr in Hh. destruct Hh as [Hh|[_ Hh]]; [exact (Hf n args Hh He)|contradiction].
Qed.

Lemma joint_change_caused real j g :
  real_joint real j -> ~ lit_true (j_prev j) g -> lit_true (j_next j) g -> joint_effect real (j_calls j) g.
Proof.
  intros [_ _ Hf Hr] H1 H2. destruct g as [n args b]. unfold lit_true in *. simpl in *. specialize (Hr n args). destruct b.
  - apply Hr in H2. destruct H2 as [H2|[H2 _]]; [assumption|contradiction].
  - destruct (joint_effect_dec real (j_calls j) (mkLit n args false)) as [H|H]; [assumption|].
    exfalso. destruct (holds_dec (j_prev j) n args) as [Hh|Hh]; [|contradiction].
    apply H2. apply Hr. right; auto.
Qed.

Section Ma.
Variables (dom0 : domain) (real : string -> option action) (policy : neg_policy).
Hypothesis W : wf_domain dom0.
Hypothesis Hone : length (d_consts dom0) <= 1.
Hypothesis RD : real_domain dom0 real.

Notation R := (real_effects real).
Notation names := (dict_keys (d_actions dom0)).
Definition distinct (js : list joint) : Prop := forall j, In j js -> joint_learnable j -> different_actions j.
Notation tok D := (table_ok (d_preds dom0) names R D).

Record ma_inv (js : list joint) (M : ma_learner) : Prop :=
  { mi_pre : pre_inv dom0 policy (ma_evidence js) (m_sam M);
    mi_unsafe : m_unsafe M = [];
    mi_table : tok (distinct js) (m_cnfs M);
    mi_complete : forall j c l, In j js -> joint_learnable j -> seen_by_last dom0 real j -> In c (j_calls j) ->
       R (c_name c) l -> (forall a0, dict_get (d_actions dom0) (c_name c) = Some a0 -> became_true (a_sig a0) (comp_of j c) l) ->
       has_pair (m_cnfs M) (c_name c) l }.

Lemma tok_weaken (D D' : Prop) cs : (D' -> D) -> tok D cs -> tok D' cs.
Proof. intros H [H1 H2 H3 H4]. constructor; auto. intros d. apply H4; auto. Qed.

(** A learner domain differs from [dom0] only in what its actions contain. *)
Lemma fine_calls_of Ev L calls :
  pre_inv dom0 policy Ev L -> (forall c, In c calls -> good_arity dom0 c) ->
  (forall c, In c calls -> NoDup (c_params c)) -> (forall c, In c calls -> no_constant_args dom0 c) ->
  fine_calls names (s_dom L) calls.
Proof.
  intros I Ha Hp Hc c Hin. destruct (good_call_pre dom0 policy Ev L c W I (Ha c Hin)) as (a0 & a & G0 & Ga & Es & Gc).
  exists a. split; [exact Ga|]. constructor; auto.
  - rewrite (pi_dom _ _ _ _ I). apply Hc; assumption.
  - eapply dict_get_key; eassumption.
Qed.

Lemma lifts_real Ev L c g m :
  pre_inv dom0 policy Ev L -> lifts_of (s_dom L) c g m ->
  exists a0, dict_get (d_actions dom0) (c_name c) = Some a0 /\
    NoDup (l_args m) /\ incl (l_args m) (dict_keys (a_sig a0) ++ dict_keys (d_consts dom0)) /\ ground (call_assignment (a_sig a0) c) m = g.
Proof.
  intros I (a & Ha & Hl). unfold act_of in Ha.
  assert (Hk : In (c_name c) (dict_keys (d_actions dom0))) by (rewrite <- (pi_keys _ _ _ _ I); eapply dict_get_key; eassumption).
  destruct (proj1 (dict_get_Some_iff _ _) Hk) as [a0 G0].
  destruct (pi_act _ _ _ _ I _ _ G0) as (b & Gb & _ & Es & _). assert (b = a) by congruence. subst b.
  exists a0. split; [assumption|]. rewrite <- Es. unfold lifts in Hl. rewrite (pi_dom _ _ _ _ I) in Hl. exact Hl.
Qed.

Lemma real_lifts Ev L c r l :
  pre_inv dom0 policy Ev L -> good_arity dom0 c -> real (c_name c) = Some r -> In l (a_eff r) ->
  lifts_of (s_dom L) c (ground (call_assignment (a_sig r) c) l) l.
Proof.
  intros I (a0 & G0 & _) Hr Hl. destruct (pi_act _ _ _ _ I _ _ G0) as (a & Ga & _ & Es & _).
  destruct (real_sig _ _ RD _ _ G0) as (r' & Er & Esr). rewrite Hr in Er. injection Er as <-.
  exists a. split; [exact Ga|]. assert (Hm := real_eff _ _ RD _ _ _ Hr Hl). unfold lifts. rewrite Es, <- Esr. split; [|split; [|reflexivity]].
  - destruct Hm as (ps & os & _ & _ & Hn & E & _). rewrite E; assumption.
  - rewrite (pi_dom _ _ _ _ I). apply mentionable_names; assumption.
Qed.

(** The snapshot kept while the effects of a joint action are processed. *)
Record snapshot_of (objs : list pobject) (j : joint) (snap : list literal * list literal) : Prop :=
  { so_prev : forall l, In l (fst snap) <-> well_typed dom0 (objs ++ d_consts dom0) l /\ lit_true (j_prev j) l;
    so_next : forall l, In l (snd snap) <-> well_typed dom0 (objs ++ d_consts dom0) l /\ lit_true (j_next j) l }.

Lemma effects_In objs j snap g : snapshot_of objs j snap ->
  (In g (all_effects snap) <->
   well_typed dom0 (objs ++ d_consts dom0) g /\ ~ lit_true (j_prev j) g /\ lit_true (j_next j) g).
Proof.
  intros [Hp Hq]. unfold all_effects.
  pose proof (extract_discrete_effects_exact (fst snap) (snd snap)) as H.
  destruct (extract_discrete_effects _ _) as [adds dels]. destruct H as [Ha Hd].
  rewrite set_union_In, Ha, Hd, !Hp, !Hq, !well_typed_neg, !lit_true_neg.
  destruct (l_pos g); destruct (lit_true_dec (j_prev j) g), (lit_true_dec (j_next j) g); intuition congruence.
Qed.

Lemma well_typed_known objs g : well_typed dom0 objs g -> known_pred (d_preds dom0) g /\ NoDup (l_args g).
Proof. intros (ps & os & H1 & _ & H2 & H3 & _). split; [exists ps; assumption|]. rewrite H3; assumption. Qed.

Section OneJoint.
Variables (j : joint) (Ev : string -> component -> Prop) (L : learner) (objs : list pobject) (snap : list literal * list literal).
Hypothesis I : pre_inv dom0 policy Ev L.
Hypothesis RJ : real_joint real j.
Hypothesis Hga : forall c, In c (j_calls j) -> good_arity dom0 c.
Hypothesis Hnd : forall c, In c (j_calls j) -> NoDup (c_params c).
Hypothesis Hnc : forall c, In c (j_calls j) -> no_constant_args dom0 c.
Hypothesis Hsnap : snapshot_of objs j snap.

Lemma joint_fine : fine_calls names (s_dom L) (j_calls j).
Proof. eapply fine_calls_of; eauto. Qed.
Lemma joint_one : length (d_consts (s_dom L)) <= 1.
Proof. rewrite (pi_dom _ _ _ _ I). exact Hone. Qed.

Lemma joint_not c g m : In c (j_calls j) -> In (copy_lit true g) (snd snap) -> lifts_of (s_dom L) c g m -> ~ R (c_name c) m.
Proof.
  intros Hc Hg Hl (r & Hr & Hm). apply (so_next _ _ _ Hsnap) in Hg. destruct Hg as [_ Hg].
  rewrite copy_lit_true, lit_true_neg in Hg. apply Hg. apply (joint_effect_true real j g RJ).
  destruct (lifts_real Ev L c g m I Hl) as (a0 & G0 & _ & _ & <-).
  destruct (real_sig _ _ RD _ _ G0) as (r' & Er & Es). rewrite Hr in Er. injection Er as <-.
  exists c, r, m. rewrite Es. auto.
Qed.

Lemma joint_cause g : In g (all_effects snap) -> exists c m, In c (j_calls j) /\ lifts_of (s_dom L) c g m /\ R (c_name c) m.
Proof.
  intros Hg. apply (effects_In objs j snap g Hsnap) in Hg. destruct Hg as (_ & H1 & H2).
  destruct (joint_change_caused real j g RJ H1 H2) as (c & r & l & Hc & Hr & Hl & <-).
  exists c, l. split; [assumption|]. split; [eapply real_lifts; eauto|]. exists r; auto.
Qed.

Lemma joint_next_known g : In g (snd snap) -> known_pred (d_preds dom0) g /\ NoDup (l_args g).
Proof. intros Hg. apply (so_next _ _ _ Hsnap) in Hg. eapply well_typed_known; apply Hg. Qed.
Lemma joint_eff_known g : In g (all_effects snap) -> NoDup (l_args g) /\ known_pred (d_preds dom0) g.
Proof. intros Hg. apply (effects_In objs j snap g Hsnap) in Hg. destruct Hg as [Hg _]. apply well_typed_known in Hg. tauto. Qed.

(** A pair (call, literal) whose ground version is an observed effect. *)
Definition recorded (cs : table) : Prop :=
  forall g c m, In g (all_effects snap) -> In c (j_calls j) -> lifts_of (s_dom L) c g m -> R (c_name c) m -> has_pair cs (c_name c) m.

Lemma multiple_loops (D : Prop) cs :
  tok D cs -> (D -> different_actions j) ->
  exists acc cs' calls', not_effects_loop (s_dom L) (snd snap) (j_calls j) cs = Ok acc /\
    effects_loop (s_dom L) (all_effects snap) acc = Ok (cs', calls') /\ tok D cs' /\ keeps R cs cs' /\ recorded cs'.
Proof.
  intros Ht HD.
  destruct (not_effects_loop_step (d_preds dom0) names R D (s_dom L) joint_one (snd snap) (j_calls j) cs joint_fine Ht) as (cs1 & calls1 & E1 & H2 & T1 & K1).
  { intros c g m. apply joint_not. } { apply joint_next_known. }
  destruct (effects_loop_step (d_preds dom0) names R D (s_dom L) joint_one (j_calls j) calls1 (all_effects snap) cs1 joint_fine H2 T1) as (cs2 & calls2 & E2 & T2 & K2 & P2).
  { intros g Hg. destruct (joint_eff_known g Hg). split; [assumption|]. split; [assumption|]. apply joint_cause; assumption. }
  { exact HD. }
  exists (cs1, calls1), cs2, calls2. split; [assumption|]. split; [assumption|]. split; [assumption|]. split; [eapply keeps_trans; eassumption|]. exact P2.
Qed.

Lemma single_loops (D : Prop) cs c :
  j_calls j = [c] -> tok D cs ->
  exists cs1 nes c' cs2, add_must_be_effects_to_cnf (s_dom L) cs c (all_effects snap) = Ok cs1 /\
    extract_relevant_not_effects (s_dom L) (snd snap) c = (nes, c') /\
    add_not_effects_to_cnf (s_dom L) cs1 c' nes = Ok cs2 /\ tok D cs2 /\ keeps R cs cs2 /\ recorded cs2.
Proof.
  intros Ej Ht. assert (Hc : In c (j_calls j)) by (rewrite Ej; left; reflexivity).
  destruct (joint_fine c Hc) as (a & Ha & Hf).
  destruct (must_be_step (d_preds dom0) names R D (s_dom L) joint_one a c c (all_effects snap) cs Hf (ext_of_refl _ _) Ht) as (cs1 & E1 & T1 & K1 & P1).
  { intros g Hg. destruct (joint_eff_known g Hg) as [H1 H2]. split; [assumption|]. split; [assumption|].
    destruct (joint_cause g Hg) as (c' & m & Hc' & (a' & Ha' & Hl) & HR). rewrite Ej in Hc'. destruct Hc' as [<-|[]].
    rewrite Ha in Ha'. injection Ha' as <-. eauto. }
  pose proof (relevant_not_effects_spec (s_dom L) (snd snap) c) as Hs. destruct (extract_relevant_not_effects (s_dom L) (snd snap) c) as [nes c'] eqn:En.
  destruct Hs as [He Hnes].
  destruct (not_effects_step (d_preds dom0) names R D (s_dom L) joint_one a c c' nes cs1 Hf He T1) as (cs2 & E2 & T2 & K2).
  { intros g Hg. destruct (Hnes g Hg) as [H1 _]. destruct (joint_next_known _ H1) as [[ps Hps] Hn]. split; [exists ps; exact Hps|]. split; [exact Hn|].
    intros m Hm. apply (joint_not c g m); auto. exists a; auto. }
  exists cs1, nes, c', cs2. split; [assumption|]. split; [reflexivity|]. split; [assumption|]. split; [assumption|]. split; [eapply keeps_trans; eassumption|].
  intros g c0 m Hg Hc0 (a' & Ha' & Hl) HR. rewrite Ej in Hc0. destruct Hc0 as [<-|[]]. rewrite Ha in Ha'. injection Ha' as <-.
  apply K2; [assumption|]. eapply P1; eauto.
Qed.

(** Completeness for the calls whose changes are visible in the snapshot. *)
Lemma recorded_complete cs c l :
  recorded cs -> In c (j_calls j) -> R (c_name c) l ->
  (forall g, joint_effect real (j_calls j) g -> ~ lit_true (j_prev j) g -> well_typed dom0 (objs ++ d_consts dom0) g) ->
  (forall a0, dict_get (d_actions dom0) (c_name c) = Some a0 -> became_true (a_sig a0) (comp_of j c) l) ->
  has_pair cs (c_name c) l.
Proof.
  intros Hrec Hc HR Hw Hb. assert (HR' := HR). destruct HR' as (r & Hr & Hl).
  destruct (Hga c Hc) as (a0 & G0 & _). destruct (real_sig _ _ RD _ _ G0) as (r' & Er & Es). rewrite Hr in Er. injection Er as <-.
  destruct (Hb a0 G0) as [Hb1 Hb2]. unfold true_before, true_after in *. simpl in Hb1, Hb2. rewrite <- Es in *.
  apply (Hrec (ground (call_assignment (a_sig r) c) l) c l); auto.
  - apply (effects_In objs j snap); auto. split; [|auto]. apply Hw; [|assumption]. exists c, r, l; auto.
  - eapply real_lifts; eauto.
Qed.
End OneJoint.
End Ma.
