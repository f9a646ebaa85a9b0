(** * Conditional SAM against a real domain *)
From Verif Require Import PreludeProofs VocabProofs SamModel SamSpec SamProofs SamFinal LogicProofs DepProofs CondModel CondSpec CondProofs CondFinal.

Lemma all_or_some (P : literal -> Prop) : (forall x, P x \/ ~ P x) ->
  forall c, (forall x, In x c -> P x) \/ exists x, In x c /\ ~ P x.
Proof.
  intros D. induction c as [|x c IH]; [left; intros x []|]. destruct (D x) as [Hx|Hx]; [|right; exists x; simpl; auto].
  destruct IH as [H|(y & Hy & Hn)]; [left; intros z [<-|Hz]; auto|right; exists y; simpl; auto].
Qed.
Lemma split_list (P : literal -> Prop) : (forall x, P x \/ ~ P x) ->
  forall c, exists d, (forall x, In x d <-> In x c /\ ~ P x) /\ (NoDup c -> NoDup d) /\ length d <= length c.
Proof.
  intros D. induction c as [|x c (d & H1 & H2 & H3)].
  - exists []. simpl. split; [tauto|]. split; [auto|lia].
  - destruct (D x) as [Hx|Hx].
    + exists d. split; [|split].
      * intros y. rewrite H1. simpl. split; [tauto|]. intros [[->|?] ?]; tauto.
      * intros Hn. inversion Hn; subst. auto.
      * simpl; lia.
    + exists (x :: d). split; [|split].
      * intros y. simpl. rewrite H1. split; [intros [->|?]; tauto|tauto].
      * intros Hn. inversion Hn as [|? ? Hni Hr]; subst. constructor; [|auto]. rewrite H1. tauto.
      * simpl; lia.
Qed.

Lemma fires_dec rs s sg x : fires rs s sg x \/ ~ fires rs s sg x.
Proof.
  unfold fires. induction rs as [|r rs IH]; [right; intros (r & [] & _)|].
  destruct IH as [(r' & H1 & H2)|IH]; [left; exists r'; simpl; auto|].
  destruct (eq_dec (r_then r) x) as [E|E].
  - destruct (all_or_some (lit_at s sg) (fun y => lit_true_dec _ _) (r_when r)) as [H|(y & Hy & H)].
    + left; exists r; simpl; auto.
    + right. intros (r' & [<-|H1] & H2 & H3); [apply H, H3; assumption|apply IH; exists r'; auto].
  - right. intros (r' & [<-|H1] & H2 & H3); [contradiction|apply IH; exists r'; auto].
Qed.

Section Real.
Variables (dom : domain) (max : nat) (real : string -> option caction) (cps : list component) (n : string) (a0 : action) (q : caction).
Hypothesis W : wf_domain dom.
Hypothesis RC : real_conditional dom max real.
Hypothesis GH : good_history dom cps.
Hypothesis G0 : dict_get (d_actions dom) n = Some a0.
Hypothesis Hq : real n = Some q.
Notation sig := (a_sig a0).
(** The steps are real as far as the literals over the arguments of the call go. *)
Hypothesis RS : forall cp, about cps n cp ->
  (forall x, In x (q_pre q) -> true_before sig cp x) /\
  (forall l, mentionable dom sig l ->
     let g := ground (call_assignment sig (cp_call cp)) l in
     (holds (cp_next cp) (l_name g) (l_args g) <->
      c_after (q_rules q) (cp_prev cp) (call_assignment sig (cp_call cp)) (l_name g) (l_args g))).

Lemma q_sig_eq : q_sig q = sig.
Proof. destruct (rc_sig _ _ _ RC n a0 G0) as (q' & E & Es). congruence. Qed.
Lemma ab_binding cp : about cps n cp -> injective_binding dom sig (call_assignment sig (cp_call cp)).
Proof.
  intros [Hin Hn]. destruct (GH cp Hin) as ((b & Gb & Hlen) & Hp & Hc). rewrite Hn in Gb.
  eapply call_binding; eauto. congruence.
Qed.
Lemma fires_ment s sg l : fires (q_rules q) s sg l -> mentionable dom sig l.
Proof. intros (r & Hr & <- & _). rewrite <- q_sig_eq. eapply rc_then; eauto. Qed.
Lemma m_neg l : mentionable dom sig (neg_lit l) <-> mentionable dom sig l.
Proof. apply well_typed_neg. Qed.
Lemma g_inj sg l m : injective_binding dom sig sg -> mentionable dom sig l -> mentionable dom sig m -> ground sg l = ground sg m -> l = m.
Proof.
  intros [_ Hi] H1 H2. apply (ground_lit_injective sg (dict_keys sig ++ dict_keys (d_consts dom))); auto; apply mentionable_names; assumption.
Qed.
Lemma before_dec cp x : true_before sig cp x \/ ~ true_before sig cp x.
Proof. apply lit_true_dec. Qed.

(** The value of a literal after a real step. *)
Lemma fired_true cp l : about cps n cp -> fires (q_rules q) (cp_prev cp) (call_assignment sig (cp_call cp)) l -> true_after sig cp l.
Proof.
  intros Ha Hf. set (sg := call_assignment sig (cp_call cp)) in *. assert (Hb := ab_binding cp Ha). fold sg in Hb.
  assert (Hm := fires_ment _ _ _ Hf). destruct (RS cp Ha) as [Hpre Hres]. specialize (Hres l Hm). cbv zeta in Hres. fold sg in Hres.
  assert (Hc : ~ fires (q_rules q) (cp_prev cp) sg (neg_lit l)).
  { eapply rc_cons; eauto; [rewrite q_sig_eq; exact Hb]. }
  unfold true_after, lit_true. fold sg. change (l_pos (ground sg l)) with (l_pos l).
  destruct (l_pos l) eqn:Ep.
  - apply Hres. left. exists l. split; [exact Hf|]. unfold ground. rewrite Ep. reflexivity.
  - rewrite Hres. intros [(l' & Hf' & E)|[_ Hno]].
    + apply Hc. replace (neg_lit l) with l'; [assumption|]. apply (g_inj sg); [assumption|eapply fires_ment; eassumption|apply m_neg; assumption|].
      rewrite ground_neg. rewrite E. unfold neg_lit, ground; cbn [l_name l_args l_pos]. rewrite Ep. reflexivity.
    + apply Hno. exists l. split; [exact Hf|]. unfold ground. rewrite Ep. reflexivity.
Qed.
Lemma became_fired cp l : about cps n cp -> mentionable dom sig l -> became_true sig cp l ->
  fires (q_rules q) (cp_prev cp) (call_assignment sig (cp_call cp)) l.
Proof.
  intros Ha Hm [Hnb Hta]. set (sg := call_assignment sig (cp_call cp)) in *. assert (Hb := ab_binding cp Ha). fold sg in Hb.
  destruct (RS cp Ha) as [Hpre Hres]. specialize (Hres l Hm). cbv zeta in Hres. fold sg in Hres.
  unfold true_before, true_after, lit_true in *. fold sg in Hnb, Hta. change (l_pos (ground sg l)) with (l_pos l) in *.
  destruct (l_pos l) eqn:Ep.
  - apply Hres in Hta. destruct Hta as [(l' & Hf & E)|[Hh _]]; [|contradiction].
    replace l with l'; [assumption|]. apply (g_inj sg); [assumption|eapply fires_ment; eassumption|assumption|]. rewrite E. unfold ground. rewrite Ep. reflexivity.
  - assert (Hh : holds (cp_prev cp) (l_name (ground sg l)) (l_args (ground sg l))).
    { destruct (holds_dec (cp_prev cp) (l_name (ground sg l)) (l_args (ground sg l))); [assumption|contradiction]. }
    rewrite Hres in Hta.
    destruct (fires_dec (q_rules q) (cp_prev cp) sg l) as [H|H]; [assumption|].
    exfalso. apply Hta. right. split; [assumption|]. intros (l' & Hf & E). apply H.
    replace l with l'; [assumption|]. apply (g_inj sg); [assumption|eapply fires_ment; eassumption|assumption|]. rewrite E. unfold ground. rewrite Ep. reflexivity.
Qed.

Lemma real_pre_always l : (exists cp, about cps n cp) -> In l (q_pre q) -> always_before dom sig cps n l.
Proof.
  intros _ Hl. split; [rewrite <- q_sig_eq; eapply rc_pre; eauto|]. intros cp Ha. apply (RS cp Ha); assumption.
Qed.

(** The antecedents of a real rule account for every observation. *)
Lemma real_explains r : In r (q_rules q) -> explains sig cps n (r_then r) (r_when r).
Proof.
  intros Hr cp Ha. set (sg := call_assignment sig (cp_call cp)). split.
  - intros Hna. destruct (all_or_some (true_before sig cp) (before_dec cp) (r_when r)) as [H|H]; [|exact H].
    exfalso. apply Hna, fired_true; [assumption|]. exists r; auto.
  - intros Hb x Hx. destruct (became_fired cp (r_then r) Ha) as (r' & Hr' & E & Hw); [rewrite <- q_sig_eq; eapply rc_then; eauto|assumption|].
    apply Hw. apply (rc_one _ _ _ RC n q r r' Hq Hr Hr' (eq_sym E)). assumption.
Qed.
Lemma real_antecedents r : In r (q_rules q) -> r_when r <> [] -> antecedents dom sig max (r_when r).
Proof.
  intros Hr Hne. destruct (rc_size _ _ _ RC n q r Hq Hr) as [H1 H2]. split; [assumption|]. split.
  - intros x Hx. rewrite <- q_sig_eq. eapply rc_when; eauto.
  - destruct (r_when r); [congruence|simpl in *; lia].
Qed.

Variables (lb : lib) (inj : bool) (k : cact).
Hypothesis LC : learned_conditional lb dom inj max cps n a0 k.
Hypothesis Hex : exists cp, about cps n cp.

(** The antecedents without those that always held. *)
Lemma real_candidate r : In r (q_rules q) ->
  (forall x, In x (r_when r) -> always_before dom sig cps n x) \/
  exists c, candidate dom sig max cps n (r_then r) c /\ (forall x, In x c -> In x (r_when r)) /\
            (forall x, In x (r_when r) -> In x c \/ always_before dom sig cps n x).
Proof.
  intros Hr. destruct (split_list (always_before dom sig cps n) (lc_always _ _ _ _ _ _ _ _ LC) (r_when r)) as (d & H1 & H2 & H3).
  destruct (rc_size _ _ _ RC n q r Hq Hr) as [S1 S2].
  assert (Hrest : forall x, In x (r_when r) -> In x d \/ always_before dom sig cps n x).
  { intros x Hx. destruct (lc_always _ _ _ _ _ _ _ _ LC x); [auto|left; apply H1; auto]. }
  destruct d as [|y d'] eqn:Ed.
  - left. intros x Hx. destruct (Hrest x Hx) as [[]|H]; exact H.
  - right. exists (y :: d'). split; [|split; [intros x Hx; apply H1; assumption|exact Hrest]].
    split; [|split].
    + split; [auto|]. split; [|simpl in *; lia]. intros x Hx. apply H1 in Hx. rewrite <- q_sig_eq. eapply rc_when; eauto. tauto.
    + intros cp Ha. destruct (real_explains r Hr cp Ha) as [E1 E2]. split.
      * intros Hna. destruct (E1 Hna) as (x & Hx & Hf). exists x; split; [|assumption]. destruct (Hrest x Hx) as [?|Hal]; [assumption|].
        exfalso. apply Hf. apply Hal; assumption.
      * intros Hb x Hx. apply E2; [assumption|]. apply H1; assumption.
    + intros x Hx. apply H1; assumption.
Qed.

Lemma observed_rule l : observed_effect dom sig cps n l -> exists r, In r (q_rules q) /\ r_then r = l.
Proof.
  intros (Hm & cp & Ha & Hb). destruct (became_fired cp l Ha Hm Hb) as (r & Hr & E & _). eauto.
Qed.

(** If the antecedents always held, the literal became true whenever it was false, and only its negation can be blamed. *)
Lemma certain_negation l : mentionable dom sig l -> (forall cp, about cps n cp -> true_after sig cp l) -> 1 <= max ->
  ~ always_before dom sig cps n (neg_lit l) -> candidate dom sig max cps n l [neg_lit l].
Proof.
  intros Hm Hall Hmax Hna. split; [|split].
  - split; [constructor; [intros []|constructor]|]. split; [intros x [<-|[]]; apply m_neg; assumption|simpl; lia].
  - intros cp Ha. split; [intros Hn; exfalso; apply Hn, Hall; assumption|]. intros [Hb _] x [<-|[]].
    unfold true_before. rewrite ground_neg, lit_true_neg. exact Hb.
  - intros x [<-|[]]; assumption.
Qed.
Lemma certain_none l : (forall cp, about cps n cp -> true_after sig cp l) -> always_before dom sig cps n (neg_lit l) ->
  no_candidate dom sig max cps n l.
Proof.
  intros Hall [_ Hal] c (Hant & Hexp & Hd). destruct Hant as (_ & Hment & Hlen). destruct c as [|x c]; [simpl in Hlen; lia|].
  apply (Hd x (or_introl eq_refl)). split; [apply Hment; left; reflexivity|]. intros cp Ha. apply (Hexp cp Ha); [|left; reflexivity].
  split; [|auto]. specialize (Hal cp Ha). unfold true_before in *. rewrite ground_neg, lit_true_neg in Hal. exact Hal.
Qed.

Section State.
Variables (s : state) (sg : assignment).
Hypothesis Happ : k_applicable k s sg.

Lemma always_holds x : always_before dom sig cps n x -> lit_at s sg x.
Proof. apply (lc_pre _ _ _ _ _ _ _ _ LC); assumption. Qed.

Lemma rule_fires r : In r (q_rules q) ->
  ((forall x, In x (r_when r) -> always_before dom sig cps n x) \/
   exists c, candidate dom sig max cps n (r_then r) c /\ conj_holds (lit_at s sg) c /\
            (forall x, In x (r_when r) -> In x c \/ always_before dom sig cps n x)) -> fires (q_rules q) s sg (r_then r).
Proof.
  intros Hr H. exists r. split; [assumption|]. split; [reflexivity|]. intros x Hx. destruct H as [H|(c & _ & Hc & H)].
  - apply always_holds; auto.
  - destruct (H x Hx); [apply Hc; assumption|apply always_holds; assumption].
Qed.

(** Every learned effect is a real one. *)
Lemma learned_real l : fires (k_rules k) s sg l -> fires (q_rules q) s sg l.
Proof.
  intros Hf. apply (lc_fires _ _ _ _ _ _ _ _ LC) in Hf. destruct Hf as (Ho & Hna & Hc).
  destruct (observed_rule l Ho) as (r & Hr & E). rewrite <- E in *. apply rule_fires; [assumption|].
  destruct (real_candidate r Hr) as [H|(c & H1 & H2 & H3)]; [left; assumption|]. right. exists c. split; [assumption|]. split; [|assumption].
  destruct Hc as [Hc|[(d & Hd & Hh)|(_ & Hh & _)]].
  - exfalso. exact (Hc c H1).
  - intros x Hx. apply Hh. apply (proj2 Hd c H1). assumption.
  - apply Hh; assumption.
Qed.

Hypothesis Hmax : 1 <= max.
Hypothesis Hlib : lib_nested lb = false.
(** What the learner cannot rule out: a literal never seen to become true whose only explanation holds, and a
    restrictive effect that the compression of the certain effects removes. *)
Hypothesis H1 : forall l c, mentionable dom sig l -> ~ always_before dom sig cps n l -> ~ observed_effect dom sig cps n l ->
  only_candidate dom sig max cps n l c -> conj_holds (lit_at s sg) c -> lit_at s sg l.
Hypothesis H2 : forall l, mentionable dom sig l -> ~ always_before dom sig cps n l -> observed_effect dom sig cps n l ->
  several_candidates dom sig max cps n l -> (forall c, candidate dom sig max cps n l c -> conj_holds (lit_at s sg) c) ->
  lit_at s sg l \/ ~ exists l' c, observed_effect dom sig cps n l' /\ ~ always_before dom sig cps n l' /\ only_candidate dom sig max cps n l' c.

Lemma real_learned l : fires (q_rules q) s sg l -> lit_at s sg l \/ fires (k_rules k) s sg l.
Proof.
  intros Hf. assert (Hm := fires_ment _ _ _ Hf). destruct Hf as (r & Hr & E & Hw). subst l. set (l := r_then r) in *.
  destruct (lit_true_dec s (ground sg l)) as [Hl|Hl]; [left; exact Hl|right].
  destruct (lc_always _ _ _ _ _ _ _ _ LC l) as [Ha|Hna]; [exfalso; apply Hl, always_holds; assumption|].
  apply (lc_fires _ _ _ _ _ _ _ _ LC).
  destruct (proj1 (lc_applicable _ _ _ _ _ _ _ _ LC Hlib s sg) Happ) as (_ & _ & Happ').
  specialize (Happ' l Hm Hna).
  destruct (real_candidate r Hr) as [Hal|(c & C1 & C2 & C3)].
  - (* the antecedents always held *)
    assert (Hta : forall cp, about cps n cp -> true_after sig cp l).
    { intros cp Hcp. apply fired_true; [assumption|]. exists r. split; [assumption|]. split; [reflexivity|]. intros x Hx.
      apply (Hal x Hx); assumption. }
    assert (Ho : observed_effect dom sig cps n l).
    { destruct (lc_observed _ _ _ _ _ _ _ _ LC l) as [|Hno]; [assumption|]. exfalso. apply Hna. split; [assumption|]. intros cp Hcp.
      destruct (before_dec cp l) as [|Hb]; [assumption|]. exfalso. apply Hno. split; [assumption|]. exists cp. split; [assumption|]. split; auto. }
    split; [assumption|]. split; [assumption|].
    destruct (lc_always _ _ _ _ _ _ _ _ LC (neg_lit l)) as [Hn|Hn]; [left; apply certain_none; assumption|].
    assert (Hc := certain_negation l Hm Hta Hmax Hn).
    assert (Hneg : conj_holds (lit_at s sg) [neg_lit l]).
    { intros x [<-|[]]. unfold lit_at. rewrite ground_neg, lit_true_neg. exact Hl. }
    destruct (lc_cases _ _ _ _ _ _ _ _ LC l Hm Hna) as [Hno|[(d & Hd)|Hs]]; [left; assumption| |].
    + right; left. exists d. split; [assumption|]. intros x Hx. apply Hneg. apply (proj2 Hd _ Hc). assumption.
    + right; right. split; [assumption|]. destruct (Happ' Hs) as [H|[H|[_ H]]]; [contradiction|exfalso; exact (H _ Hc Hneg)|].
      split; [assumption|]. destruct (H2 l Hm Hna Ho Hs H) as [|H3]; [contradiction|assumption].
  - (* some antecedent is a candidate's *)
    assert (Hh : conj_holds (lit_at s sg) c) by (intros x Hx; apply Hw, C2; assumption).
    destruct (lc_cases _ _ _ _ _ _ _ _ LC l Hm Hna) as [Hno|[(d & Hd)|Hs]].
    + exfalso. exact (Hno c C1).
    + assert (Hdh : conj_holds (lit_at s sg) d) by (intros x Hx; apply Hh; apply (proj2 Hd c C1); assumption).
      destruct (lc_observed _ _ _ _ _ _ _ _ LC l) as [Ho|Hno]; [|exfalso; apply Hl; eapply H1; eassumption].
      split; [assumption|]. split; [assumption|]. right; left. exists d; auto.
    + destruct (Happ' Hs) as [H|[H|[Ho H]]]; [contradiction|exfalso; exact (H c C1 Hh)|].
      split; [assumption|]. split; [assumption|]. right; right. split; [assumption|]. split; [assumption|].
      destruct (H2 l Hm Hna Ho Hs H) as [|H3]; [contradiction|assumption].
Qed.

Hypothesis Hb : injective_binding dom sig sg.
Lemma same_successor p args : c_after (k_rules k) s sg p args <-> c_after (q_rules q) s sg p args.
Proof.
  assert (Hpos : forall l b, ground sg l = mkLit p args b -> (lit_at s sg l <-> if b then holds s p args else ~ holds s p args)).
  { intros l b E. unfold lit_at, lit_true. rewrite E. cbn [l_pos l_name l_args]. reflexivity. }
  split.
  - intros [(l & Hf & E)|[Hh Hno]]; [left; exists l; split; [apply learned_real; assumption|assumption]|].
    right. split; [assumption|]. intros (l & Hf & E). destruct (real_learned l Hf) as [Hl|Hl].
    + apply (Hpos l false E) in Hl. contradiction.
    + apply Hno; eauto.
  - intros [(l & Hf & E)|[Hh Hno]].
    + destruct (real_learned l Hf) as [Hl|Hl]; [|left; eauto]. apply (Hpos l true E) in Hl. right. split; [assumption|].
      intros (l2 & Hf2 & E2). apply learned_real in Hf2.
      assert (~ fires (q_rules q) s sg (neg_lit l)).
      { eapply rc_cons; eauto; [rewrite q_sig_eq; assumption|]. intros x Hx. apply always_holds, real_pre_always; assumption. }
      apply H. replace (neg_lit l) with l2; [assumption|]. apply (g_inj sg); [assumption|eapply fires_ment; eassumption|apply m_neg; eapply fires_ment; eassumption|].
      rewrite E2, ground_neg, E. reflexivity.
    + right. split; [assumption|]. intros (l & Hf & E). apply Hno. exists l. split; [apply learned_real; assumption|assumption].
Qed.
End State.
End Real.

(** ** Whole runs *)
Lemma steps_real dom max real cps n a0 q : real_conditional dom max real -> (forall cp, In cp cps -> real_step real cp) ->
  dict_get (d_actions dom) n = Some a0 -> real n = Some q -> forall cp, about cps n cp ->
  (forall x, In x (q_pre q) -> true_before (a_sig a0) cp x) /\
  (forall l, mentionable dom (a_sig a0) l ->
     let g := ground (call_assignment (a_sig a0) (cp_call cp)) l in
     (holds (cp_next cp) (l_name g) (l_args g) <->
      c_after (q_rules q) (cp_prev cp) (call_assignment (a_sig a0) (cp_call cp)) (l_name g) (l_args g))).
Proof.
  intros RC RS G Hq cp [Hin Hn]. destruct (RS cp Hin) as (q' & E & H). rewrite Hn, Hq in E. injection E as <-. cbv zeta in H.
  rewrite (q_sig_eq dom max real n a0 q RC G Hq) in H. split; [apply H|]. intros l _. cbv zeta. apply H.
Qed.
Theorem real_antecedents_kept dom inj max policy cps real n a0 q :
  wf_domain dom -> blank_domain dom -> real_conditional dom max real -> good_history dom cps ->
  (forall cp, In cp cps -> real_step real cp) -> dict_get (d_actions dom) n = Some a0 -> real n = Some q -> (exists cp, about cps n cp) ->
  exists C D, cond_observe dom max policy inj cps = Ok C /\ dict_get (c_deps C) n = Some D /\
    forall r, In r (q_rules q) -> r_when r <> [] ->
      exists cands c, dict_get (possible D) (r_then r) = Some cands /\ In c cands /\ same_sets (r_when r) c.
Proof.
  intros W B RC GH RS G Hq Hex. destruct (dependencies_exact dom inj max policy cps n a0 W B GH G Hex) as (C & D & E & ED & Hk & Hc).
  exists C, D. split; [exact E|]. split; [exact ED|]. intros r Hr Hne.
  assert (Hm : mentionable dom (a_sig a0) (r_then r)).
  { rewrite <- (q_sig_eq dom max real n a0 q RC G Hq). eapply rc_then; eauto. }
  apply Hk, dict_get_Some_iff in Hm. destruct Hm as (cands & Ec). exists cands.
  destruct (Hc _ _ Ec) as [_ Hone]. specialize (Hone (r_when r)).
  rewrite <- (q_sig_eq dom max real n a0 q RC G Hq) in Hone at 1.
  assert (Hl : length (filter (set_eqb (r_when r)) cands) = 1).
  { apply Hone.
    - rewrite (q_sig_eq dom max real n a0 q RC G Hq). eapply real_antecedents; eauto.
    - eapply (real_explains dom max real cps n a0 q); eauto. eapply steps_real; eauto. }
  destruct (filter (set_eqb (r_when r)) cands) as [|c rest] eqn:Ef; [discriminate|].
  assert (Hin : In c (filter (set_eqb (r_when r)) cands)) by (rewrite Ef; left; reflexivity). apply filter_In in Hin.
  exists c. split; [exact Ec|]. split; [tauto|]. exact (proj1 (set_eqb_iff _ _) (proj2 Hin)).
Qed.

Section Whole.
Variables (lb : lib) (dom : domain) (inj : bool) (max : nat) (policy : neg_policy) (cps : list component) (real : string -> option caction).
Hypothesis W : wf_domain dom.
Hypothesis B : blank_domain dom.
Hypothesis RC : real_conditional dom max real.
Hypothesis GH : good_history dom cps.
Hypothesis RS : forall cp, In cp cps -> real_step real cp.
Variables (ks : list (string * cact)) (n : string) (k : cact).
Hypothesis E : cond_learn lb dom max policy inj cps = Ok ks.
Hypothesis Hk : In (n, k) ks.

Lemma whole : exists a0 q, dict_get (d_actions dom) n = Some a0 /\ real n = Some q /\ q_sig q = a_sig a0 /\ (exists cp, about cps n cp) /\
  learned_conditional lb dom inj max cps n a0 k.
Proof.
  destruct (cond_learn_spec lb dom inj max policy cps W B GH) as (ks' & E' & _ & H1 & H2). rewrite E in E'. injection E' as <-.
  assert (Hex : exists cp, about cps n cp) by (apply H1; apply (in_map fst) in Hk; exact Hk).
  destruct Hex as (cp & Hcp). destruct (GH cp (proj1 Hcp)) as ((a0 & G & _) & _). rewrite (proj2 Hcp) in G.
  destruct (rc_sig _ _ _ RC n a0 G) as (q & Hq & Hs). exists a0, q. split; [assumption|]. split; [assumption|]. split; [assumption|]. split; [eauto|].
  apply H2; assumption.
Qed.

Lemma whole_pre q s sg : real n = Some q -> k_applicable k s sg -> forall x, In x (q_pre q) -> lit_at s sg x.
Proof.
  intros Hq Ha x Hx. destruct whole as (a0 & q' & G & Hq' & _ & Hex & LC). rewrite Hq in Hq'. injection Hq' as <-.
  eapply (lc_pre _ _ _ _ _ _ _ _ LC); [exact Ha|]. eapply real_pre_always; eauto. eapply steps_real; eauto.
Qed.
Lemma whole_sound q s sg l : real n = Some q -> k_applicable k s sg -> fires (k_rules k) s sg l -> fires (q_rules q) s sg l.
Proof.
  intros Hq Ha. destruct whole as (a0 & q' & G & Hq' & _ & Hex & LC). rewrite Hq in Hq'. injection Hq' as <-.
  eapply learned_real; eauto. eapply steps_real; eauto.
Qed.
Lemma whole_safe_state q s sg : 1 <= max -> lib_nested lb = false -> real n = Some q -> k_applicable k s sg ->
  injective_binding dom (q_sig q) sg ->
  (forall l c, mentionable dom (q_sig q) l -> ~ always_before dom (q_sig q) cps n l -> ~ observed_effect dom (q_sig q) cps n l ->
     only_candidate dom (q_sig q) max cps n l c -> conj_holds (lit_at s sg) c -> lit_at s sg l) ->
  (forall l, mentionable dom (q_sig q) l -> ~ always_before dom (q_sig q) cps n l -> observed_effect dom (q_sig q) cps n l ->
     several_candidates dom (q_sig q) max cps n l -> (forall c, candidate dom (q_sig q) max cps n l c -> conj_holds (lit_at s sg) c) ->
     lit_at s sg l \/ ~ exists l' c, observed_effect dom (q_sig q) cps n l' /\ ~ always_before dom (q_sig q) cps n l' /\ only_candidate dom (q_sig q) max cps n l' c) ->
  forall p args, c_after (k_rules k) s sg p args <-> c_after (q_rules q) s sg p args.
Proof.
  intros Hmax Hlib Hq Ha Hb H1 H2. destruct whole as (a0 & q' & G & Hq' & Hs & Hex & LC). rewrite Hq in Hq'. injection Hq' as <-.
  rewrite Hs in *. eapply same_successor; eauto. eapply steps_real; eauto.
Qed.
Lemma whole_safe q : 1 <= max -> lib_nested lb = false -> real n = Some q ->
  (forall l, ~ unseen_guess dom (q_sig q) max cps n l) -> (forall l, ~ lost_restriction dom (q_sig q) max cps n l) ->
  forall s sg, injective_binding dom (q_sig q) sg -> k_applicable k s sg ->
    (forall x, In x (q_pre q) -> lit_at s sg x) /\
    (forall p args, c_after (k_rules k) s sg p args <-> c_after (q_rules q) s sg p args).
Proof.
  intros Hmax Hlib Hq Hg Hr s sg Hb Ha. split; [apply whole_pre; assumption|].
  apply whole_safe_state; auto.
  - intros l c Hm Hna Hno Hc Hh. destruct (lit_true_dec s (ground sg l)) as [|Hl]; [assumption|]. exfalso. apply (Hg l).
    split; [assumption|]. split; [assumption|]. split; [assumption|]. exists c. split; [assumption|]. split.
    + intros Hin. apply Hl, Hh; assumption.
    + intros x Hx Hn. destruct whole as (a0 & q' & G & Hq' & Hs & Hex & LC). rewrite Hq in Hq'. injection Hq' as <-. rewrite Hs in *.
      assert (Hf := lc_pre _ _ _ _ _ _ _ _ LC s sg (neg_lit x) Ha Hn). unfold lit_at in Hf. rewrite ground_neg, lit_true_neg in Hf.
      apply Hf, Hh; assumption.
  - intros l Hm Hna Ho Hs _. right. intros Hx. apply (Hr l). split; [assumption|]. split; [assumption|]. split; [assumption|]. split; assumption.
Qed.
End Whole.
