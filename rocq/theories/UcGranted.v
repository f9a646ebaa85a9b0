(** * Conditional SAM: the literals among the conditions are the literals that always held *)
From Verif Require Import VocabProofs SamModel SamSpec SamProofs SamFinal LogicProofs DepProofs CondModel CondSpec CondProofs CondFinal UcForm PreludeProofs.

Lemma same_level_app (a b : list (form literal)) : same_level (a ++ b) = same_level a ++ same_level b.
Proof. induction a as [|[l|fs|fs] a IH]; cbn [app same_level]; [reflexivity|f_equal; exact IH|exact IH|exact IH]. Qed.
Lemma same_level_and fl (root fs : list (form literal)) x : In x (same_level (add_condition fl op_and root (f_and fs))) -> In x (same_level root) \/ In x (same_level fs).
Proof.
  unfold add_condition. destruct fl; rewrite same_level_app, in_app_iff; [auto|]. intros [H|[]]. auto.
Qed.
Lemma same_level_or fl (root fs : list (form literal)) x : In x (same_level (add_condition fl op_and root (f_or fs))) -> In x (same_level root).
Proof. unfold add_condition. rewrite same_level_app, in_app_iff. intros [H|[]]. exact H. Qed.
Lemma same_level_negated fl (cs : list (list literal)) (root : list (form literal)) x : In x (same_level (add_condition fl op_and root (negated_form fl cs))) ->
  In x (same_level root) \/ In [x] cs.
Proof.
  assert (Hdis : forall d : list literal, disjunction_form fl d = f_or (fold_left (fun ops l => add_condition fl op_or ops (f_lit l)) d [])) by reflexivity.
  assert (Hf : forall (ds : list (list literal)) ops, In x (same_level (fold_left (fun ops d => add_condition fl op_and ops
                 (match d with [x] => f_lit x | _ => disjunction_form fl d end)) ds ops)) -> In x (same_level ops) \/ In [x] ds).
  { induction ds as [|d ds IH]; intros ops Hin; [auto|]. cbn [fold_left] in Hin. apply IH in Hin. destruct Hin as [Hin|Hin]; [|right; right; assumption].
    destruct d as [|y [|z d]].
    - rewrite Hdis in Hin. apply same_level_or in Hin. auto.
    - unfold add_condition in Hin. rewrite same_level_app, in_app_iff in Hin. destruct Hin as [Hin|[<-|[]]]; [auto|right; left; reflexivity].
    - rewrite Hdis in Hin. apply same_level_or in Hin. auto. }
  assert (Hand : In x (same_level (add_condition fl op_and root (f_and (fold_left (fun ops d => add_condition fl op_and ops
                 (match d with [x] => f_lit x | _ => disjunction_form fl d end)) cs [])))) -> In x (same_level root) \/ In [x] cs).
  { intros Hin. apply same_level_and in Hin. destruct Hin as [Hin|Hin]; [auto|]. apply Hf in Hin. destruct Hin as [[]|Hin]. auto. }
  unfold negated_form. destruct cs as [|d [|e cs]]; [exact Hand| |].
  - destruct d as [|y [|z d]].
    + intros Hin. rewrite Hdis in Hin. apply same_level_or in Hin. auto.
    + intros Hin. unfold add_condition in Hin. rewrite same_level_app, in_app_iff in Hin. destruct Hin as [Hin|[<-|[]]]; [auto|right; left; reflexivity].
    + intros Hin. rewrite Hdis in Hin. apply same_level_or in Hin. auto.
  - destruct d as [|y [|z d]]; exact Hand.
Qed.

Lemma flip_lit l : flip l = neg_lit l. Proof. reflexivity. Qed.

Section Root.
Variables (dom : domain) (sig : signature) (max : nat) (cps : list component) (n : string).
Hypothesis Hnames : NoDup (map fst (sig ++ d_consts dom)).
Notation always := (always_before dom sig cps n).

Lemma about_dec (f : component -> Prop) : (forall cp, f cp \/ ~ f cp) -> (forall cp, about cps n cp -> f cp) \/ exists cp, about cps n cp /\ ~ f cp.
Proof.
  intros Hd. clear Hnames. unfold about. induction cps as [|cp l IH]; [left; intros cp [[] _]|].
  destruct IH as [IH|(c & [Hc Hn] & Hf)]; [|right; exists c; split; [split; [right; assumption|assumption]|assumption]].
  destruct (eq_dec (c_name (cp_call cp)) n) as [E|E]; [destruct (Hd cp) as [Hf|Hf]|].
  - left. intros c [[<-|Hc] Hn]; auto.
  - right. exists cp. split; [split; [left; reflexivity|assumption]|assumption].
  - left. intros c [[<-|Hc] Hn]; [contradiction|auto].
Qed.
Lemma before_truth cp : truth (mentionable dom sig) (true_before sig cp).
Proof.
  constructor; intros l _.
  - rewrite flip_lit. unfold true_before. rewrite ground_neg. apply lit_true_neg.
  - apply lit_true_dec.
Qed.

Section Step.
Variables (D : depset literal) (pre obs : list literal) (l : literal) (cands : list (list literal)).
Hypothesis PD : pruned dom sig max cps n D.
Hypothesis El : dict_get (possible D) l = Some cands.
Hypothesis Hpre : forall x, In x pre <-> always x.
Hypothesis Hobs : forall x, In x obs <-> observed_effect dom sig cps n x.

Lemma l_ment : mentionable dom sig l /\ ~ always l.
Proof. apply (pd_keys _ _ _ _ _ _ PD). eapply dict_get_key; eassumption. Qed.
Lemma cands_okm : ok_cands (mentionable dom sig) cands.
Proof.
  intros c Hc. destruct (pd_sound _ _ _ _ _ _ PD l cands c El Hc) as ((_ & Hm & Hlen) & _). split; [|assumption].
  destruct c; [simpl in Hlen; lia|discriminate].
Qed.
Lemma pre_okm x : In x pre -> mentionable dom sig x.
Proof. intros H. apply Hpre in H. apply H. Qed.
Lemma pre_holds cp : about cps n cp -> conj_holds (true_before sig cp) pre.
Proof. intros Ha x Hx. apply Hpre in Hx. apply Hx; assumption. Qed.
Lemma not_after_no_candidate cp : about cps n cp -> ~ true_after sig cp l -> ~ dnf_holds (true_before sig cp) cands.
Proof.
  intros Ha Hn (c & Hc & Hh). destruct (pd_sound _ _ _ _ _ _ PD l cands c El Hc) as (_ & He & _).
  destruct (proj1 (He cp Ha) Hn) as (x & Hx & Hf). apply Hf, Hh; assumption.
Qed.
(** The explanations of a literal can always be false together. *)
Lemma not_contradicting : exists h, truth (mentionable dom sig) h /\ conj_holds h pre /\ ~ dnf_holds h cands.
Proof.
  destruct (about_dec (fun cp => true_after sig cp l)) as [Hall|(cp & Ha & Hn)]; [intros cp; apply lit_true_dec| |].
  - destruct (about_dec (fun cp => true_before sig cp l)) as [Hb|(cp & Ha & Hn)]; [intros cp; apply lit_true_dec| |].
    + exfalso. apply (proj2 l_ment). split; [apply l_ment|assumption].
    + exists (fun x => In x pre \/ (~ In (neg_lit x) pre /\ ~ true_before sig cp x)).
      assert (Hno : forall x, In x pre -> In (neg_lit x) pre -> False).
      { intros x H1 H2. apply (pre_holds cp Ha) in H1, H2. unfold true_before in H2. rewrite ground_neg, lit_true_neg in H2. contradiction. }
      assert (Hd : forall x, In x pre \/ ~ In x pre) by (intros x; destruct (memb x pre) eqn:E; [left; apply memb_In|right; apply memb_nIn]; assumption).
      split; [|split; [intros x Hx; left; exact Hx|]].
      * constructor; intros x Hm.
        -- rewrite flip_lit, neg_neg. assert (Hf : true_before sig cp (neg_lit x) <-> ~ true_before sig cp x) by (unfold true_before; rewrite ground_neg; apply lit_true_neg).
           specialize (Hno x). destruct (Hd x), (Hd (neg_lit x)), (lit_true_dec (cp_prev cp) (ground (call_assignment sig (cp_call cp)) x)) as [Ht|Ht];
             fold (true_before sig cp x) in Ht; tauto.
        -- destruct (Hd x), (Hd (neg_lit x)), (lit_true_dec (cp_prev cp) (ground (call_assignment sig (cp_call cp)) x)) as [Ht|Ht];
             fold (true_before sig cp x) in Ht; tauto.
      * intros (c & Hc & Hh). destruct (pd_sound _ _ _ _ _ _ PD l cands c El Hc) as ((_ & _ & Hlen) & He & Hna).
        destruct c as [|y c]; [simpl in Hlen; lia|]. destruct (Hh y (or_introl eq_refl)) as [Hp|[_ Hf]].
        -- apply (Hna y (or_introl eq_refl)), Hpre. exact Hp.
        -- apply Hf. apply (proj2 (He cp Ha)); [split; [assumption|apply Hall; assumption]|left; reflexivity].
  - exists (true_before sig cp). split; [apply before_truth|]. split; [apply pre_holds; assumption|apply not_after_no_candidate; assumption].
Qed.

Lemma restrictive_root fl f root : construct_restrictive_preconditions fl D pre l (memb l obs) = Ok (Some f) ->
  forall x, In x (same_level (add_condition fl op_and root f)) -> In x (same_level root) \/ always x.
Proof.
  unfold construct_restrictive_preconditions. destruct (memb l pre); [discriminate|]. rewrite (dict_lookup_Some' _ _ _ El). cbn [bind].
  destruct (extract_negated_total (mentionable dom sig) (mentionable_lawful dom sig) cands pre cands_okm pre_okm) as (neg & En & Hn). rewrite En. cbn [bind]. cbv zeta.
  destruct neg as [| |cs].
  - discriminate.
  - exfalso. destruct not_contradicting as (h & T & Hp & Hd). exact (Hn h T Hp Hd).
  - destruct (memb l obs) eqn:Eo.
    + unfold handle_effect_literal. cbv zeta.
      match goal with |- context [post_process ?f] => destruct (post_process f) as [b|] end; cbn [bind]; [|discriminate].
      destruct b; intros H; [discriminate|]. injection H as <-. intros x Hx. left. eapply same_level_or; exact Hx.
    + destruct (memb (flip l) pre) eqn:Ef.
      * intros H. injection H as <-. intros x Hx. apply same_level_negated in Hx. destruct Hx as [Hx|Hx]; [left; assumption|right].
        destruct Hn as [Hokc Hiff]. split; [apply (Hokc [x] x Hx); left; reflexivity|]. intros cp Ha.
        assert (Hna : ~ true_after sig cp l).
        { intros Hta. apply memb_nIn in Eo. apply Eo, Hobs. split; [apply l_ment|]. exists cp. split; [assumption|]. split; [|assumption].
          apply memb_In, Hpre in Ef. destruct Ef as [_ Ef]. specialize (Ef cp Ha). rewrite flip_lit in Ef. unfold true_before in Ef. rewrite ground_neg, lit_true_neg in Ef. exact Ef. }
        assert (Hc := proj2 (Hiff (true_before sig cp) (before_truth cp) (pre_holds cp Ha)) (not_after_no_candidate cp Ha Hna)).
        destruct (Hc [x] Hx) as (y & [<-|[]] & Hy). exact Hy.
      * match goal with |- context [post_process ?f] => destruct (post_process f) as [b|] end; cbn [bind]; [|discriminate].
        destruct b; intros H; [discriminate|]. injection H as <-. intros x Hx. left. eapply same_level_or; exact Hx.
Qed.
End Step.

Lemma add_keeps fl (root : list (form literal)) f x : In x (same_level root) -> In x (same_level (add_condition fl op_and root f)).
Proof.
  intros Hx. unfold add_condition. destruct f; [|destruct fl|]; rewrite same_level_app, in_app_iff; left; assumption.
Qed.
Lemma verify_single_root lb (D : depset literal) obs k l k' e : lib_nested lb = false -> pruned dom sig max cps n D -> In l (dict_keys (possible D)) ->
  (forall x, In x obs <-> observed_effect dom sig cps n x) ->
  (forall x, In x (same_level (k_root k)) <-> always x) ->
  verify_single lb [] D obs k l = Ok (k', e) -> forall x, In x (same_level (k_root k')) <-> always x.
Proof.
  intros Hlib PD Hl Hobs Hk. apply dict_get_Some_iff in Hl. destruct Hl as (cands & E). unfold verify_single, is_safe_literal. rewrite (dict_lookup_Some' _ _ _ E). cbn [bind].
  destruct (length cands <=? 1); cbn [negb].
  - destruct (memb l obs); cbn [negb]; [|intros H; injection H as <- <-; assumption].
    unfold is_safe_conditional_effect. rewrite (dict_lookup_Some' _ _ _ E). cbn [bind].
    destruct (length cands =? 1); cbn [negb].
    + destruct (conditional_effect_data D l); cbn [bind]; [|discriminate]. intros H; injection H as <- <-; assumption.
    + unfold construct_simple_effect. destruct (memb l []); intros H; injection H as <- <-; assumption.
  - unfold cond_restrictive_preconditions.
    destruct (construct_restrictive_preconditions (lib_flatten lb) D (precondition_literals lb k) l (memb l obs)) as [r|] eqn:Er; cbn [bind]; [|discriminate].
    assert (Hpl : forall x, In x (precondition_literals lb k) <-> always x).
    { intros x. unfold precondition_literals. rewrite Hlib, to_set_In. apply Hk. }
    assert (Hr1 : forall x, In x (same_level (k_root (match r with
             | None => k
             | Some f => mkCact (k_name k) (k_sig k) (add_condition (lib_flatten lb) op_and (k_root k) f) (k_ineq k) (k_eff k) (k_cond k) end))) <-> always x).
    { destruct r as [f|]; [|assumption]. cbn [k_root]. intros x. split.
      - intros Hx. destruct (restrictive_root D _ obs l cands PD E Hpl Hobs (lib_flatten lb) f (k_root k) Er x Hx) as [H|H]; [apply Hk; assumption|assumption].
      - intros Hx. apply add_keeps, Hk. assumption. }
    destruct (memb l obs); cbn [negb]; [|intros H; injection H as <- <-; exact Hr1].
    destruct (restrictive_effect D l); cbn [bind]; [|discriminate]. intros H; injection H as <- <-. exact Hr1.
Qed.
Lemma verify_loop_root lb (D : depset literal) obs : lib_nested lb = false -> pruned dom sig max cps n D ->
  (forall x, In x obs <-> observed_effect dom sig cps n x) ->
  forall rest k effs k' effs', (forall l, In l rest -> In l (dict_keys (possible D))) -> (forall x, In x (same_level (k_root k)) <-> always x) ->
  fold_res (fun acc l =>
        let '(k, effs) := acc in
        let* (k', e) := verify_single lb [] D obs k l in
        Ok (k', match e with Some e => effs ++ [e] | None => effs end)) rest (k, effs) = Ok (k', effs') ->
  forall x, In x (same_level (k_root k')) <-> always x.
Proof.
  intros Hlib PD Hobs. induction rest as [|l rest IH]; intros k effs k' effs' Hr Hk H.
  - cbn [fold_res] in H. injection H as <- <-. assumption.
  - cbn [fold_res] in H. destruct (verify_single lb [] D obs k l) as [[k1 e]|] eqn:E1; cbn [bind] in H; [|discriminate].
    apply (IH k1 (match e with Some e => effs ++ [e] | None => effs end) k' effs'); [intros x Hx; apply Hr; right; assumption| |exact H].
    eapply verify_single_root; try eassumption. apply Hr; left; reflexivity.
Qed.
End Root.

Theorem construct_root_literals lb dom inj max cps C n a0 k : lib_nested lb = false -> wf_domain dom -> cond_inv dom inj max cps C ->
  dict_get (d_actions dom) n = Some a0 -> (exists cp, about cps n cp) -> construct_safe_action lb C n = Ok (n, k) ->
  forall x, In x (same_level (k_root k)) <-> always_before dom (a_sig a0) cps n x.
Proof.
  intros Hlib W I G Hex. destruct (cv_act _ _ _ _ _ I n a0 G) as (a & Ga & Ia). destruct (cv_deps _ _ _ _ _ I n a0 G Hex) as (D & ED & HD).
  destruct (cv_obs _ _ _ _ _ I n a0 G) as (obs & EO & HO).
  assert (Ecbe : dict_get (s_cbe (c_sam C)) n = Some []) by (apply (cv_cbe _ _ _ _ _ I); apply dict_get_Some_iff; eauto).
  unfold construct_safe_action. rewrite (dict_lookup_Some _ _ _ Ga). cbn [bind]. rewrite (ci_name _ _ _ _ _ _ Ia).
  rewrite (dict_lookup_Some _ _ _ ED). cbn [bind]. rewrite (dict_lookup_Some _ _ _ EO). cbn [bind].
  rewrite (dict_lookup_Some _ _ _ Ecbe). cbn [bind]. cbv zeta.
  assert (Esl : same_level (k_root (cact_of a)) = a_pre a).
  { unfold cact_of; cbn [k_root]. induction (a_pre a) as [|x l IH]; simpl; [reflexivity|]. f_equal; exact IH. }
  assert (Epl : precondition_literals lb (cact_of a) = to_set (a_pre a)).
  { unfold precondition_literals. rewrite Hlib, Esl. reflexivity. }
  assert (Hpre : forall l, In l (to_set (a_pre a)) <-> always_before dom (a_sig a0) cps n l).
  { intros l. rewrite to_set_In, (ci_pre _ _ _ _ _ _ Ia). tauto. }
  rewrite Epl. set (D1 := remove_preconditions_literals D (to_set (a_pre a))).
  assert (Hnames := sig_names dom n a0 W G).
  assert (PD : pruned dom (a_sig a0) max cps n D1) by (apply prune; [exact Hnames|exact HD|apply to_set_NoDup|exact Hpre]).
  unfold verify_and_construct.
  match goal with |- context [fold_res ?f ?l ?x] => destruct (fold_res f l x) as [[k1 effs]|] eqn:E1 end; cbn [bind]; [|discriminate].
  intros H. assert (Hk1 : forall x, In x (same_level (k_root k1)) <-> always_before dom (a_sig a0) cps n x).
  { eapply (verify_loop_root dom (a_sig a0) max cps n lb D1 obs Hlib PD HO); [| |exact E1]; [auto|].
    intros x. rewrite Esl, <- Hpre. symmetry. apply to_set_In. }
  destruct effs; injection H as <-; exact Hk1.
Qed.
