(** * Conditional SAM: the conditions only mention the vocabulary of the action *)
From Verif Require Import VocabProofs SamModel SamSpec SamProofs SamFinal LogicProofs DepProofs CondModel CondSpec CondProofs CondFinal PreludeProofs.

Definition form_ok (ok : literal -> Prop) (f : form literal) : Prop := forall l, In l (form_literals f) -> ok l.
Definition forms_ok (ok : literal -> Prop) (fs : list (form literal)) : Prop := forall f, In f fs -> form_ok ok f.

Lemma form_literals_and fs : form_literals (f_and fs) = flat_map form_literals fs.
Proof. induction fs as [|f fs IH]; [reflexivity|]. cbn [flat_map]. rewrite <- IH. reflexivity. Qed.
Lemma form_literals_or fs : form_literals (f_or fs) = flat_map form_literals fs.
Proof. induction fs as [|f fs IH]; [reflexivity|]. cbn [flat_map]. rewrite <- IH. reflexivity. Qed.
Lemma forms_flat ok fs : forms_ok ok fs <-> forall l, In l (flat_map form_literals fs) -> ok l.
Proof.
  split.
  - intros H l Hl. apply in_flat_map in Hl. destruct Hl as (f & Hf & Hl). exact (H f Hf l Hl).
  - intros H f Hf l Hl. apply H, in_flat_map. exists f; auto.
Qed.
Lemma form_ok_and ok fs : form_ok ok (f_and fs) <-> forms_ok ok fs.
Proof. unfold form_ok. rewrite form_literals_and. symmetry; apply forms_flat. Qed.
Lemma form_ok_or ok fs : form_ok ok (f_or fs) <-> forms_ok ok fs.
Proof. unfold form_ok. rewrite form_literals_or. symmetry; apply forms_flat. Qed.
Lemma form_ok_lit ok l : form_ok ok (f_lit l) <-> ok l.
Proof. unfold form_ok; cbn [form_literals]. split; [intros H; apply H; left; reflexivity|intros H x [<-|[]]; assumption]. Qed.

Lemma add_forms_ok ok fl o ops f : forms_ok ok ops -> form_ok ok f -> forms_ok ok (add_condition fl o ops f).
Proof.
  intros Ho Hf. assert (Hplain : forms_ok ok (ops ++ [f])).
  { intros g Hg. apply in_app_iff in Hg. destruct Hg as [Hg|[<-|[]]]; auto. }
  assert (Happ : forall fs, forms_ok ok fs -> forms_ok ok (ops ++ fs)).
  { intros fs Hfs g Hg. apply in_app_iff in Hg. destruct Hg; auto. }
  unfold add_condition. destruct o, f as [l|fs|fs]; try assumption.
  - destruct fl; [apply Happ, form_ok_and; assumption|assumption].
  - destruct fl; [apply Happ, form_ok_or; assumption|assumption].
Qed.
Lemma add_fold_ok ok fl o {B} (g : B -> form literal) (ls : list B) : forall ops, forms_ok ok ops -> (forall l, In l ls -> form_ok ok (g l)) ->
  forms_ok ok (fold_left (fun ops l => add_condition fl o ops (g l)) ls ops).
Proof.
  induction ls as [|l ls IH]; intros ops Ho Hl; [assumption|]. cbn [fold_left]. apply IH.
  - apply add_forms_ok; [assumption|apply Hl; left; reflexivity].
  - intros x Hx; apply Hl; right; assumption.
Qed.
Lemma forms_ok_nil ok : forms_ok ok [].
Proof. intros f []. Qed.

Lemma forms_ok_cons ok f fs : form_ok ok f -> forms_ok ok fs -> forms_ok ok (f :: fs).
Proof. intros H1 H2 g [<-|Hg]; auto. Qed.

Lemma disjunction_ok (ok : literal -> Prop) fl d : (forall x, In x d -> ok x) -> form_ok ok (disjunction_form fl d).
Proof.
  intros H. unfold disjunction_form. apply form_ok_or. apply (add_fold_ok ok fl op_or f_lit); [apply forms_ok_nil|].
  intros l Hl. apply form_ok_lit; auto.
Qed.
Lemma conjunction_ok (ok : literal -> Prop) fl c : (forall x, In x c -> ok x) -> form_ok ok (conjunction_form fl c).
Proof.
  intros H. unfold conjunction_form. apply form_ok_and. apply (add_fold_ok ok fl op_and f_lit); [apply forms_ok_nil|].
  intros l Hl. apply form_ok_lit; auto.
Qed.
Lemma negated_ok (ok : literal -> Prop) fl cs : ok_cnf ok cs -> form_ok ok (negated_form fl cs).
Proof.
  intros H.
  assert (Hc : forall d, In d cs -> form_ok ok (match d with [x] => f_lit x | _ => disjunction_form fl d end)).
  { intros d Hd. assert (Hd' : form_ok ok (disjunction_form fl d)) by (apply disjunction_ok; intros x Hx; exact (H d x Hd Hx)).
    destruct d as [|x [|y d]]; [assumption| |assumption]. apply form_ok_lit. apply (H [x] x Hd). left; reflexivity. }
  assert (Hand : form_ok ok (f_and (fold_left (fun ops d =>
                  add_condition fl op_and ops (match d with [x] => f_lit x | _ => disjunction_form fl d end)) cs []))).
  { apply form_ok_and. apply (add_fold_ok ok fl op_and (fun d => match d with [x] => f_lit x | _ => disjunction_form fl d end)); [apply forms_ok_nil|assumption]. }
  unfold negated_form. destruct cs as [|d [|e cs]]; [exact Hand| |].
  - specialize (Hc d (or_introl eq_refl)). destruct d as [|x [|y d]]; exact Hc.
  - destruct d as [|x [|y d]]; exact Hand.
Qed.

Ltac ok_forms :=
  match goal with
  | |- forms_ok _ [] => apply forms_ok_nil
  | |- forms_ok _ (_ :: _) => apply forms_ok_cons; ok_forms
  | |- forms_ok _ (add_condition _ _ _ _) => apply add_forms_ok; ok_forms
  | |- form_ok _ (f_lit _) => apply form_ok_lit; assumption
  | |- form_ok _ (conjunction_form _ _) => apply conjunction_ok; assumption
  | |- _ => assumption
  end.

Section Lawful.
Variable ok : literal -> Prop.
Hypothesis LW : lawful ok.

Lemma restrictive_ok fl (D : depset literal) pre l is_effect cands r :
  dict_get (possible D) l = Some cands -> ok_cands ok cands -> ok l -> (forall x, In x pre -> ok x) ->
  construct_restrictive_preconditions fl D pre l is_effect = Ok r -> match r with Some f => form_ok ok f | None => True end.
Proof.
  intros E Hc Hl Hp. unfold construct_restrictive_preconditions. destruct (memb l pre); [intros H; injection H as <-; exact I|].
  rewrite (dict_lookup_Some' _ _ _ E). cbn [bind].
  destruct (extract_negated_total ok LW cands pre Hc Hp) as (neg & En & Hn). rewrite En. cbn [bind]. cbv zeta. fold (all_antecedents cands).
  assert (Hall : forall x, In x (all_antecedents cands) -> ok x).
  { intros x Hx. apply all_antecedents_In in Hx. destruct Hx as (c & Hin & Hx). exact (proj2 (Hc c Hin) x Hx). }
  destruct neg as [| |cs].
  - intros H; injection H as <-; exact I.
  - unfold handle_contradicting. destruct is_effect.
    + destruct (check_complementary_literals (all_antecedents cands)) as [b|]; cbn [bind]; [|discriminate].
      destruct b; cbn [bind]; intros H; injection H as <-.
      * apply form_ok_lit; assumption.
      * apply form_ok_or. ok_forms.
    + cbn [bind]. intros H; injection H as <-. apply form_ok_lit; assumption.
  - assert (Hnf : form_ok ok (negated_form fl cs)) by (apply negated_ok, Hn).
    destruct is_effect.
    + unfold handle_effect_literal. cbv zeta.
      match goal with |- context [post_process (f_or ?ops)] => assert (Hops : forms_ok ok ops) end.
      { destruct (memb (flip l) pre).
        - ok_forms.
        - ok_forms. }
      match goal with |- context [post_process ?f] => destruct (post_process f) as [b|] end; cbn [bind]; [|discriminate].
      destruct b; intros H; injection H as <-; [exact I|]. apply form_ok_or; assumption.
    + destruct (memb (flip l) pre); [intros H; injection H as <-; assumption|].
      match goal with |- context [post_process (f_or ?ops)] => assert (Hops : forms_ok ok ops) end.
      { ok_forms. }
      match goal with |- context [post_process ?f] => destruct (post_process f) as [b|] end; cbn [bind]; [|discriminate].
      destruct b; intros H; injection H as <-; [exact I|]. apply form_ok_or; assumption.
Qed.

Lemma same_level_ok fs : forms_ok ok fs -> forall l, In l (same_level fs) -> ok l.
Proof.
  induction fs as [|[y|gs|gs] fs IH]; intros H l Hl; cbn [same_level] in Hl; [destruct Hl| | |].
  - destruct Hl as [<-|Hl]; [apply (proj1 (form_ok_lit ok y)), (H (f_lit y)); left; reflexivity|].
    apply IH; [intros f Hf; apply H; right; assumption|assumption].
  - apply IH; [intros f Hf; apply H; right; assumption|assumption].
  - apply IH; [intros f Hf; apply H; right; assumption|assumption].
Qed.
Lemma precondition_literals_ok lb k : forms_ok ok (k_root k) -> forall l, In l (precondition_literals lb k) -> ok l.
Proof.
  intros H l Hl. unfold precondition_literals in Hl. apply (proj1 (to_set_In _ _)) in Hl. destruct (lib_nested lb).
  - apply (proj1 (forms_flat ok _) H); assumption.
  - apply same_level_ok with (fs := k_root k); assumption.
Qed.

(** The loop over the literals keeps the conditions inside the vocabulary. *)
Lemma verify_single_ok lb (D : depset literal) obs k l cands k' e :
  dict_get (possible D) l = Some cands -> ok_cands ok cands -> ok l -> forms_ok ok (k_root k) ->
  verify_single lb [] D obs k l = Ok (k', e) -> forms_ok ok (k_root k').
Proof.
  intros E Hc Hl Hk. unfold verify_single, is_safe_literal. rewrite (dict_lookup_Some' _ _ _ E). cbn [bind].
  destruct (length cands <=? 1); cbn [negb].
  - destruct (memb l obs); cbn [negb]; [|intros H; injection H as <- <-; assumption].
    unfold is_safe_conditional_effect. rewrite (dict_lookup_Some' _ _ _ E). cbn [bind].
    destruct (length cands =? 1); cbn [negb].
    + destruct (conditional_effect_data D l); cbn [bind]; [|discriminate]. intros H; injection H as <- <-; assumption.
    + unfold construct_simple_effect. destruct (memb l []); intros H; injection H as <- <-; assumption.
  - unfold cond_restrictive_preconditions.
    destruct (construct_restrictive_preconditions (lib_flatten lb) D (precondition_literals lb k) l (memb l obs)) as [r|] eqn:Er; cbn [bind]; [|discriminate].
    assert (Hr := restrictive_ok (lib_flatten lb) D _ l (memb l obs) cands r E Hc Hl (precondition_literals_ok lb k Hk) Er).
    assert (Hr1 : forms_ok ok (k_root (match r with
             | None => k
             | Some f => mkCact (k_name k) (k_sig k) (add_condition (lib_flatten lb) op_and (k_root k) f) (k_ineq k) (k_eff k) (k_cond k) end))).
    { destruct r as [f|]; [|assumption]. cbn [k_root]. apply add_forms_ok; assumption. }
    destruct (memb l obs); cbn [negb]; [|intros H; injection H as <- <-; exact Hr1].
    destruct (restrictive_effect D l); cbn [bind]; [|discriminate]. intros H; injection H as <- <-. exact Hr1.
Qed.
Lemma verify_loop_ok lb (D : depset literal) obs : (forall l cands, dict_get (possible D) l = Some cands -> ok l /\ ok_cands ok cands) ->
  forall rest k effs k' effs', (forall l, In l rest -> In l (dict_keys (possible D))) -> forms_ok ok (k_root k) ->
  fold_res (fun acc l =>
        let '(k, effs) := acc in
        let* (k', e) := verify_single lb [] D obs k l in
        Ok (k', match e with Some e => effs ++ [e] | None => effs end)) rest (k, effs) = Ok (k', effs') -> forms_ok ok (k_root k').
Proof.
  intros HD. induction rest as [|l rest IH]; intros k effs k' effs' Hr Hk H.
  - cbn [fold_res] in H. injection H as <- <-. assumption.
  - cbn [fold_res] in H. destruct (verify_single lb [] D obs k l) as [[k1 e]|] eqn:E1; cbn [bind] in H; [|discriminate].
    assert (Hl := Hr l (or_introl eq_refl)). apply dict_get_Some_iff in Hl. destruct Hl as (cands & Ec). destruct (HD l cands Ec) as [Hl Hc].
    apply (IH k1 (match e with Some e => effs ++ [e] | None => effs end) k' effs'); [intros x Hx; apply Hr; right; assumption| |exact H].
    eapply verify_single_ok; eassumption.
Qed.
End Lawful.

Lemma mentionable_lawful dom sig : lawful (mentionable dom sig).
Proof.
  constructor; intros [n a p] Hm; unfold flip, starts_not, literal_search; cbn [literal_lits copy_lit l_name l_args l_pos];
    try (destruct p; reflexivity). exact Hm.
Qed.

Theorem construct_root lb dom inj max cps C n a0 k : wf_domain dom -> cond_inv dom inj max cps C -> dict_get (d_actions dom) n = Some a0 ->
  (exists cp, about cps n cp) -> construct_safe_action lb C n = Ok (n, k) -> forms_ok (mentionable dom (a_sig a0)) (k_root k).
Proof.
  intros W I G Hex. destruct (cv_act _ _ _ _ _ I n a0 G) as (a & Ga & Ia). destruct (cv_deps _ _ _ _ _ I n a0 G Hex) as (D & ED & HD).
  destruct (cv_obs _ _ _ _ _ I n a0 G) as (obs & EO & HO).
  assert (Ecbe : dict_get (s_cbe (c_sam C)) n = Some []) by (apply (cv_cbe _ _ _ _ _ I); apply dict_get_Some_iff; eauto).
  unfold construct_safe_action. rewrite (dict_lookup_Some _ _ _ Ga). cbn [bind]. rewrite (ci_name _ _ _ _ _ _ Ia).
  rewrite (dict_lookup_Some _ _ _ ED). cbn [bind]. rewrite (dict_lookup_Some _ _ _ EO). cbn [bind].
  rewrite (dict_lookup_Some _ _ _ Ecbe). cbn [bind]. cbv zeta.
  assert (Epl : precondition_literals lb (cact_of a) = to_set (a_pre a)).
  { unfold precondition_literals, cact_of; cbn [k_root]. f_equal. destruct (lib_nested lb).
    - induction (a_pre a) as [|x l IH]; simpl; [reflexivity|]. f_equal; exact IH.
    - induction (a_pre a) as [|x l IH]; simpl; [reflexivity|]. f_equal; exact IH. }
  assert (Hpre : forall l, In l (to_set (a_pre a)) <-> always_before dom (a_sig a0) cps n l).
  { intros l. rewrite to_set_In, (ci_pre _ _ _ _ _ _ Ia). tauto. }
  rewrite Epl. set (D1 := remove_preconditions_literals D (to_set (a_pre a))).
  assert (Hnames := sig_names dom n a0 W G).
  assert (PD : pruned dom (a_sig a0) max cps n D1) by (apply prune; [exact Hnames|exact HD|apply to_set_NoDup|exact Hpre]).
  unfold verify_and_construct.
  match goal with |- context [fold_res ?f ?l ?x] => destruct (fold_res f l x) as [[k1 effs]|] eqn:E1 end; cbn [bind]; [|discriminate].
  intros H. assert (Hk1 : forms_ok (mentionable dom (a_sig a0)) (k_root k1)).
  { eapply (verify_loop_ok (mentionable dom (a_sig a0)) (mentionable_lawful dom (a_sig a0)) lb D1 obs); [| | |exact E1].
    - intros l cands Ec. split; [apply (pd_keys _ _ _ _ _ _ PD); eapply dict_get_key; eassumption|].
      intros c Hc. destruct (pd_sound _ _ _ _ _ _ PD l cands c Ec Hc) as ((_ & Hm & Hlen) & _). split; [|assumption].
      destruct c; [simpl in Hlen; lia|discriminate].
    - auto.
    - unfold cact_of; cbn [k_root]. intros f Hf. apply in_map_iff in Hf. destruct Hf as (l & <- & Hl). apply form_ok_lit.
      apply (proj2 (to_set_In _ _)), Hpre in Hl. exact (proj1 Hl). }
  destruct effs; injection H as <-; exact Hk1.
Qed.
