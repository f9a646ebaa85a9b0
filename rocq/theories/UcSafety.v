(** * Quantified learning against a real domain *)
From Verif Require Import VocabProofs SamModel SamSpec SamProofs SamFinal LogicProofs DepProofs CondModel CondSpec CondProofs CondFinal CondSafety TextProofs UcModel UcSpec UcLift UcStep UcProofs UcInv UcForm UcFinal UcLearn PreludeProofs.

Lemma fires_ext rs s sg sg' l : (forall y, sg y = sg' y) -> fires rs s sg l -> fires rs s sg' l.
Proof.
  intros E (r & Hr & El & Hw). exists r. split; [assumption|]. split; [assumption|]. intros y Hy. specialize (Hw y Hy).
  unfold lit_at in *. replace (ground sg' y) with (ground sg y); [assumption|]. unfold ground. f_equal. apply map_ext. exact E.
Qed.
Lemma ment_args dom sig l y : d_consts dom = [] -> mentionable dom sig l -> In y (l_args l) -> In y (dict_keys sig).
Proof.
  intros Hc (psig & objs & _ & Hi & _ & Ea & _) Hy. rewrite Ea in Hy. apply in_map_iff in Hy. destruct Hy as (o & <- & Ho).
  apply Hi in Ho. rewrite Hc, app_nil_r in Ho. apply (in_map fst) in Ho. exact Ho.
Qed.

Section Real.
Variables (dom : domain) (types : list (string * ptype)) (umap : list (string * list string)) (max : nat) (real : string -> option uaction) (h : list entry).
Hypothesis W : wf_domain dom.
Hypothesis RU : real_universal dom types max real.
Hypothesis GU : good_universal dom types umap h.
Hypothesis RS : forall e, In e h -> real_universal_step real e.
Hypothesis TOLD : told dom umap real.
Variables (n : string) (a0 : action) (w : uaction) (names : list string).
Hypothesis G0 : dict_get (d_actions dom) n = Some a0.
Hypothesis Hw : real n = Some w.
Hypothesis Hnames : dict_get umap n = Some names.
Notation sig := (a_sig a0).

Lemma w_sig : q_sig (w_base w) = sig.
Proof.
  destruct (rc_sig _ _ _ (ru_base _ _ _ _ RU) n a0 G0) as (q & E & Es). cbv beta in E. rewrite Hw in E. cbn [option_map] in E. congruence.
Qed.
Lemma w_fresh tn t : In (tn, t) types -> create_additional_parameter_name (dict_keys sig) tn = Ok (w_param w tn) /\ ~ In (w_param w tn) (dict_keys sig).
Proof.
  intros Ht. assert (E := ru_name _ _ _ _ RU n w tn t Hw Ht). rewrite w_sig in E. split; [exact E|].
  destruct tn as [|c rest]; [discriminate E|]. destruct (xname_spec sig (String c rest)) as (E' & Hf & _); [discriminate|].
  rewrite E in E'. injection E' as ->. exact Hf.
Qed.
Lemma told_types tn : In tn (dict_keys types) <-> exists t, In (tn, t) types.
Proof.
  split.
  - intros Hin. apply in_map_iff in Hin. destruct Hin as ([tn' t] & <- & Hin). exists t; exact Hin.
  - intros (t & Hin). apply (in_map fst) in Hin. exact Hin.
Qed.

(** ** Entries about the action *)
Section Entry.
Variable e : entry.
Hypothesis He : In e h.
Hypothesis Hn : c_name (entry_call e) = n.
Notation c := (entry_call e).
Let sg := call_assignment sig c.

Lemma en_len : length (c_params c) = length sig.
Proof. destruct (gu_arity _ _ _ _ GU e He) as (a & G & Hl). rewrite Hn in G. congruence. Qed.
Lemma en_sig : NoDup (dict_keys sig).
Proof. assert (G := G0). apply dict_get_In in G. exact (wf_sigs _ W _ _ G). Qed.
Lemma en_param y : In y (dict_keys sig) -> In (sg y) (c_params c).
Proof. intros Hy. apply (call_assignment_param sig c) in Hy; [|apply en_sig|apply en_len]. eapply in_combine_l; eassumption. Qed.
Lemma en_real : (forall l, In l (q_pre (w_base w)) -> lit_at (cp_prev (snd e)) sg l) /\ consistent w (fst e) (cp_prev (snd e)) sg /\
  (forall p args, holds (cp_next (snd e)) p args <-> u_after w (fst e) (cp_prev (snd e)) sg p args).
Proof.
  destruct (RS e He) as (w' & Ew & H). cbv zeta in H. rewrite Hn, Hw in Ew. injection Ew as <-. rewrite w_sig in H. exact H.
Qed.
Lemma en_noconst : no_constant_args dom c.
Proof. intros y _. rewrite (gu_consts _ _ _ _ GU). intros []. Qed.
Lemma en_bind : injective_binding dom sig sg.
Proof.
  apply (call_binding dom n a0 (snd e)); [assumption|assumption|exact en_len|exact (gu_distinct _ _ _ _ GU e He)|exact en_noconst].
Qed.
Lemma en_inj y z : In y (dict_keys sig) -> In z (dict_keys sig) -> sg y = sg z -> y = z.
Proof. intros Hy Hz. apply (ib_inj _ _ _ en_bind); apply in_app_iff; left; assumption. Qed.
Lemma combine_types {A B C} (ps : list A) : forall (l : list (B * C)) p y, In (p, y) (combine ps (map fst l)) ->
  exists ty, In (y, ty) l /\ In (p, ty) (combine ps (map snd l)).
Proof.
  induction ps as [|p0 ps IH]; intros [|[y0 t0] l] p y Hin; try destruct Hin.
  - injection H as <- <-. exists t0. split; left; reflexivity.
  - destruct (IH l p y H) as (ty & H1 & H2). exists ty. split; right; assumption.
Qed.

(** A quantified rule of the real action does not touch the literals over the arguments. *)
Lemma quantified_outside o t l y : In (o, t) (fst e) -> In y (dict_keys sig) ->
  fires (w_rules w (t_name t)) (cp_prev (snd e)) (bind_to sg (w_param w (t_name t)) o) l -> sg y <> o.
Proof.
  intros Ho Hy (r & Hr & _) E.
  assert (Hne : w_rules w (t_name t) <> []) by (destruct (w_rules w (t_name t)); [destruct Hr|discriminate]).
  destruct (TOLD n w (t_name t) Hw Hne) as [_ Hsep]. rewrite w_sig in Hsep.
  apply (call_assignment_param sig c) in Hy; [|apply en_sig|apply en_len].
  apply combine_types in Hy. destruct Hy as (ty & H1 & H2). fold sg in H2. rewrite E in H2.
  assert (Gn : dict_get (d_actions dom) (c_name c) = Some a0) by (rewrite Hn; exact G0).
  apply (gu_params _ _ _ _ GU e a0 He Gn) in H2.
  assert (Et : ty = t).
  { assert (D1 := dict_In_get _ _ _ (gu_objs _ _ _ _ GU e He) H2). rewrite (dict_In_get _ _ _ (gu_objs _ _ _ _ GU e He) Ho) in D1. congruence. }
  apply (Hsep y ty H1). rewrite Et. reflexivity.
Qed.

(** What fires on a literal over the arguments is an ordinary rule. *)
Lemma base_fires l b : mentionable dom sig l -> u_fires w (fst e) (cp_prev (snd e)) sg (mkLit (l_name l) (map sg (l_args l)) b) ->
  exists l', fires (q_rules (w_base w)) (cp_prev (snd e)) sg l' /\ ground sg l' = mkLit (l_name l) (map sg (l_args l)) b.
Proof.
  intros Hm [Hf|(o & t & l' & Ho & Hf & Eg)]; [exact Hf|]. exfalso.
  destruct Hf as (r & Hr & Er & Hwh). assert (Hty := ru_types _ _ _ _ RU n w _ r Hw Hr). apply told_types in Hty. destruct Hty as (tt & Htt).
  destruct (ru_then _ _ _ _ RU n w _ tt r Hw Htt Hr) as [_ Hx]. rewrite Er in Hx.
  assert (Hin : In o (map sg (l_args l))).
  { assert (Ea : l_args (ground (bind_to sg (w_param w (t_name t)) o) l') = map sg (l_args l)) by (rewrite Eg; reflexivity).
    rewrite <- Ea. cbn [ground l_args]. apply in_map_iff. exists (w_param w (t_name t)). split; [|assumption].
    unfold bind_to. destruct (eq_dec (w_param w (t_name t)) (w_param w (t_name t))); [reflexivity|contradiction]. }
  apply in_map_iff in Hin. destruct Hin as (y & Ey & Hy). apply (ment_args dom sig l y (gu_consts _ _ _ _ GU) Hm) in Hy.
  apply (quantified_outside o t l' y Ho Hy); [|exact Ey]. exists r. auto.
Qed.
Lemma base_after l : mentionable dom sig l ->
  let g := ground sg l in
  (holds (cp_next (snd e)) (l_name g) (l_args g) <-> c_after (q_rules (w_base w)) (cp_prev (snd e)) sg (l_name g) (l_args g)).
Proof.
  intros Hm. cbv zeta. destruct en_real as (_ & _ & Hres). rewrite Hres. cbn [ground l_name l_args]. unfold u_after, c_after.
  assert (Hiff : forall b, u_fires w (fst e) (cp_prev (snd e)) sg (mkLit (l_name l) (map sg (l_args l)) b) <->
     exists l', fires (q_rules (w_base w)) (cp_prev (snd e)) sg l' /\ ground sg l' = mkLit (l_name l) (map sg (l_args l)) b).
  { intros b. split; [apply base_fires; assumption|]. intros Hf. left. exact Hf. }
  rewrite (Hiff true), (Hiff false). reflexivity.
Qed.
End Entry.

Lemma base_steps cp : about (components h) n cp ->
  (forall l, In l (q_pre (w_base w)) -> true_before sig cp l) /\
  (forall l, mentionable dom sig l -> let g := ground (call_assignment sig (cp_call cp)) l in
     (holds (cp_next cp) (l_name g) (l_args g) <->
      c_after (q_rules (w_base w)) (cp_prev cp) (call_assignment sig (cp_call cp)) (l_name g) (l_args g))).
Proof.
  intros [Hin Hn]. apply in_map_iff in Hin. destruct Hin as (e & <- & He). split.
  - apply (en_real e He Hn).
  - exact (base_after e He Hn).
Qed.
Lemma base_history : good_history dom (components h).
Proof.
  intros cp Hin. apply in_map_iff in Hin. destruct Hin as (e & <- & He). split; [exact (gu_arity _ _ _ _ GU e He)|].
  split; [exact (gu_distinct _ _ _ _ GU e He)|]. intros y _. rewrite (gu_consts _ _ _ _ GU). intros [].
Qed.

(** ** One quantified type *)
Section Type_.
Variables (tn : string) (t : ptype).
Hypothesis Ht : In (tn, t) types.
Hypothesis Htn : In tn names.
Notation x := (w_param w tn).
Notation xs := (sig ++ [(w_param w tn, t)]).
Notation cps := (instances tn h).

Lemma inst cp : about cps n cp -> exists e o, In e h /\ c_name (entry_call e) = n /\ cp = at_object (snd e) o /\
  In (o, t) (fst e) /\ ~ In o (c_params (entry_call e)).
Proof.
  intros [Hin Hn]. apply in_flat_map in Hin. destruct Hin as (e & He & Hin). apply in_map_iff in Hin. destruct Hin as (o & <- & Ho).
  exists e, o. split; [assumption|]. assert (Hn' : c_name (entry_call e) = n) by exact Hn. split; [assumption|]. split; [reflexivity|].
  unfold other_objects in Ho. apply in_map_iff in Ho. destruct Ho as ([o' t'] & Eo & Ho). cbn [fst] in Eo. subst o'. apply filter_In in Ho.
  destruct Ho as [Ho Hb]. cbn [fst snd] in Hb. apply andb_true_iff in Hb. destruct Hb as [B1 B2]. apply String.eqb_eq in B1. apply negb_true_iff, memb_nIn in B2.
  split; [|assumption].
  assert (Hty : In (t_name t', t') types).
  { eapply (gu_quant _ _ _ _ GU e names o t'); [assumption| |assumption|]; [rewrite Hn'; exact Hnames|]. rewrite B1. exact Htn. }
  rewrite B1 in Hty. assert (t' = t).
  { assert (D1 := dict_In_get _ _ _ (gu_types _ _ _ _ GU) Hty). rewrite (dict_In_get _ _ _ (gu_types _ _ _ _ GU) Ht) in D1. congruence. }
  subst t'. assumption.
Qed.

Section Instance_.
Variables (e : entry) (o : string).
Hypothesis He : In e h.
Hypothesis Hn : c_name (entry_call e) = n.
Hypothesis Ho : In (o, t) (fst e).
Hypothesis Hop : ~ In o (c_params (entry_call e)).
Notation c := (entry_call e).
Notation s := (cp_prev (snd e)).
Let sg := call_assignment sig c.
Let xsg := call_assignment xs (xcall c o).

Lemma xs_bind y : xsg y = bind_to sg x o y.
Proof. apply (xsg_bind a0 c x t o); [apply (en_len e He Hn)|apply (w_fresh tn t Ht)]. Qed.
Lemma xs_ground l : ground xsg l = ground (bind_to sg x o) l.
Proof. unfold ground. f_equal. apply map_ext. exact xs_bind. Qed.
Lemma xs_base l : ~ In x (l_args l) -> ground xsg l = ground sg l.
Proof. apply (ground_base a0 c x t o); [apply (en_len e He Hn)|apply (w_fresh tn t Ht)]. Qed.
Lemma xs_inj y z : In y (dict_keys xs) -> In z (dict_keys xs) -> xsg y = xsg z -> y = z.
Proof.
  intros Hy Hz. rewrite !xs_bind. unfold bind_to. unfold dict_keys in Hy, Hz. rewrite map_app in Hy, Hz.
  apply in_app_iff in Hy, Hz.
  destruct (eq_dec y x) as [->|Ny], (eq_dec z x) as [->|Nz]; try reflexivity.
  - destruct Hz as [Hz|[Hz|[]]]; [|exfalso; apply Nz; symmetry; exact Hz]. intros E. exfalso. apply Hop. rewrite E. apply (en_param e He Hn). exact Hz.
  - destruct Hy as [Hy|[Hy|[]]]; [|exfalso; apply Ny; symmetry; exact Hy]. intros E. exfalso. apply Hop. rewrite <- E. apply (en_param e He Hn). exact Hy.
  - destruct Hy as [Hy|[Hy|[]]]; [|exfalso; apply Ny; symmetry; exact Hy].
    destruct Hz as [Hz|[Hz|[]]]; [|exfalso; apply Nz; symmetry; exact Hz]. apply (en_inj e He Hn); assumption.
Qed.

(** What fires on a literal about the object is a quantified rule of its type. *)
Lemma object_fires l : quantified_literal dom xs x l -> u_fires w (fst e) s sg (ground xsg l) -> fires (w_rules w tn) s xsg l.
Proof.
  intros [Hm Hx] Hf.
  assert (Hoa : In o (l_args (ground xsg l))).
  { cbn [ground l_args]. apply in_map_iff. exists x. split; [|assumption]. rewrite xs_bind. unfold bind_to. destruct (eq_dec x x); [reflexivity|contradiction]. }
  destruct Hf as [(l' & Hf & Eg)|(o' & t' & l' & Ho' & Hf & Eg)].
  - exfalso. rewrite <- Eg in Hoa. cbn [ground l_args] in Hoa. apply in_map_iff in Hoa. destruct Hoa as (y & Ey & Hy).
    destruct Hf as (r & Hr & Er & _). subst l'.
    assert (Hmr : mentionable dom sig (r_then r)).
    { rewrite <- w_sig. eapply (rc_then _ _ _ (ru_base _ _ _ _ RU) n); [|exact Hr]. cbv beta. rewrite Hw. reflexivity. }
    apply (ment_args dom sig _ y (gu_consts _ _ _ _ GU) Hmr) in Hy. apply Hop. rewrite <- Ey. apply (en_param e He Hn). exact Hy.
  - assert (Hf' := Hf). destruct Hf as (r & Hr & Er & _).
    assert (Hty := ru_types _ _ _ _ RU n w _ r Hw Hr). apply told_types in Hty. destruct Hty as (tt & Htt).
    destruct (ru_then _ _ _ _ RU n w _ tt r Hw Htt Hr) as [Hm' Hx']. rewrite w_sig in Hm'. rewrite Er in Hm', Hx'.
    assert (Hoo : o' = o).
    { rewrite <- Eg in Hoa. cbn [ground l_args] in Hoa. apply in_map_iff in Hoa. destruct Hoa as (y & Ey & Hy).
      apply (ment_args dom _ _ y (gu_consts _ _ _ _ GU) Hm') in Hy. unfold dict_keys in Hy. rewrite map_app in Hy. apply in_app_iff in Hy.
      unfold bind_to in Ey. destruct (eq_dec y (w_param w (t_name t'))) as [->|Ny]; [exact Ey|].
      destruct Hy as [Hy|[Hy|[]]]; [|exfalso; apply Ny; symmetry; exact Hy]. exfalso. apply Hop. rewrite <- Ey. apply (en_param e He Hn). exact Hy. }
    subst o'.
    assert (Ett : t' = t).
    { assert (D1 := dict_In_get _ _ _ (gu_objs _ _ _ _ GU e He) Ho'). rewrite (dict_In_get _ _ _ (gu_objs _ _ _ _ GU e He) Ho) in D1. congruence. }
    subst t'. assert (Etn : t_name t = tn) by (eapply gu_tname; eassumption). rewrite Etn in *.
    assert (tt = t).
    { assert (D1 := dict_In_get _ _ _ (gu_types _ _ _ _ GU) Htt). rewrite (dict_In_get _ _ _ (gu_types _ _ _ _ GU) Ht) in D1. congruence. }
    subst tt. assert (El : l' = l).
    { apply (ground_lit_injective xsg (dict_keys xs)).
      - intros y z. apply xs_inj.
      - intros y Hy. exact (ment_args dom _ _ y (gu_consts _ _ _ _ GU) Hm' Hy).
      - intros y Hy. exact (ment_args dom _ _ y (gu_consts _ _ _ _ GU) Hm Hy).
      - rewrite xs_ground. exact Eg. }
    rewrite El in Hf'. eapply fires_ext; [|exact Hf']. intros y. symmetry. apply xs_bind.
Qed.
Lemma fires_object l : fires (w_rules w tn) s xsg l -> u_fires w (fst e) s sg (ground xsg l).
Proof.
  intros Hf. right. exists o, t, l. assert (Etn : t_name t = tn) by (eapply gu_tname; eassumption). rewrite Etn. split; [exact Ho|].
  split; [eapply fires_ext; [exact xs_bind|exact Hf]|]. symmetry. apply xs_ground.
Qed.
Lemma rule_quantified l s' sg' : fires (w_rules w tn) s' sg' l -> quantified_literal dom xs x l.
Proof. intros (r & Hr & <- & _). rewrite <- w_sig. eapply ru_then; eassumption. Qed.

Lemma x_fired l : fires (w_rules w tn) s xsg l -> true_after xs (at_object (snd e) o) l.
Proof.
  intros Hf. destruct (en_real e He Hn) as (_ & Hc & Hres). assert (Hu := fires_object l Hf).
  change (lit_true (cp_next (snd e)) (ground xsg l)). unfold lit_true.
  destruct (ground xsg l) as [p args b] eqn:Eg. cbn [l_pos l_name l_args] in *. destruct b.
  - apply Hres. left. exact Hu.
  - rewrite Hres. intros [Hp|[_ Hno]]; [|contradiction]. exact (Hc _ Hu Hp).
Qed.
Lemma x_became l : quantified_literal dom xs x l -> became_true xs (at_object (snd e) o) l -> fires (w_rules w tn) s xsg l.
Proof.
  intros Hq [Hnb Hta]. destruct (en_real e He Hn) as (_ & Hc & Hres).
  change (~ lit_true s (ground xsg l)) in Hnb. change (lit_true (cp_next (snd e)) (ground xsg l)) in Hta.
  destruct (fires_dec (w_rules w tn) s xsg l) as [|Hno]; [assumption|]. exfalso.
  assert (Hnu : ~ u_fires w (fst e) s sg (ground xsg l)) by (intros Hu; apply Hno, object_fires; assumption).
  unfold lit_true in Hnb, Hta. destruct (ground xsg l) as [p args b] eqn:Eg. cbn [l_pos l_name l_args] in *. destruct b.
  - apply Hres in Hta. destruct Hta as [Hu|[Hh _]]; contradiction.
  - apply Hta, Hres. right. split; [|assumption]. destruct (holds_dec s p args); [assumption|contradiction].
Qed.
End Instance_.

Lemma x_explains r : In r (w_rules w tn) -> explains xs cps n (r_then r) (r_when r).
Proof.
  intros Hr cp Ha. destruct (inst cp Ha) as (e & o & He & Hn & -> & Ho & Hop). split.
  - intros Hna. destruct (all_or_some (true_before xs (at_object (snd e) o)) (fun y => lit_true_dec _ _) (r_when r)) as [H|H]; [|exact H].
    exfalso. apply Hna, (x_fired e o He Hn Ho). exists r. split; [assumption|]. split; [reflexivity|]. exact H.
  - intros Hb y Hy. destruct (x_became e o He Hn Ho Hop (r_then r)) as (r' & Hr' & E & Hwh); [|exact Hb|].
    { rewrite <- w_sig. eapply ru_then; eassumption. }
    apply Hwh. apply (ru_one _ _ _ _ RU n w tn r r' Hw Hr Hr' (eq_sym E)). assumption.
Qed.
Lemma x_observed l : quantified_literal dom xs x l -> observed_effect dom xs cps n l -> exists r, In r (w_rules w tn) /\ r_then r = l.
Proof.
  intros Hq (_ & cp & Ha & Hb). destruct (inst cp Ha) as (e & o & He & Hn & -> & Ho & Hop).
  destruct (x_became e o He Hn Ho Hop l Hq Hb) as (r & Hr & E & _). eauto.
Qed.
Lemma x_observed_dec l : mentionable dom xs l -> observed_effect dom xs cps n l \/ ~ observed_effect dom xs cps n l.
Proof.
  intros Hm.
  assert (H : forall l0, (exists cp, In cp l0 /\ c_name (cp_call cp) = n /\ became_true xs cp l) \/ ~ (exists cp, In cp l0 /\ c_name (cp_call cp) = n /\ became_true xs cp l)).
  { induction l0 as [|cp l0 IH]; [right; intros (cp & [] & _)|]. destruct IH as [(cp' & H1 & H2)|IH]; [left; exists cp'; split; [right; assumption|assumption]|].
    destruct (eq_dec (c_name (cp_call cp)) n) as [E|E].
    - destruct (lit_true_dec (cp_prev cp) (ground (call_assignment xs (cp_call cp)) l)) as [Hb|Hb].
      + right. intros (cp' & [<-|H1] & H2 & H3); [apply (proj1 H3); exact Hb|apply IH; eauto].
      + destruct (lit_true_dec (cp_next cp) (ground (call_assignment xs (cp_call cp)) l)) as [Ha|Ha].
        * left. exists cp. split; [left; reflexivity|]. split; [assumption|]. split; assumption.
        * right. intros (cp' & [<-|H1] & H2 & H3); [apply Ha; exact (proj2 H3)|apply IH; eauto].
    - right. intros (cp' & [<-|H1] & H2 & H3); [contradiction|apply IH; eauto]. }
  destruct (H cps) as [(cp & H1 & H2 & H3)|Hno].
  - left. split; [assumption|]. exists cp. split; [split; assumption|assumption].
  - right. intros (_ & cp & [H1 H2] & H3). apply Hno. exists cp; auto.
Qed.

(** *** The learned effect of the type *)
Variables (lb : lib) (u : uact) (effs : list (list literal * list literal)).
Notation G := (granted lb (ua_k u)).
Hypothesis HG : forall l, In l G -> always_before dom sig (components h) n l.
Hypothesis LU : learned_universal lb dom max h n sig tn x t u effs.

Lemma granted_before cp l : about cps n cp -> In l G -> true_before xs cp l.
Proof.
  intros Ha Hl. destruct (inst cp Ha) as (e & o & He & Hn & -> & Ho & Hop). destruct (HG l Hl) as [Hm Hal].
  assert (Hb : true_before sig (snd e) l) by (apply Hal; split; [apply in_map; assumption|exact Hn]).
  change (lit_true (cp_prev (snd e)) (ground (call_assignment xs (xcall (entry_call e) o)) l)). rewrite (xs_base e o He Hn); [exact Hb|].
  intros Hx. apply (proj2 (w_fresh tn t Ht)). exact (ment_args dom sig l x (gu_consts _ _ _ _ GU) Hm Hx).
Qed.
Lemma x_candidate r : In r (w_rules w tn) ->
  (forall y, In y (r_when r) -> In y G) \/
  exists c, candidate_given dom xs max cps n G (r_then r) c /\ (forall y, In y c -> In y (r_when r)) /\
            (forall y, In y (r_when r) -> In y c \/ In y G).
Proof.
  intros Hr. assert (Hdec : forall y : literal, In y G \/ ~ In y G) by (intros y; destruct (memb y G) eqn:E; [left; apply memb_In|right; apply memb_nIn]; assumption).
  destruct (split_list (fun y => In y G) Hdec (r_when r)) as (d & H1 & H2 & H3).
  destruct (ru_size _ _ _ _ RU n w tn r Hw Hr) as [S1 S2].
  assert (Hrest : forall y, In y (r_when r) -> In y d \/ In y G).
  { intros y Hy. destruct (Hdec y); [auto|left; apply H1; auto]. }
  destruct d as [|y0 d'] eqn:Ed.
  - left. intros y Hy. destruct (Hrest y Hy) as [[]|H]; exact H.
  - right. exists (y0 :: d'). split; [|split; [intros y Hy; apply H1; assumption|exact Hrest]].
    split; [|split].
    + split; [auto|]. split; [|simpl in *; lia]. intros y Hy. apply H1 in Hy. rewrite <- w_sig. eapply ru_when; try eassumption. tauto.
    + intros cp Ha. destruct (x_explains r Hr cp Ha) as [E1 E2]. split.
      * intros Hna. destruct (E1 Hna) as (y & Hy & Hf). exists y; split; [|assumption]. destruct (Hrest y Hy) as [?|Hal]; [assumption|].
        exfalso. apply Hf. apply granted_before; assumption.
      * intros Hb y Hy. apply E2; [assumption|]. apply H1; assumption.
    + intros y Hy. apply H1; assumption.
Qed.

Section State.
Variables (s : state) (sg : assignment).
Hypothesis HGs : conj_holds (lit_at s sg) G.

Lemma x_learned_real l : fires (rules_of effs) s sg l -> fires (w_rules w tn) s sg l.
Proof.
  intros Hf. apply (lu_fires _ _ _ _ _ _ _ _ _ _ _ LU) in Hf. destruct Hf as (Hx & Hobs & Hc).
  destruct (x_observed l) as (r & Hr & E); [split; [apply Hobs|assumption]|assumption|]. rewrite <- E in *.
  exists r. split; [assumption|]. split; [reflexivity|].
  destruct (x_candidate r Hr) as [H|(c & H1 & H2 & H3)]; [intros y Hy; apply HGs; auto|].
  assert (Hh : conj_holds (lit_at s sg) c).
  { destruct Hc as [Hc|[(d & Hd & Hh)|(_ & Hh)]].
    - exfalso. exact (Hc c H1).
    - intros y Hy. apply Hh. apply (proj2 Hd c H1). assumption.
    - apply Hh; assumption. }
  intros y Hy. destruct (H3 y Hy); [apply Hh; assumption|apply HGs; assumption].
Qed.

Hypothesis Hmax : 1 <= max.
Hypothesis Hlib : lib_nested lb = false.
Hypothesis Hcond : forall f, In f (conditions_for u tn) -> f_holds (lit_at s sg) f.
Hypothesis Hunseen : forall l, ~ unseen_quantified dom xs max cps n G x l.

Lemma singleton_given l m : quantified_literal dom xs x l -> m = l \/ m = neg_lit l -> explains xs cps n l [m] -> candidate_given dom xs max cps n G l [m].
Proof.
  intros [Hm Hx] Em He. assert (Hmm : mentionable dom xs m /\ In x (l_args m)).
  { destruct Em as [->| ->]; [auto|]. split; [apply well_typed_neg; exact Hm|exact Hx]. }
  split; [|split; [assumption|]].
  - split; [constructor; [intros []|constructor]|]. split; [intros y [<-|[]]; apply Hmm|simpl; lia].
  - intros y [<-|[]] Hg. destruct (HG m Hg) as [Hms _]. apply (proj2 (w_fresh tn t Ht)).
    exact (ment_args dom sig m x (gu_consts _ _ _ _ GU) Hms (proj2 Hmm)).
Qed.

Lemma x_real_learned l : fires (w_rules w tn) s sg l -> lit_at s sg l \/ fires (rules_of effs) s sg l.
Proof.
  intros Hf. assert (Hq := rule_quantified l s sg Hf). destruct Hf as (r & Hr & E & Hwh). subst l. set (l := r_then r) in *.
  destruct (lit_true_dec s (ground sg l)) as [Hl|Hl]; [left; exact Hl|right].
  assert (Hneg : lit_at s sg (neg_lit l)) by (unfold lit_at; rewrite ground_neg, lit_true_neg; exact Hl).
  apply (lu_fires _ _ _ _ _ _ _ _ _ _ _ LU). split; [apply Hq|].
  assert (Hpre := proj1 (lu_pre _ _ _ _ _ _ _ _ _ _ _ LU Hlib s sg HGs) Hcond l Hq).
  (* in every state with [l] false some candidate holds *)
  assert (Hcand : (exists c, candidate_given dom xs max cps n G l c /\ conj_holds (lit_at s sg) c) /\
     (observed_effect dom xs cps n l \/ forall c, only_given dom xs max cps n G l c -> False) \/
     (observed_effect dom xs cps n l /\ none_given dom xs max cps n G l)).
  { destruct (x_candidate r Hr) as [Hal|(c & C1 & C2 & C3)].
    - assert (Hta : forall cp, about cps n cp -> true_after xs cp l).
      { intros cp Ha. destruct (inst cp Ha) as (e & o & He & Hn & Ecp & Ho & Hop). rewrite Ecp in *. apply (x_fired e o He Hn Ho).
        exists r. split; [assumption|]. split; [reflexivity|]. intros y Hy. exact (granted_before _ y Ha (Hal y Hy)). }
      assert (Hc1 : candidate_given dom xs max cps n G l [neg_lit l]).
      { apply singleton_given; auto. intros cp Ha. split; [intros Hna; exfalso; apply Hna, Hta; assumption|]. intros [Hb _] y [<-|[]].
        unfold true_before. rewrite ground_neg, lit_true_neg. exact Hb. }
      left. split; [exists [neg_lit l]; split; [assumption|intros y [<-|[]]; assumption]|].
      destruct (x_observed_dec l (proj1 Hq)) as [Hobs|Hno]; [left; assumption|right].
      intros c Honly.
      assert (Hc2 : candidate_given dom xs max cps n G l [l]).
      { apply singleton_given; auto. intros cp Ha. split; [intros Hna; exfalso; apply Hna, Hta; assumption|]. intros Hb y [<-|[]].
        exfalso. apply Hno. split; [apply Hq|]. exists cp; auto. }
      assert (H1 := proj2 Honly _ Hc1 l). assert (H2 := proj2 Honly _ Hc2 l).
      assert (Hin : In l [neg_lit l]) by (apply H1, H2; left; reflexivity).
      destruct Hin as [Hin|[]]. apply (f_equal l_pos) in Hin. cbn in Hin. destruct (l_pos l); discriminate.
    - assert (Hh : conj_holds (lit_at s sg) c) by (intros y Hy; apply Hwh, C2; assumption).
      left. split; [exists c; auto|]. destruct (x_observed_dec l (proj1 Hq)) as [Hobs|Hno]; [left; assumption|right].
      intros d Honly. apply (Hunseen l). split; [assumption|]. split; [assumption|]. exists d. split; [assumption|].
      assert (Hd : conj_holds (lit_at s sg) d) by (intros y Hy; apply Hh; apply (proj2 Honly c C1); assumption). split.
      + intros Hin. apply Hl, Hd. assumption.
      + intros y Hy Hg. assert (Hf := HGs _ Hg). unfold lit_at in Hf. rewrite ground_neg, lit_true_neg in Hf. apply Hf, Hd; assumption. }
  destruct Hcand as [[(c & C1 & C2) Hob]|[Hobs Hnone]]; [|split; [assumption|left; assumption]].
  destruct (lu_cases _ _ _ _ _ _ _ _ _ _ _ LU l Hq) as [Hno|[(d & Hd)|Hs]].
  - exfalso. exact (Hno c C1).
  - destruct Hob as [Hob|Hob]; [|exfalso; exact (Hob d Hd)]. split; [assumption|]. right; left. exists d. split; [assumption|].
    intros y Hy. apply C2. apply (proj2 Hd c C1). assumption.
  - destruct (Hpre Hs) as [H|[H|[Hobs H]]]; [contradiction|exfalso; exact (H c C1 C2)|]. split; [assumption|]. right; right. split; assumption.
Qed.
End State.
End Type_.

(** ** The whole action *)
Variables (lb : lib) (inj : bool) (u : uact).
Hypothesis LQ : learned_quantified lb dom types umap inj max h n a0 u.
Hypothesis Hex : exists e, In e h /\ c_name (entry_call e) = n.
Hypothesis HG : forall l, In l (granted lb (ua_k u)) -> always_before dom sig (components h) n l.

Lemma names_types tn : In tn names -> exists t, In (tn, t) types.
Proof.
  intros Hin. destruct Hex as (e & He & Hn). destruct (gu_map _ _ _ _ GU e He) as (ns & E & Hall). rewrite Hn, Hnames in E. injection E as <-.
  apply told_types. apply (Hall tn Hin).
Qed.
Lemma learned_type tn t : In tn names -> In (tn, t) types ->
  exists effs, effects_for u tn = [(w_param w tn, effs)] /\ (forall q, In q (ua_pre u) -> snd (fst q) = tn -> fst (fst q) = w_param w tn) /\
    learned_universal lb dom max h n sig tn (w_param w tn) t u effs.
Proof.
  intros Htn Ht. destruct (lq_types _ _ _ _ _ _ _ _ _ _ LQ names tn t Hnames Htn Ht) as (x & effs & E & _ & Ee & Hq & LU).
  rewrite (proj1 (w_fresh tn t Ht)) in E. injection E as <-. exists effs. auto.
Qed.
Lemma no_other tn : ~ In tn names -> effects_for u tn = [].
Proof.
  intros Hno. unfold effects_for. rewrite (filter_none _ (ua_eff u)); [reflexivity|]. intros q Hq. apply String.eqb_neq. intros E.
  apply Hno. destruct (lq_only _ _ _ _ _ _ _ _ _ _ LQ tn) as (ns & En & Hin).
  - right. apply in_map_iff. exists q. auto.
  - rewrite Hnames in En. injection En as <-. assumption.
Qed.
Lemma base_about : exists cp, about (components h) n cp.
Proof. destruct Hex as (e & He & Hn). exists (snd e). split; [apply in_map; assumption|exact Hn]. Qed.
Lemma base_real : (fun n => option_map w_base (real n)) n = Some (w_base w).
Proof. cbv beta. rewrite Hw. reflexivity. Qed.

Section State.
Variables (objs : list pobject) (s : state) (sg : assignment).
Hypothesis Happ : u_applicable u objs s sg.

Lemma whole_u_pre l : In l (q_pre (w_base w)) -> lit_at s sg l.
Proof.
  intros Hl. apply (lc_pre _ _ _ _ _ _ _ _ (lq_cond _ _ _ _ _ _ _ _ _ _ LQ) s sg l (proj1 Happ)). split.
  - rewrite <- w_sig. eapply (rc_pre _ _ _ (ru_base _ _ _ _ RU) n); [exact base_real|exact Hl].
  - intros cp [Hin Hn]. apply in_map_iff in Hin. destruct Hin as (e & <- & He). apply (en_real e He Hn). exact Hl.
Qed.
Lemma granted_holds : conj_holds (lit_at s sg) (granted lb (ua_k u)).
Proof. intros l Hl. apply (lc_pre _ _ _ _ _ _ _ _ (lq_cond _ _ _ _ _ _ _ _ _ _ LQ) s sg l (proj1 Happ)). apply HG; assumption. Qed.
Lemma granted_bound tn t o : In (tn, t) types -> conj_holds (lit_at s (bind_to sg (w_param w tn) o)) (granted lb (ua_k u)).
Proof.
  intros Ht l Hl. assert (Hh := granted_holds l Hl). unfold lit_at in *.
  replace (ground (bind_to sg (w_param w tn) o) l) with (ground sg l); [assumption|]. unfold ground. f_equal. apply map_ext_in.
  intros y Hy. unfold bind_to. destruct (eq_dec y (w_param w tn)) as [->|]; [|reflexivity]. exfalso. apply (proj2 (w_fresh tn t Ht)).
  exact (ment_args dom sig l _ (gu_consts _ _ _ _ GU) (proj1 (HG l Hl)) Hy).
Qed.
Lemma whole_u_sound g : u_fires (as_uaction u) objs s sg g -> u_fires w objs s sg g.
Proof.
  intros [(l & Hf & Eg)|(o & t & l & Ho & Hf & Eg)].
  - left. exists l. split; [|assumption]. cbn [as_uaction w_base q_rules] in Hf.
    eapply (learned_real dom max _ (components h) n a0 (w_base w) W (ru_base _ _ _ _ RU) base_history G0 base_real base_steps lb inj (ua_k u));
      [apply LQ|apply Happ|exact Hf].
  - cbn [as_uaction w_rules w_param] in Hf, Eg. destruct (in_dec string_dec (t_name t) names) as [Htn|Htn].
    + destruct (names_types _ Htn) as (t' & Ht). destruct (learned_type _ t' Htn Ht) as (effs & Ee & _ & LU).
      rewrite Ee in Hf, Eg. cbn [flat_map snd] in Hf. rewrite app_nil_r in Hf. right. exists o, t, l. split; [assumption|]. split; [|assumption].
      eapply (x_learned_real (t_name t) t' Ht Htn lb u effs HG LU); [|exact Hf]. eapply granted_bound; eassumption.
    + rewrite (no_other _ Htn) in Hf. destruct Hf as (r & [] & _).
Qed.

Hypothesis Hmax : 1 <= max.
Hypothesis Hlib : lib_nested lb = false.
Hypothesis Hg1 : forall l, ~ unseen_guess dom sig max (components h) n l.
Hypothesis Hg2 : forall l, ~ lost_restriction dom sig max (components h) n l.
Hypothesis Hg3 : forall tn t l, In tn names -> In (tn, t) types ->
  ~ unseen_quantified dom (sig ++ [(w_param w tn, t)]) max (instances tn h) n (granted lb (ua_k u)) (w_param w tn) l.

Lemma whole_u_complete g : u_fires w objs s sg g -> lit_true s g \/ u_fires (as_uaction u) objs s sg g.
Proof.
  intros [(l & Hf & Eg)|(o & t & l & Ho & Hf & Eg)].
  - assert (LC := lq_cond _ _ _ _ _ _ _ _ _ _ LQ).
    destruct (real_learned dom max _ (components h) n a0 (w_base w) W (ru_base _ _ _ _ RU) base_history G0 base_real base_steps lb inj (ua_k u)
                LC s sg (proj1 Happ) Hmax Hlib) with (l := l) as [Hl|Hl].
    + intros l' c Hm Hna Hno Hc Hh. destruct (lit_true_dec s (ground sg l')) as [|Hl]; [assumption|]. exfalso. apply (Hg1 l').
      split; [assumption|]. split; [assumption|]. split; [assumption|]. exists c. split; [assumption|]. split.
      * intros Hin. apply Hl, Hh; assumption.
      * intros y Hy Hn. assert (Hf' := lc_pre _ _ _ _ _ _ _ _ LC s sg (neg_lit y) (proj1 Happ) Hn). unfold lit_at in Hf'. rewrite ground_neg, lit_true_neg in Hf'.
        apply Hf', Hh; assumption.
    + intros l' Hm Hna Hobs Hs _. right. intros Hx. apply (Hg2 l'). split; [assumption|]. split; [assumption|]. split; [assumption|]. split; assumption.
    + exact Hf.
    + left. rewrite <- Eg. exact Hl.
    + right. left. exists l. auto.
  - assert (Hne : w_rules w (t_name t) <> []) by (destruct Hf as (r & Hr & _); destruct (w_rules w (t_name t)); [destruct Hr|discriminate]).
    destruct (TOLD n w (t_name t) Hw Hne) as [(ns & En & Htn) _]. rewrite Hnames in En. injection En as <-.
    destruct (names_types _ Htn) as (t' & Ht). destruct (learned_type _ t' Htn Ht) as (effs & Ee & Hq & LU).
    destruct (x_real_learned (t_name t) t' Ht Htn lb u effs HG LU s (bind_to sg (w_param w (t_name t)) o)) with (l := l) as [Hl|Hl].
    + eapply granted_bound; eassumption.
    + exact Hmax.
    + exact Hlib.
    + intros f Hin. unfold conditions_for in Hin. apply in_flat_map in Hin. destruct Hin as (q & Hin & Hfq). apply filter_In in Hin.
      destruct Hin as [Hin Hb]. apply String.eqb_eq in Hb. rewrite <- (Hq q Hin Hb). apply (proj2 Happ q o t f); auto.
    + intros l'. apply Hg3; assumption.
    + exact Hf.
    + left. rewrite <- Eg. exact Hl.
    + right. right. exists o, t, l. split; [assumption|]. cbn [as_uaction w_rules w_param]. rewrite Ee. cbn [flat_map snd]. rewrite app_nil_r. auto.
Qed.

Hypothesis Hcons : consistent w objs s sg.
Lemma whole_u_successor p args : u_after (as_uaction u) objs s sg p args <-> u_after w objs s sg p args.
Proof.
  unfold u_after. split.
  - intros [Hf|[Hh Hno]]; [left; apply whole_u_sound; assumption|]. right. split; [assumption|]. intros Hf.
    destruct (whole_u_complete _ Hf) as [Hl|Hl]; [exact (Hl Hh)|contradiction].
  - intros [Hf|[Hh Hno]].
    + destruct (whole_u_complete _ Hf) as [Hl|Hl]; [|left; assumption]. right. split; [exact Hl|]. intros Hd. apply whole_u_sound in Hd.
      exact (Hcons _ Hf Hd).
    + right. split; [assumption|]. intros Hd. apply Hno, whole_u_sound. assumption.
Qed.
End State.
End Real.
