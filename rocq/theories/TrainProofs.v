(** * Proofs: training from traces *)
From Verif Require Import TrainModel TrainSpec VocabProofs SamProofs OnlineProofs OnlineJoint PreludeProofs.

Section Train.
Context {N F : Type}.
Variables (n_safe : N -> F -> bool) (n_add : N -> F -> option F -> N) (n_init : string -> N).
Variables (dom : domain) (real : string -> option (action * (F -> Prop))).
Hypothesis W : wf_domain dom.
Hypothesis RA : real_actions dom real.

Definition voc (a : action) := lifted_vocabulary dom (a_sig a) None.

Lemma names_nodup n a : dict_get (d_actions dom) n = Some a -> NoDup (map fst (a_sig a ++ d_consts dom)).
Proof.
  intros G. apply dict_get_In in G. rewrite map_app. apply NoDup_app_iff. split; [|split].
  - exact (wf_sigs _ W _ _ G).
  - exact (wf_consts _ W).
  - intros x Hx Hx'. exact (wf_disj _ W _ _ x G Hx Hx').
Qed.
Lemma voc_In n a l : dict_get (d_actions dom) n = Some a -> (In l (voc a) <-> mentionable dom (a_sig a) l).
Proof.
  intros G. unfold voc. rewrite (lifted_vocabulary_exact dom (a_sig a) None l (names_nodup n a G)). split; [tauto|]. intros M; split; [assumption|exact Logic.I].
Qed.
Lemma mentionable_neg sig l : mentionable dom sig (neg_lit l) <-> mentionable dom sig l.
Proof. apply well_typed_neg. Qed.
Lemma mentionable_args sig l : mentionable dom sig l -> incl (l_args l) (dict_keys sig ++ dict_keys (d_consts dom)).
Proof.
  intros (psig & objs & _ & Hi & _ & -> & _) x Hx. apply in_map_iff in Hx. destruct Hx as (o & <- & Ho).
  unfold dict_keys. rewrite <- map_app. apply in_map. apply Hi. assumption.
Qed.

(** Views determine the effect of a real action on the literals. *)
Lemma view_becomes n a r q c s s' p p' :
  dict_get (d_actions dom) n = Some a -> real n = Some (r, q) -> a_sig r = a_sig a -> length (c_params c) = length (a_sig a) ->
  NoDup (c_params c) -> no_constant_args dom c ->
  let sg := call_assignment (a_sig a) c in
  view dom (a_sig a) s sg p -> view dom (a_sig a) s' sg p' -> is_result r sg s s' -> becomes p (a_eff r) p'.
Proof.
  intros G Er Es Hl Hp Hc sg V V' R l.
  assert (Ing := G). apply dict_get_In in Ing.
  assert (Inj : forall x y, In x (dict_keys (a_sig a) ++ dict_keys (d_consts dom)) -> In y (dict_keys (a_sig a) ++ dict_keys (d_consts dom)) -> sg x = sg y -> x = y).
  { apply (ground_injective dom (a_sig a) c); try assumption; [eapply wf_sigs; eassumption|]. intros y Hy. eapply (wf_disj _ W); eassumption. }
  assert (Me : forall m, In m (a_eff r) -> mentionable dom (a_sig a) m) by (intros m Hm; rewrite <- Es; eapply ra_eff; eassumption).
  assert (Gi : forall m m', mentionable dom (a_sig a) m -> mentionable dom (a_sig a) m' -> ground sg m = ground sg m' -> m = m').
  { intros m m' M M'. apply (ground_lit_injective sg _ m m' Inj); apply mentionable_args; assumption. }
  unfold view in V, V'. rewrite V', V.
  assert (K : mentionable dom (a_sig a) l -> (lit_true s' (ground sg l) <-> In l (a_eff r) \/ lit_true s (ground sg l) /\ ~ In (neg_lit l) (a_eff r))).
  { intros Ml. pose proof (R (l_name l) (map sg (l_args l))) as Rl. unfold lit_true. destruct l as [ln la lp]. simpl in *.
    assert (Add : (exists m, In m (a_eff r) /\ l_pos m = true /\ ground sg m = mkLit ln (map sg la) true) <-> In (mkLit ln la true) (a_eff r)).
    { split; [intros (m & Hm & _ & Em)|intros Hm; exists (mkLit ln la true); auto].
      replace (mkLit ln la true) with m; [assumption|]. apply Gi; [auto| |exact Em].
      destruct lp; [assumption|]. apply (proj1 (mentionable_neg (a_sig a) (mkLit ln la true))). exact Ml. }
    assert (Del : (exists m, In m (a_eff r) /\ l_pos m = false /\ ground sg m = mkLit ln (map sg la) false) <-> In (mkLit ln la false) (a_eff r)).
    { split; [intros (m & Hm & _ & Em)|intros Hm; exists (mkLit ln la false); auto].
      replace (mkLit ln la false) with m; [assumption|]. apply Gi; [auto| |exact Em].
      destruct lp; [|assumption]. apply (proj1 (mentionable_neg (a_sig a) (mkLit ln la false))). exact Ml. }
    unfold after in Rl. rewrite Add, Del in Rl. unfold neg_lit; simpl. destruct lp; simpl.
    - exact Rl.
    - rewrite Rl. pose proof (ra_cons _ _ RA n r q (mkLit ln la true) Er) as C1. unfold neg_lit in C1; simpl in C1.
      destruct (In_dec' (mkLit ln la true) (a_eff r)), (In_dec' (mkLit ln la false) (a_eff r)), (holds_dec s ln (map sg la)); tauto. }
  split.
  - intros [Ml T]. apply K in T; [|assumption]. destruct T as [T|[T T']]; auto.
  - intros [T|[[Ml T] T']].
    + assert (Ml := Me l T). split; [assumption|]. apply K; auto.
    + split; [assumption|]. apply K; auto.
Qed.

(** A view is a total state of the vocabulary. *)
Lemma view_total n a s sg p : dict_get (d_actions dom) n = Some a -> view dom (a_sig a) s sg p -> total_state (voc a) p.
Proof.
  intros G V. split.
  - intros l Hl. apply V in Hl. apply (voc_In n a l G). apply Hl.
  - intros l Hl. apply (voc_In n a l G) in Hl. unfold view in V. rewrite (V l), (V (neg_lit l)), mentionable_neg, ground_neg, lit_true_neg.
    destruct (lit_true_dec s (ground sg l)); tauto.
Qed.
Lemma voc_neg n a l : dict_get (d_actions dom) n = Some a -> In l (voc a) -> In (neg_lit l) (voc a).
Proof. intros G. rewrite !(voc_In n a _ G), mentionable_neg. auto. Qed.

(** The executions a trace contributes to an action. *)
Definition seen_as (a : action) (t : tcomp F) (e : execution F) : Prop :=
  let sg := call_assignment (a_sig a) (cp_call (t_cp t)) in
  exists p p', view dom (a_sig a) (cp_prev (t_cp t)) sg p /\ view dom (a_sig a) (cp_next (t_cp t)) sg p' /\
    (e = if cp_ok (t_cp t) then x_ok p (t_before t) p' (t_after t) else x_fail p (t_before t)).

Definition from (traces : list (list (tcomp F))) (n : string) (a : action) (es : list (execution F)) : Prop :=
  (forall e, In e es -> e = x_review \/ exists t, used traces n t /\ seen_as a t e) /\
  (forall t, used traces n t -> exists e, In e es /\ seen_as a t e).

Record linv (traces : list (list (tcomp F))) (L : learners N F) : Prop :=
  { li_keys : dict_keys L = dict_keys (d_actions dom);
    li_get : forall n a, dict_get (d_actions dom) n = Some a ->
       exists es, dict_get L n = Some (on_run n_safe n_add (voc a) (n_init n) es) /\ from traces n a es }.

Lemma linv_same tr tr' L : (forall (t : tcomp F) n, used tr n t <-> used tr' n t) -> linv tr L -> linv tr' L.
Proof.
  intros E [K G]. constructor; [assumption|]. intros n a Ga. destruct (G n a Ga) as (es & Es & F1 & F2).
  exists es; split; [assumption|]. split.
  - intros e He. destruct (F1 e He) as [|(t & U & S)]; [auto|right; exists t; split; [apply E; assumption|assumption]].
  - intros t U. apply F2, E; assumption.
Qed.

Lemma linv_init : linv [] (initialize_learners n_init dom).
Proof.
  unfold initialize_learners.
  assert (ND : NoDup (map fst (map (fun na : string * action => (fst na, mkOnline (odl_init (lifted_vocabulary dom (a_sig (snd na)) None)) (n_init (fst na)) ([] : list (list literal * F)) [])) (d_actions dom)))).
  { rewrite map_map. simpl. exact (wf_acts _ W). }
  constructor.
  - rewrite dict_of_NoDup by assumption. unfold dict_keys. rewrite map_map. reflexivity.
  - intros n a G. exists []. split.
    + rewrite dict_of_NoDup by assumption.
      apply dict_In_get; [assumption|].
      apply in_map_iff. exists (n, a). split; [reflexivity|]. apply dict_get_In; assumption.
    + split; [intros e []|]. intros t ((x & [] & _) & _).
Qed.

Lemma dict_set_same_keys {V} (d : list (string * V)) k v : In k (dict_keys d) -> dict_keys (dict_set d k v) = dict_keys d.
Proof. apply dict_set_keys_existing. Qed.

Lemma component_step tr part t L : linv (tr ++ [part]) L -> good_arity dom (cp_call (t_cp t)) -> no_constant_args dom (cp_call (t_cp t)) ->
  exists L', train_component n_safe n_add dom L t = Ok L' /\ linv (tr ++ [part ++ [t]]) L'.
Proof.
  intros I (a & Ga & Hlen) Hc. unfold train_component.
  assert (Hin : forall u, (exists x, In x (tr ++ [part ++ [t]]) /\ In u x) <-> (exists x, In x (tr ++ [part]) /\ In u x) \/ u = t).
  { intros u. split.
    - intros (x & Hx & Hu). apply in_app_iff in Hx. destruct Hx as [Hx|[<-|[]]]; [left; exists x; split; [apply in_app_iff; left; assumption|assumption]|].
      apply in_app_iff in Hu. destruct Hu as [Hu|[->|[]]]; [left; exists part; split; [apply in_app_iff; right; left; reflexivity|assumption]|auto].
    - intros [(x & Hx & Hu)| ->]; [|exists (part ++ [t]); split; apply in_app_iff; right; left; reflexivity].
      apply in_app_iff in Hx. destruct Hx as [Hx|[<-|[]]]; [exists x; split; [apply in_app_iff; left; assumption|assumption]|].
      exists (part ++ [t]); split; [apply in_app_iff; right; left; reflexivity|apply in_app_iff; left; assumption]. }
  destruct (contains_duplicates (c_params (cp_call (t_cp t)))) eqn:D.
  { exists L; split; [reflexivity|]. apply contains_duplicates_true in D. eapply linv_same; [|eassumption].
    intros u n. unfold used. rewrite Hin. split; [intros (A & B); auto|]. intros ([A| ->] & B & C); [auto|tauto]. }
  apply contains_duplicates_spec in D. unfold train_transition, triplet_snapshot.
  rewrite (dict_lookup_Some _ _ _ Ga). cbn [bind fst snd]. unfold bound_predicates.
  assert (Gc : good_call dom a (cp_call (t_cp t))).
  { assert (J := Ga). apply dict_get_In in J. constructor; auto.
    - eapply wf_sigs; eassumption.
    - intros y. eapply wf_disj; eassumption.
    - exact (wf_consts _ W). }
  destruct (lifted_snapshot dom a (cp_call (t_cp t)) (cp_prev (t_cp t)) Gc D Hc) as (p & Ep & Hp).
  destruct (lifted_snapshot dom a (cp_call (t_cp t)) (cp_next (t_cp t)) Gc D Hc) as (p' & Ep' & Hp').
  rewrite Ep. cbn [bind]. rewrite Ep'. cbn [bind].
  set (n := c_name (cp_call (t_cp t))) in *.
  destruct (li_get _ _ I n a Ga) as (es & Es & F1 & F2).
  rewrite (dict_lookup_Some _ _ _ Es). cbn [bind].
  set (e := if cp_ok (t_cp t) then x_ok (to_set p) (t_before t) (to_set p') (t_after t) else x_fail (to_set p) (t_before t)).
  assert (Se : seen_as a t e).
  { exists (to_set p), (to_set p'). split; [|split; [|reflexivity]]; intros l; rewrite to_set_In; [apply Hp|apply Hp']. }
  assert (Ee : online_add n_safe n_add (on_run n_safe n_add (voc a) (n_init n) es) (to_set p) (t_before t) (to_set p') (t_after t) (cp_ok (t_cp t))
             = on_run n_safe n_add (voc a) (n_init n) (es ++ [e])).
  { unfold on_run. rewrite fold_left_app. cbn [fold_left]. unfold e. destruct (cp_ok (t_cp t)); reflexivity. }
  rewrite Ee. eexists; split; [reflexivity|].
  assert (Ik : In n (dict_keys L)) by (eapply dict_get_key; eassumption).
  constructor.
  - rewrite dict_set_same_keys by assumption. apply (li_keys _ _ I).
  - intros m b Gb. destruct (eq_dec m n) as [->|Nm].
    + rewrite Ga in Gb; injection Gb as <-. exists (es ++ [e]). rewrite dict_get_set_same. split; [reflexivity|]. split.
      * intros e' He'. apply in_app_iff in He'. destruct He' as [He'|[<-|[]]].
        -- destruct (F1 e' He') as [|(u & U & S)]; [auto|right]. exists u; split; [|assumption]. destruct U as (U1 & U2). split; [apply Hin; auto|assumption].
        -- right; exists t; split; [|assumption]. split; [apply Hin; auto|auto].
      * intros u (U1 & U2 & U3). apply Hin in U1. destruct U1 as [U1| ->].
        -- destruct (F2 u (conj U1 (conj U2 U3))) as (e' & He' & S). exists e'; split; [apply in_app_iff; left; assumption|assumption].
        -- exists e; split; [apply in_app_iff; right; left; reflexivity|assumption].
    + rewrite dict_get_set_other by assumption. destruct (li_get _ _ I m b Gb) as (es' & Es' & F1' & F2').
      exists es'; split; [assumption|]. split.
      * intros e' He'. destruct (F1' e' He') as [|(u & U & S)]; [auto|right]. exists u; split; [|assumption]. destruct U as (U1 & U2). split; [apply Hin; auto|assumption].
      * intros u (U1 & U2 & U3). apply Hin in U1. destruct U1 as [U1| ->]; [apply F2'; split; auto|]. exfalso. apply Nm. symmetry. exact U3.
Qed.

Lemma components_step trace : forall tr part L, linv (tr ++ [part]) L -> good_trace dom trace ->
  exists L', fold_res (train_component n_safe n_add dom) trace L = Ok L' /\ linv (tr ++ [part ++ trace]) L'.
Proof.
  induction trace as [|t trace IH]; intros tr part L I Gt; [exists L; rewrite app_nil_r; auto|].
  destruct (Gt t (or_introl eq_refl)) as [G1 G2]. destruct (component_step tr part t L I G1 G2) as (L1 & E1 & I1).
  destruct (IH tr (part ++ [t]) L1 I1) as (L2 & E2 & I2); [intros u Hu; apply Gt; right; assumption|].
  exists L2. cbn [fold_res]. rewrite E1. cbn [bind]. rewrite <- app_assoc in I2. auto.
Qed.

Lemma review_step tr L n : linv tr L -> In n (dict_keys (d_actions dom)) -> exists L', review_action n_safe n_add L n = Ok L' /\ linv tr L'.
Proof.
  intros I Hn. apply dict_get_Some_iff in Hn. destruct Hn as (a & Ga). destruct (li_get _ _ I n a Ga) as (es & Es & F1 & F2).
  unfold review_action. rewrite (dict_lookup_Some _ _ _ Es). cbn [bind].
  assert (Ee : eliminate_undecided n_safe n_add (on_run n_safe n_add (voc a) (n_init n) es) = on_run n_safe n_add (voc a) (n_init n) (es ++ [x_review])).
  { unfold on_run. rewrite fold_left_app. reflexivity. }
  rewrite Ee. eexists; split; [reflexivity|]. assert (Ik : In n (dict_keys L)) by (eapply dict_get_key; eassumption).
  constructor.
  - rewrite dict_set_same_keys by assumption. apply (li_keys _ _ I).
  - intros m b Gb. destruct (eq_dec m n) as [->|Nm]; [|rewrite dict_get_set_other by assumption; apply (li_get _ _ I m b Gb)].
    rewrite Ga in Gb; injection Gb as <-. rewrite dict_get_set_same. exists (es ++ [x_review]); split; [reflexivity|]. split.
    + intros e' He'. apply in_app_iff in He'. destruct He' as [He'|[<-|[]]]; auto.
    + intros u U. destruct (F2 u U) as (e' & He' & S). exists e'; split; [apply in_app_iff; left; assumption|assumption].
Qed.
Lemma reviews_step ns : forall tr L, linv tr L -> incl ns (dict_keys (d_actions dom)) ->
  exists L', fold_res (review_action n_safe n_add) ns L = Ok L' /\ linv tr L'.
Proof.
  induction ns as [|n ns IH]; intros tr L I Hi; [exists L; auto|].
  destruct (review_step tr L n I (Hi n (or_introl eq_refl))) as (L1 & E1 & I1).
  destruct (IH tr L1 I1) as (L2 & E2 & I2); [intros x Hx; apply Hi; right; assumption|].
  exists L2. cbn [fold_res]. rewrite E1. auto.
Qed.

Lemma train_linv traces : (forall trace, In trace traces -> good_trace dom trace) ->
  exists L, train n_safe n_add n_init dom traces = Ok L /\ linv traces L.
Proof.
  unfold train.
  assert (G : forall traces tr L, linv tr L -> (forall trace, In trace traces -> good_trace dom trace) ->
     exists L', fold_res (train_trace n_safe n_add dom) traces L = Ok L' /\ linv (tr ++ traces) L').
  { clear traces. induction traces as [|trace traces IH]; intros tr L I Gt; [exists L; rewrite app_nil_r; auto|].
    assert (I0 : linv (tr ++ [[]]) L).
    { eapply linv_same; [|eassumption]. intros t n. unfold used. split.
      - intros ((x & Hx & Ht) & B). split; [exists x; split; [apply in_app_iff; left; assumption|assumption]|assumption].
      - intros ((x & Hx & Ht) & B). split; [|assumption]. apply in_app_iff in Hx. destruct Hx as [Hx|[<-|[]]]; [exists x; auto|destruct Ht]. }
    destruct (components_step trace tr [] L I0 (Gt trace (or_introl eq_refl))) as (L1 & E1 & I1). simpl in I1.
    destruct (reviews_step (dict_keys (d_actions dom)) _ L1 I1 (incl_refl _)) as (L2 & E2 & I2).
    destruct (IH (tr ++ [trace]) L2 I2) as (L3 & E3 & I3); [intros x Hx; apply Gt; right; assumption|].
    exists L3. cbn [fold_res]. unfold train_trace at 1. rewrite E1. cbn [bind]. rewrite E2. cbn [bind]. rewrite <- app_assoc in I3. auto. }
  intros Gt. apply (G traces [] _ linv_init Gt).
Qed.

(** Everything the learner of an action was told is true of the real action. *)
Lemma train_spec traces :
  (forall trace, In trace traces -> good_trace dom trace) ->
  (forall trace t, In trace traces -> In t trace -> faithful real t) ->
  (forall n r q, real n = Some (r, q) -> numeric_sound n_safe n_add (n_init n) q) ->
  exists L, train n_safe n_add n_init dom traces = Ok L /\ dict_keys L = dict_keys (d_actions dom) /\
    forall n a r q, dict_get (d_actions dom) n = Some a -> real n = Some (r, q) ->
      exists st data, dict_get L n = Some st /\ on_disc st = learned (lifted_vocabulary dom (a_sig a) None) data /\
        fits_pre (lifted_vocabulary dom (a_sig a) None) data (a_pre r) /\
        fits_eff (lifted_vocabulary dom (a_sig a) None) data (a_eff r) /\
        total_samples (lifted_vocabulary dom (a_sig a) None) data /\
        (forall t, used traces n t -> cp_ok (t_cp t) = true ->
           let sg := call_assignment (a_sig a) (cp_call (t_cp t)) in
           exists p p', In (s_ok p p') data /\ view dom (a_sig a) (cp_prev (t_cp t)) sg p /\ view dom (a_sig a) (cp_next (t_cp t)) sg p') /\
        (forall p p', In (s_ok p p') data -> exists t, used traces n t /\ cp_ok (t_cp t) = true /\
           let sg := call_assignment (a_sig a) (cp_call (t_cp t)) in
           view dom (a_sig a) (cp_prev (t_cp t)) sg p /\ view dom (a_sig a) (cp_next (t_cp t)) sg p') /\
        (forall s sg ls x, view dom (a_sig a) s sg ls -> is_applicable n_safe (on_disc st) (on_num st) ls x = true -> can_execute r q sg s x).
Proof.
  intros Gt Ft Hn. destruct (train_linv traces Gt) as (L & E & I). exists L. split; [assumption|]. split; [apply (li_keys _ _ I)|].
  intros n a r q Ga Er. destruct (li_get _ _ I n a Ga) as (es & Es & F1 & F2).
  assert (Sg : a_sig r = a_sig a).
  { destruct (ra_sig _ _ RA n a Ga) as (r' & q' & Er' & S). rewrite Er in Er'. injection Er' as <- <-. assumption. }
  assert (Fresh : forall t, used traces n t -> length (c_params (cp_call (t_cp t))) = length (a_sig a) /\ no_constant_args dom (cp_call (t_cp t)) /\ faithful real t).
  { intros t ((x & Hx & Ht) & _ & Hn'). destruct (Gt x Hx t Ht) as [(a' & Ga' & Hl) Hc]. rewrite Hn', Ga in Ga'. injection Ga' as <-.
    split; [assumption|]. split; [assumption|]. eapply Ft; eassumption. }
  set (ja := mkJoint (a_pre r) (a_eff r) q).
  assert (Pre_view : forall s sg ls, view dom (a_sig a) s sg ls -> (incl (a_pre r) ls <-> forall l, In l (a_pre r) -> lit_true s (ground sg l))).
  { intros s sg ls V. split.
    - intros A l Hl. apply A, V in Hl. apply Hl.
    - intros A l Hl. apply V. split; [rewrite <- Sg; eapply ra_pre; eassumption|auto]. }
  assert (Real : forall e, In e es -> real_execution ja e).
  { intros e He. destruct (F1 e He) as [->|(t & U & p & p' & V & V' & ->)]; [exact Logic.I|].
    destruct (Fresh t U) as (Hl & Hc & (r' & q' & Er' & Hf)). assert (Un := U). destruct Un as (_ & Hnd & Hname).
    rewrite Hname, Er in Er'. injection Er' as <- <-. rewrite Sg in Hf.
    destruct (cp_ok (t_cp t)); simpl.
    - destruct Hf as [[H1 H2] H3]. split; [split; [apply (Pre_view _ _ _ V); assumption|assumption]|].
      simpl. eapply view_becomes; eassumption.
    - intros [H1 H2]. apply Hf. split; [|assumption]. apply (Pre_view _ _ _ V). assumption. }
  assert (Inc : incl (j_pre ja) (voc a)).
  { intros l Hl. apply (voc_In n a l Ga). rewrite <- Sg. eapply ra_pre; eassumption. }
  destruct (run_split n_safe n_add ja (voc a) (n_init n) Inc (Hn n r q Er) es Real) as (data & ds & df & nf & P).
  assert (Okd : forall p p', In (s_ok p p') data <-> exists x x', In (x_ok p x p' x') es).
  { intros p p'. rewrite in_sample_successes, (p_ok _ _ _ _ _ _ _ _ _ _ _ P). split.
    - intros H. apply in_map_iff in H. destruct H as ([[s s'] [x x']] & Eq & H). simpl in Eq. injection Eq as -> ->.
      apply in_flat_map in H. destruct H as (e & He & J). destruct e; [|destruct J|destruct J]. destruct J as [[= -> -> -> ->]|[]]. eauto.
    - intros (x & x' & H). apply in_map_iff. exists ((p, p'), (x, x')). split; [reflexivity|]. apply in_flat_map. eexists; split; [eassumption|left; reflexivity]. }
  exists (on_run n_safe n_add (voc a) (n_init n) es), data.
  split; [assumption|]. split; [apply (p_disc _ _ _ _ _ _ _ _ _ _ _ P)|]. split; [|split; [|split; [|split; [|split]]]].
  - eapply (split_fits n_add ja (voc a) (n_init n) Inc); [eapply good_run; eassumption|eassumption].
  - split; [|split].
    + intros l Hl. apply (voc_In n a l Ga). rewrite <- Sg. eapply ra_eff; eassumption.
    + intros l. eapply (ra_cons _ _ RA); eassumption.
    + intros p p' H. apply Okd in H. destruct H as (x & x' & H). apply (Real _ H).
  - split; [intros l; apply (voc_neg n a l Ga)|]. intros d Hd. destruct d as [p p'|p].
    + apply Okd in Hd. destruct Hd as (x & x' & H). destruct (F1 _ H) as [|(t & U & u & u' & V & V' & Eq)]; [discriminate|].
      destruct (cp_ok (t_cp t)); [|discriminate]. injection Eq as -> -> -> ->. split; eapply view_total; eassumption.
    + apply in_sample_failures in Hd. rewrite (p_df _ _ _ _ _ _ _ _ _ _ _ P) in Hd. apply in_map_iff in Hd. destruct Hd as ([s x] & Eq & Hd). simpl in Eq. subst s.
      assert (Hf : In (p, x) (failures es)) by (eapply Permutation_in; [symmetry; apply (p_perm _ _ _ _ _ _ _ _ _ _ _ P)|apply in_app_iff; left; assumption]).
      apply in_flat_map in Hf. destruct Hf as (e & He & J). destruct e as [|s y|]; [destruct J| |destruct J]. destruct J as [[= -> ->]|[]].
      destruct (F1 _ He) as [|(t & U & u & u' & V & V' & Eq)]; [discriminate|].
      destruct (cp_ok (t_cp t)); [discriminate|]. injection Eq as -> ->. eapply view_total; eassumption.
  - intros t U Hok. destruct (F2 t U) as (e & He & p & p' & V & V' & Eq). rewrite Hok in Eq. subst e.
    exists p, p'. split; [apply Okd; eauto|auto].
  - intros p p' H. apply Okd in H. destruct H as (x & x' & H). destruct (F1 _ H) as [|(t & U & u & u' & V & V' & Eq)]; [discriminate|].
    destruct (cp_ok (t_cp t)) eqn:Hok; [|discriminate]. injection Eq as -> -> -> ->. exists t; auto.
  - intros s sg ls x V A. apply (applicable_sound n_safe n_add ja (voc a) (n_init n) Inc (Hn n r q Er) es ls x Real) in A.
    destruct A as [A1 A2]. split; [|assumption]. apply (Pre_view _ _ _ V). assumption.
Qed.

Lemma train_models traces :
  (forall trace, In trace traces -> good_trace dom trace) ->
  (forall trace t, In trace traces -> In t trace -> faithful real t) ->
  (forall n r q, real n = Some (r, q) -> numeric_sound n_safe n_add (n_init n) q) ->
  exists L, train n_safe n_add n_init dom traces = Ok L /\
    forall n a r q st fl sg s, dict_get (d_actions dom) n = Some a -> real n = Some (r, q) -> dict_get L n = Some st ->
      (f_holds (fun l => lit_true s (ground sg l)) (fst (get_safe_model fl (on_disc st))) -> forall l, In l (a_pre r) -> lit_true s (ground sg l)) /\
      ((forall l, In l (a_pre r) -> lit_true s (ground sg l)) -> f_holds (fun l => lit_true s (ground sg l)) (fst (get_optimistic_model fl (on_disc st)))) /\
      (forall l, In l (snd (get_safe_model fl (on_disc st))) -> In l (a_eff r)) /\
      ((exists t, used traces n t /\ cp_ok (t_cp t) = true) -> forall l, In l (a_eff r) -> In l (snd (get_optimistic_model fl (on_disc st)))).
Proof.
  intros Gt Ft Hn. destruct (train_spec traces Gt Ft Hn) as (L & E & _ & S). exists L; split; [assumption|].
  intros n a r q st fl sg s Ga Er Es. destruct (S n a r q Ga Er) as (st' & data & Es' & Ed & Fp & Fe & T & Ok1 & _).
  rewrite Es in Es'. injection Es' as <-. rewrite Ed. split; [|split; [|split]].
  - intros A l Hl. exact (safe_stronger _ _ fl (fun l => lit_true s (ground sg l)) _ Fp A l Hl).
  - intros A. exact (optimistic_weaker _ _ fl (fun l => lit_true s (ground sg l)) _ Fp A).
  - intros l Hl. exact (proj1 (must_exact _ _ T fl l (ex_intro _ _ Fe)) Hl _ Fe).
  - intros (t & U & Hok) l Hl. destruct (Ok1 t U Hok) as (p & p' & D & _).
    apply (optimistic_effects_exact _ _ T fl l (ex_intro _ _ Fe)); eauto.
Qed.

(** Every learner has been reviewed at the end. *)
Definition reviewed (st : online N F) : Prop :=
  forall sx, In sx (on_undecided st) -> is_state_in_safe_model (on_disc st) (fst sx) = false /\ n_safe (on_num st) (snd sx) = false.
Lemma reviews_reviewed (Hn : forall n x y, n_safe (n_add n x None) y = n_safe n y) ns : forall L L',
  fold_res (review_action n_safe n_add) ns L = Ok L' ->
  forall n st, dict_get L' n = Some st -> In n ns \/ (exists st0, dict_get L n = Some st0 /\ reviewed st0) -> reviewed st.
Proof.
  induction ns as [|m ns IH]; intros L L' E n st G H; cbn [fold_res] in E.
  - injection E as <-. destruct H as [[]|(st0 & G0 & R)]. rewrite G in G0. injection G0 as <-. assumption.
  - destruct (review_action n_safe n_add L m) as [L1|] eqn:E1; [|discriminate]. cbn [bind] in E.
    apply (IH L1 L' E n st G). unfold review_action in E1. destruct (dict_lookup L m) as [sm|] eqn:Em; [|discriminate].
    cbn [bind] in E1. injection E1 as <-. destruct (eq_dec n m) as [->|Nm].
    + right. rewrite dict_get_set_same. eexists; split; [reflexivity|]. intros sx. exact (review_fixpoint n_safe n_add sm Hn sx).
    + destruct H as [[<-|H]|H]; [congruence|left; assumption|right]. rewrite dict_get_set_other by assumption. assumption.
Qed.
Lemma train_reviewed traces L : (forall n x y, n_safe (n_add n x None) y = n_safe n y) ->
  (forall trace, In trace traces -> good_trace dom trace) ->
  train n_safe n_add n_init dom traces = Ok L -> forall n st, dict_get L n = Some st -> reviewed st.
Proof.
  intros Hn Gt E n st G. unfold train in E. destruct traces as [|tr0 traces0] eqn:Et.
  - simpl in E. injection E as <-. unfold initialize_learners in G. apply dict_get_In in G.
    rewrite dict_of_NoDup in G by (rewrite map_map; exact (wf_acts _ W)).
    apply in_map_iff in G. destruct G as (na & [= _ <-] & _). intros sx [].
  - destruct (@exists_last _ (tr0 :: traces0)) as (init & last & El); [discriminate|]. rewrite El in E, Gt.
    rewrite fold_res_app in E. destruct (fold_res (train_trace n_safe n_add dom) init (initialize_learners n_init dom)) as [L1|] eqn:E1; [|discriminate].
    cbn [bind fold_res] in E. destruct (train_trace n_safe n_add dom L1 last) as [L2|] eqn:E2; [|discriminate]. cbn [bind] in E. injection E as <-.
    unfold train_trace in E2. destruct (fold_res (train_component n_safe n_add dom) last L1) as [L3|] eqn:E3; [|discriminate]. cbn [bind] in E2.
    destruct (train_linv (init ++ [last]) Gt) as (L' & EL & I).
    assert (L' = L2) as ->.
    { unfold train in EL. rewrite fold_res_app, E1 in EL. cbn [bind fold_res] in EL. unfold train_trace in EL. rewrite E3 in EL. cbn [bind] in EL. rewrite E2 in EL. cbn [bind] in EL. congruence. }
    apply (reviews_reviewed Hn _ L3 L2 E2 n st G). left. rewrite <- (li_keys _ _ I). eapply dict_get_key; eassumption.
Qed.
End Train.
