(** * Proofs about single steps of arbitrary learner states, and about learning in batches *)
From Verif Require Import PreludeProofs SamModel SamSpec VocabProofs SamProofs SamFinal.

(** ** Steps of arbitrary learner states *)
Lemma put_action_get L n a k :
  dict_get (d_actions (s_dom (put_action L n a))) k = if eq_dec k n then Some a else dict_get (d_actions (s_dom L)) k.
Proof. apply dict_get_set. Qed.

Tactic Notation "inv_bind" hyp(H) "as" ident(x) ident(E) := apply bind_Ok in H; destruct H as (x & E & H).

Lemma dict_lookup_Ok {V} (d : list (string * V)) k v : dict_lookup d k = Ok v -> dict_get d k = Some v.
Proof. unfold dict_lookup. destruct (dict_get d k); congruence. Qed.

(** What a component does to the record of an action, whatever the learner state. *)
Record step_effect (L L' : learner) (n : string) : Prop :=
  { se_other : forall k, k <> n -> dict_get (d_actions (s_dom L')) k = dict_get (d_actions (s_dom L)) k;
    se_preds : d_preds (s_dom L') = d_preds (s_dom L);
    se_consts : d_consts (s_dom L') = d_consts (s_dom L);
    se_mono : forall a, dict_get (d_actions (s_dom L)) n = Some a ->
      exists a', dict_get (d_actions (s_dom L')) n = Some a' /\ a_sig a' = a_sig a /\ a_name a' = a_name a /\
        incl (a_ineq a') (a_ineq a) /\
        (In n (s_observed L) -> incl (a_pre a') (a_pre a)) /\
        (d_consts (s_dom L) = [] -> incl (a_eff a) (a_eff a')) }.

Lemma fold_discard_incl {A} `{EqDec A} gs (i : list (A * A)) :
  incl (fold_left (fun i lifted => fold_left (fun i p => set_discard p i) (pairs2 lifted) i) gs i) i.
Proof.
  intros p Hp. rewrite <- (fold_left_map (fun i ps => fold_left (fun i p => set_discard p i) ps i) pairs2) in Hp.
  apply fold_discard_groups in Hp. tauto.
Qed.

Lemma handle_component_effect L cp L' :
  handle_component L cp = Ok L' -> step_effect L L' (c_name (cp_call cp)).
Proof.
  set (c := cp_call cp). set (n := c_name c).
  unfold handle_component, verify_parameter_duplication. fold c.
  destruct (contains_duplicates (c_params c)).
  - intros E. inv_bind E as r Er. inv_bind Er as b Eb. apply dict_lookup_Ok in Eb. injection Er as <-. cbn in E. injection E as <-.
    fold n in Eb. fold n.
    constructor; try reflexivity.
    + intros k Hk. rewrite put_action_get. destruct (eq_dec k n); congruence.
    + intros a Ha. rewrite put_action_get. destruct (eq_dec n n); [|congruence].
      assert (b = a) by congruence. subst b. eexists; split; [reflexivity|]. simpl. repeat split; auto using incl_refl.
      apply fold_discard_incl.
  - intros E. cbn [bind] in E. inv_bind E as pn Epn. destruct pn as [prev next]. clear Epn.
    fold n in E. destruct (memb n (s_observed L)) eqn:Em.
    + unfold update_action, update_action_preconditions in E. fold n in E.
      inv_bind E as L1 EL1. inv_bind EL1 as a Ea. inv_bind EL1 as ms Ems. apply dict_lookup_Ok in Ea. injection EL1 as <-.
      inv_bind E as ad Ead. destruct ad as [adds dels]. inv_bind E as a1 Ea1. apply dict_lookup_Ok in Ea1.
      rewrite put_action_get in Ea1. destruct (eq_dec n n) as [_|]; [|congruence]. injection Ea1 as <-.
      set (a2 := with_eff _ _) in E.
      set (L2 := put_action _ n a2) in E.
      assert (G2 : dict_get (d_actions (s_dom L2)) n = Some a2) by (unfold L2; rewrite put_action_get; destruct (eq_dec n n); congruence).
      assert (O2 : forall k, k <> n -> dict_get (d_actions (s_dom L2)) k = dict_get (d_actions (s_dom L)) k).
      { intros k Hk. unfold L2. rewrite !put_action_get. destruct (eq_dec k n); congruence. }
      change (d_consts (s_dom L2)) with (d_consts (s_dom L)) in E.
      destruct (d_consts (s_dom L)) as [|c0 cs0] eqn:Ec.
      * injection E as <-. constructor; try reflexivity; auto.
        intros a' Ha. exists a2. assert (a' = a) by congruence. subst a'. split; [assumption|].
        repeat split; auto using incl_refl.
        -- intros _ l Hl. apply filter_In in Hl. tauto.
        -- intros _ l Hl. apply set_union_In. left; assumption.
      * unfold handle_consts_in_effects in E. fold n in E. inv_bind E as a3 Ea3. apply dict_lookup_Ok in Ea3.
        assert (a3 = a2) by congruence. subst a3.
        inv_bind E as ns Ens. inv_bind E as cb Ecb. injection E as <-. constructor; try reflexivity.
        -- intros k Hk. rewrite put_action_get. destruct (eq_dec k n); [congruence|]. apply O2; assumption.
        -- intros a' Ha. assert (a' = a) by congruence. subst a'. rewrite put_action_get. destruct (eq_dec n n); [|congruence].
           eexists; split; [reflexivity|]. repeat split; auto using incl_refl.
           ++ intros _ l Hl. simpl in Hl. apply filter_In in Hl. tauto.
           ++ rewrite Ec. discriminate.
    + unfold add_new_action, add_new_action_preconditions in E. fold n in E.
      inv_bind E as L1 EL1. inv_bind EL1 as a Ea. inv_bind EL1 as ms Ems. apply dict_lookup_Ok in Ea. injection EL1 as <-.
      inv_bind E as ad Ead. destruct ad as [adds dels]. inv_bind E as a1 Ea1. apply dict_lookup_Ok in Ea1.
      rewrite put_action_get in Ea1. destruct (eq_dec n n) as [_|]; [|congruence]. injection Ea1 as <-.
      injection E as <-.
      constructor; try reflexivity; cbn [s_dom with_observed].
      * intros k Hk. rewrite !put_action_get. destruct (eq_dec k n); congruence.
      * intros a' Ha. assert (a' = a) by congruence. subst a'. rewrite put_action_get. destruct (eq_dec n n); [|congruence].
        eexists; split; [reflexivity|]. repeat split; auto using incl_refl.
        -- intros Hin. apply memb_In in Hin. congruence.
        -- intros _ l Hl. apply set_union_In. left; assumption.
Qed.

(** ** Simulation between a learner run in batches and a learner run once *)
Record asim (a b : action) : Prop :=
  { as_name : a_name a = a_name b; as_sig : a_sig a = a_sig b;
    as_pre : incl (a_pre b) (a_pre a); as_eff : a_eff a = a_eff b; as_ineq : incl (a_ineq b) (a_ineq a) }.
Definition oasim (a b : option action) : Prop :=
  match a, b with Some a, Some b => asim a b | None, None => True | _, _ => False end.
Record sim (L S : learner) : Prop :=
  { sm_preds : d_preds (s_dom L) = d_preds (s_dom S);
    sm_funcs : d_funcs (s_dom L) = d_funcs (s_dom S);
    sm_consts : d_consts (s_dom L) = d_consts (s_dom S);
    sm_obs : s_observed L = s_observed S;
    sm_cbe : s_cbe L = s_cbe S;
    sm_sigs : s_sigs L = s_sigs S;
    sm_policy : s_policy L = s_policy S;
    sm_inj : s_injective L = s_injective S;
    sm_act : forall n, oasim (dict_get (d_actions (s_dom L)) n) (dict_get (d_actions (s_dom S)) n) }.

Lemma asim_refl a : asim a a.
Proof. constructor; auto using incl_refl. Qed.

Lemma sim_lookup L S n a b : sim L S -> dict_get (d_actions (s_dom L)) n = Some a ->
  dict_get (d_actions (s_dom S)) n = Some b -> asim a b.
Proof. intros H Ha Hb. pose proof (sm_act _ _ H n) as Hs. rewrite Ha, Hb in Hs. exact Hs. Qed.

Lemma match_predicate_sim L S g c :
  sim L S -> match_predicate (s_dom L) g c None = match_predicate (s_dom S) g c None.
Proof.
  intros H. unfold match_predicate, dict_lookup. rewrite (sm_consts _ _ H). pose proof (sm_act _ _ H (c_name c)) as Hs.
  destruct (dict_get (d_actions (s_dom L)) (c_name c)) as [a|], (dict_get (d_actions (s_dom S)) (c_name c)) as [b|]; simpl in Hs; try tauto.
  simpl. rewrite (as_sig _ _ Hs). reflexivity.
Qed.
Lemma fold_res_ext {A S} (f g : S -> A -> res S) l s : (forall s x, f s x = g s x) -> fold_res f l s = fold_res g l s.
Proof. intros H. revert s; induction l as [|x l IH]; intros s; simpl; [reflexivity|]. rewrite H. destruct (g s x); simpl; auto. Qed.
Lemma plm_sim L S c lits :
  sim L S -> possible_literal_matches (s_dom L) c lits None = possible_literal_matches (s_dom S) c lits None.
Proof.
  intros H. unfold possible_literal_matches, dict_lookup. pose proof (sm_act _ _ H (c_name c)) as Hs.
  destruct (dict_get (d_actions (s_dom L)) (c_name c)) as [a|], (dict_get (d_actions (s_dom S)) (c_name c)) as [b|]; simpl in Hs; try tauto.
  simpl. apply fold_res_ext. intros s x. rewrite (match_predicate_sim L S x c H). reflexivity.
Qed.

Lemma sim_put L S n a b : sim L S -> asim a b -> sim (put_action L n a) (put_action S n b).
Proof.
  intros [] Hab. constructor; try assumption. intros k. rewrite !put_action_get. destruct (eq_dec k n); [exact Hab|auto].
Qed.

Definition rsim (x y : res learner) : Prop :=
  match x, y with Ok L, Ok M => sim L M | Err e, Err e' => e = e' | _, _ => False end.

Lemma snapshot_dom_ext d d' st objs :
  d_preds d = d_preds d' -> d_consts d = d_consts d' -> discrete_state_snapshot d st objs = discrete_state_snapshot d' st objs.
Proof. intros H1 H2. unfold discrete_state_snapshot, grounded_predicate_vocabulary. rewrite H1, H2. reflexivity. Qed.
Lemma lifted_vocabulary_dom_ext d d' sig m :
  d_preds d = d_preds d' -> d_consts d = d_consts d' -> lifted_vocabulary d sig m = lifted_vocabulary d' sig m.
Proof. intros H1 H2. unfold lifted_vocabulary. rewrite H1, H2. reflexivity. Qed.

Lemma effects_sim L S c prev next : sim L S -> handle_action_effects L c prev next = handle_action_effects S c prev next.
Proof.
  intros H. unfold handle_action_effects. destruct (extract_discrete_effects prev next). rewrite !(plm_sim L S) by assumption. reflexivity.
Qed.

Lemma handle_component_sim L S cp : sim L S -> rsim (handle_component L cp) (handle_component S cp).
Proof.
  intros H. set (c := cp_call cp). set (n := c_name c). pose proof (sm_act _ _ H n) as Hn.
  unfold handle_component, verify_parameter_duplication. fold c.
  destruct (contains_duplicates (c_params c)).
  - unfold dict_lookup. fold n. destruct (dict_get (d_actions (s_dom L)) n) as [a|], (dict_get (d_actions (s_dom S)) n) as [b|]; simpl in Hn; try tauto; simpl; [|reflexivity].
    apply sim_put; [assumption|]. destruct Hn. constructor; simpl; auto. intros [x y] Hp.
    unfold grounded_signature_map in *. rewrite as_sig0.
    rewrite <- (fold_left_map (fun i ps => fold_left (fun i p => set_discard p i) ps i) pairs2) in *.
    apply fold_discard_groups in Hp. apply fold_discard_groups. destruct Hp; split; auto.
  - cbn [bind]. unfold triplet_snapshot, dict_lookup. fold n.
    destruct (dict_get (d_actions (s_dom L)) n) as [a|] eqn:Ea, (dict_get (d_actions (s_dom S)) n) as [b|] eqn:Eb; simpl in Hn; try tauto; cbn [bind]; [|reflexivity].
    unfold parameterized_objects. rewrite (as_sig _ _ Hn), (sm_consts _ _ H).
    rewrite !(snapshot_dom_ext (s_dom L) (s_dom S)) by apply H.
    set (prev := discrete_state_snapshot _ _ _). set (next := discrete_state_snapshot _ _ _).
    rewrite (sm_obs _ _ H). destruct (memb n (s_observed S)).
    + unfold update_action, update_action_preconditions, dict_lookup. fold n. rewrite Ea, Eb. cbn [bind].
      rewrite (plm_sim L S) by assumption.
      destruct (possible_literal_matches (s_dom S) c prev None) as [ms|]; [|reflexivity]. cbn [bind].
      set (a1 := with_pre a _). set (b1 := with_pre b _).
      assert (Hab1 : asim a1 b1).
      { destruct Hn. constructor; simpl; auto. intros l Hl. apply filter_In in Hl. apply filter_In. destruct Hl; auto. }
      assert (H1 := sim_put _ _ n _ _ H Hab1).
      rewrite (effects_sim _ _ _ _ _ H1). destruct (handle_action_effects _ c prev next) as [[adds dels]|]; [|reflexivity]. cbn [bind].
      rewrite !put_action_get. destruct (eq_dec n n); [|congruence]. cbn [bind].
      set (a2 := with_eff a1 _). set (b2 := with_eff b1 _).
      assert (Hab2 : asim a2 b2).
      { destruct Hab1. constructor; simpl; auto. unfold a2, b2. simpl. rewrite (as_eff _ _ Hn). reflexivity. }
      assert (H2 := sim_put _ _ n _ _ H1 Hab2).
      set (L2 := put_action _ n a2) in *. set (S2 := put_action _ n b2) in *.
      rewrite (sm_consts _ _ H2). destruct (d_consts (s_dom S2)) eqn:Ec; [exact H2|]. clear Ec.
      unfold handle_consts_in_effects, dict_lookup. fold n. unfold L2 at 1, S2 at 1. rewrite !put_action_get.
      destruct (eq_dec n n); [|congruence]. cbn [bind]. rewrite (plm_sim _ _ _ _ H2).
      destruct (possible_literal_matches (s_dom S2) c next None) as [ns|]; [|reflexivity]. cbn [bind].
      rewrite (sm_cbe _ _ H2). destruct (dict_get (s_cbe S2) n) as [cb|]; [|reflexivity]. cbn [bind].
      rewrite (as_sig _ _ Hab2), (lifted_vocabulary_dom_ext (s_dom L2) (s_dom S2)) by apply H2.
      apply sim_put.
      * destruct H2. constructor; simpl; auto.
      * destruct Hab2. constructor; try assumption. cbn [a_eff with_eff]. rewrite as_eff0. reflexivity.
    + unfold add_new_action, add_new_action_preconditions, dict_lookup. fold n. rewrite Ea, Eb. cbn [bind].
      rewrite (plm_sim L S) by assumption.
      destruct (possible_literal_matches (s_dom S) c prev None) as [ms|]; [|reflexivity]. cbn [bind].
      set (a1 := with_pre a _). set (b1 := with_pre b _).
      assert (Hab1 : asim a1 b1).
      { destruct Hn. constructor; simpl; auto. intros l Hl. rewrite !set_union_In in *. destruct Hl; auto. }
      assert (H1 := sim_put _ _ n _ _ H Hab1).
      rewrite (effects_sim _ _ _ _ _ H1). destruct (handle_action_effects _ c prev next) as [[adds dels]|]; [|reflexivity]. cbn [bind].
      rewrite !put_action_get. destruct (eq_dec n n); [|congruence]. cbn [bind].
      assert (Hab2 : asim (with_eff a1 (set_union (a_eff a1) (set_union (to_set adds) dels))) (with_eff b1 (set_union (a_eff b1) (set_union (to_set adds) dels)))).
      { destruct Hab1. constructor; simpl; auto. simpl in as_eff0. rewrite as_eff0. reflexivity. }
      assert (H2 := sim_put _ _ n _ _ H1 Hab2).
      destruct H2. constructor; simpl in *; auto. rewrite sm_obs0, (as_name _ _ Hn). reflexivity.
Qed.

Lemma learn_components_sim obs L S : sim L S -> rsim (learn_components L obs) (learn_components S obs).
Proof.
  rewrite !learn_components_concat. revert L S. induction (concat obs) as [|cp cps IH]; intros L S H; simpl; [exact H|].
  unfold comp_step at 1 3. destruct (cp_ok cp).
  - pose proof (handle_component_sim L S cp H) as Hs.
    destruct (handle_component L cp), (handle_component S cp); simpl in Hs; try tauto; simpl; auto.
  - simpl. apply IH; assumption.
Qed.

Lemma initial_inequalities_grow a : incl (a_ineq a) (a_ineq (initial_inequalities a)).
Proof. intros [x y] H. apply initial_inequalities_In; auto. Qed.

Lemma deduce_get L n :
  dict_get (d_actions (s_dom (deduce_initial_inequality_preconditions L))) n =
  match dict_get (d_actions (s_dom L)) n with
  | Some a => Some (if s_injective L then initial_inequalities a else a) | None => None end.
Proof.
  unfold deduce_initial_inequality_preconditions. destruct (s_injective L); simpl.
  - rewrite (dict_get_map_vals (fun na => initial_inequalities (snd na))). destruct (dict_get _ n); reflexivity.
  - destruct (dict_get _ n); reflexivity.
Qed.

(** All signatures known to the learner belong to actions of its domain. *)
Definition complete (L : learner) : Prop := forall n, In n (map fst (s_sigs L)) -> In n (dict_keys (d_actions (s_dom L))).

Lemma deduce_keys L : dict_keys (d_actions (s_dom (deduce_initial_inequality_preconditions L))) = dict_keys (d_actions (s_dom L)).
Proof.
  unfold deduce_initial_inequality_preconditions. destruct (s_injective L); [|reflexivity]. simpl.
  apply (dict_keys_map_vals (fun na => initial_inequalities (snd na))).
Qed.
Lemma deduce_complete L : complete L -> complete_possibly_missing_actions (deduce_initial_inequality_preconditions L) = deduce_initial_inequality_preconditions L.
Proof.
  intros H. apply complete_id. rewrite deduce_keys. replace (s_sigs (deduce_initial_inequality_preconditions L)) with (s_sigs L); [exact H|].
  unfold deduce_initial_inequality_preconditions; destruct (s_injective L); reflexivity.
Qed.

Lemma begin_sim L S : complete L -> sim L S -> sim (complete_possibly_missing_actions (deduce_initial_inequality_preconditions L)) S.
Proof.
  intros Hc H. rewrite deduce_complete by assumption.
  assert (E : forall f, f (deduce_initial_inequality_preconditions L) = f (if s_injective L then deduce_initial_inequality_preconditions L else L)
              :> learner) by (intros f; unfold deduce_initial_inequality_preconditions; destruct (s_injective L); reflexivity). clear E.
  constructor.
  1,2,3,4,5,6,7,8: unfold deduce_initial_inequality_preconditions; destruct (s_injective L) eqn:Ei; simpl; try apply H; try (rewrite <- Ei; apply H).
  - intros n. rewrite deduce_get. pose proof (sm_act _ _ H n) as Hn.
    destruct (dict_get (d_actions (s_dom L)) n) as [a|], (dict_get (d_actions (s_dom S)) n) as [b|]; simpl in *; try tauto.
    destruct (s_injective L); [|assumption]. destruct Hn. constructor; simpl; auto.
    intros p Hp. apply (initial_inequalities_grow a). auto.
Qed.

Lemma unobserved_get L n :
  dict_get (d_actions (s_dom (handle_unobserved_actions L))) n =
  match dict_get (d_actions (s_dom L)) n with
  | Some a => Some (if memb n (s_observed L) then a
                    else with_pre a (set_union (a_pre a) (lifted_vocabulary (s_dom L) (a_sig a) None)))
  | None => None end.
Proof.
  unfold handle_unobserved_actions; simpl. induction (d_actions (s_dom L)) as [|[k a] acts IH]; simpl; [reflexivity|].
  destruct (memb k (s_observed L)) eqn:Em; simpl; (destruct (eq_dec n k) as [->|]; [rewrite Em; reflexivity|apply IH]).
Qed.

Lemma unobserved_sim L S : sim L S -> sim (handle_unobserved_actions L) (handle_unobserved_actions S).
Proof.
  intros H. constructor; try (destruct H; assumption). intros n. rewrite !unobserved_get. pose proof (sm_act _ _ H n) as Hn.
  destruct (dict_get (d_actions (s_dom L)) n) as [a|], (dict_get (d_actions (s_dom S)) n) as [b|]; simpl in *; try tauto.
  rewrite (sm_obs _ _ H). destruct (memb n (s_observed S)); [assumption|].
  rewrite (lifted_vocabulary_dom_ext (s_dom L) (s_dom S)) by apply H. destruct Hn. constructor; simpl; auto.
  rewrite as_sig0. intros l. rewrite !set_union_In. intuition.
Qed.
Lemma unobserved_sim_l L S : sim L S -> sim (handle_unobserved_actions L) S.
Proof.
  intros H. constructor; try (destruct H; assumption). intros n. rewrite unobserved_get. pose proof (sm_act _ _ H n) as Hn.
  destruct (dict_get (d_actions (s_dom L)) n) as [a|], (dict_get (d_actions (s_dom S)) n) as [b|]; simpl in *; try tauto.
  destruct (memb n (s_observed L)); [assumption|]. destruct Hn. constructor; simpl; auto.
  intros l Hl. apply set_union_In; auto.
Qed.

Lemma sim_complete L S : sim L S -> complete S -> complete L.
Proof.
  intros H Hc n Hn. rewrite (sm_sigs _ _ H) in Hn. apply Hc in Hn. apply dict_get_Some_iff in Hn. destruct Hn as [b Hb].
  pose proof (sm_act _ _ H n) as Hs. rewrite Hb in Hs. destruct (dict_get (d_actions (s_dom L)) n) eqn:E; [|destruct Hs].
  eapply dict_get_key; eassumption.
Qed.

Lemma comp_step_complete L cp L' : complete L -> comp_step L cp = Ok L' -> complete L' /\ s_policy L' = s_policy L.
Proof.
  unfold comp_step. destruct (cp_ok cp); [|intros ? E; injection E as <-; auto]. intros Hc E.
  assert (Hs : s_sigs L' = s_sigs L /\ s_policy L' = s_policy L).
  { unfold handle_component, verify_parameter_duplication in E.
    destruct (contains_duplicates _).
    - inv_bind E as r Er. inv_bind Er as b Eb. injection Er as <-. cbn in E. injection E as <-. auto.
    - cbn [bind] in E. inv_bind E as pn Epn. destruct pn. destruct (memb _ _).
      + unfold update_action, update_action_preconditions in E. inv_bind E as L1 E1. inv_bind E1 as a Ea. inv_bind E1 as ms Ems. injection E1 as <-.
        inv_bind E as ad Ead. destruct ad. inv_bind E as a1 Ea1. destruct (d_consts _); [injection E as <-; auto|].
        unfold handle_consts_in_effects in E. inv_bind E as a2 Ea2. inv_bind E as ns Ens. inv_bind E as cb Ecb. injection E as <-; auto.
      + unfold add_new_action, add_new_action_preconditions in E. inv_bind E as L1 E1. inv_bind E1 as a Ea. inv_bind E1 as ms Ems. injection E1 as <-.
        inv_bind E as ad Ead. destruct ad. inv_bind E as a1 Ea1. injection E as <-; auto. }
  destruct Hs as [Hs Hp]. split; [|assumption]. intros n Hn. rewrite Hs in Hn. apply Hc in Hn.
  destruct (handle_component_effect L cp L' E) as [H1 _ _ H2].
  destruct (string_dec n (c_name (cp_call cp))) as [->|Hne].
  - apply dict_get_Some_iff in Hn. destruct Hn as [a Ha]. destruct (H2 a Ha) as (a' & Ga' & _). eapply dict_get_key; eassumption.
  - apply dict_get_Some_iff. rewrite H1 by assumption. apply dict_get_Some_iff; assumption.
Qed.
Lemma learn_components_complete L obs L' : complete L -> learn_components L obs = Ok L' -> complete L' /\ s_policy L' = s_policy L.
Proof.
  rewrite learn_components_concat. revert L; induction (concat obs) as [|cp cps IH]; intros L Hc E; simpl in E.
  - injection E as <-; auto.
  - inv_bind E as v E0. destruct (comp_step_complete L cp v Hc E0) as [H1 H2]. destruct (IH v H1 E). split; [assumption|congruence].
Qed.
Lemma unobserved_complete L : complete L -> complete (handle_unobserved_actions L).
Proof.
  intros Hc n Hn. change (s_sigs (handle_unobserved_actions L)) with (s_sigs L) in Hn. apply Hc in Hn. apply dict_get_Some_iff in Hn. destruct Hn as [a Ha].
  apply dict_get_Some_iff. rewrite unobserved_get, Ha. eauto.
Qed.

(** Learning in several calls. *)
Definition learn_batches (L : learner) (batches : list (list (list component))) : res learner :=
  fold_res (fun L obs => let* (L', _) := learn_action_model L obs in Ok L') batches L.

Lemma learn_components_app L o1 o2 :
  learn_components L (o1 ++ o2) = bind (learn_components L o1) (fun L' => learn_components L' o2).
Proof. unfold learn_components. apply fold_res_app. Qed.

Lemma batches_sim bs L S S' :
  sim L S -> complete S -> s_policy S = no_remove -> learn_components S (concat bs) = Ok S' ->
  exists L', learn_batches L bs = Ok L' /\ sim L' S'.
Proof.
  revert L S; induction bs as [|b bs IH]; intros L S H Hc Hp E; simpl in E.
  - unfold learn_components in E; simpl in E. injection E as <-. exists L; split; [reflexivity|assumption].
  - rewrite learn_components_app in E. inv_bind E as v E0.
    unfold learn_batches. cbn [fold_res]. unfold learn_action_model at 1.
    assert (H1 := begin_sim L S (sim_complete L S H Hc) H).
    pose proof (learn_components_sim b _ _ H1) as Hs. rewrite E0 in Hs.
    destruct (learn_components (complete_possibly_missing_actions (deduce_initial_inequality_preconditions L)) b) as [L1|] eqn:E1; [|destruct Hs].
    simpl in Hs. cbn [bind].
    destruct (learn_components_complete S b v Hc E0) as [Hcv Hpv].
    assert (Hpol : s_policy (handle_unobserved_actions L1) = no_remove).
    { change (s_policy L1 = no_remove). rewrite (sm_policy _ _ Hs). congruence. }
    unfold handle_negative_preconditions_policy. rewrite Hpol.
    apply (IH (handle_unobserved_actions L1) v); auto; [apply unobserved_sim_l; assumption|congruence].
Qed.

Lemma init_complete dom policy inj : complete (init_learner dom policy inj).
Proof. intros n Hn. simpl in *. rewrite map_map in Hn. simpl in Hn. exact Hn. Qed.

Lemma sim_refl L : sim L L.
Proof. constructor; auto. intros n. destruct (dict_get _ n); simpl; auto using asim_refl. Qed.

Lemma learn_batches_weaker dom inj bs Ls rep :
  learn_action_model (init_learner dom no_remove inj) (concat bs) = Ok (Ls, rep) -> bs <> [] ->
  exists Lb, learn_batches (init_learner dom no_remove inj) bs = Ok Lb /\
    forall n b, dict_get (d_actions (s_dom Ls)) n = Some b ->
      exists a, dict_get (d_actions (s_dom Lb)) n = Some a /\
        a_sig a = a_sig b /\ incl (a_pre b) (a_pre a) /\ a_eff a = a_eff b /\ incl (a_ineq b) (a_ineq a).
Proof.
  intros E Hne. destruct bs as [|b0 bs]; [congruence|]. clear Hne.
  unfold learn_action_model in E. inv_bind E as v E0. injection E as <- _.
  fold (start dom no_remove inj) in E0.
  assert (Hc0 : complete (start dom no_remove inj)).
  { rewrite start_eq. intros n Hn. rewrite deduce_keys. apply (init_complete dom no_remove inj).
    unfold deduce_initial_inequality_preconditions in Hn. destruct (s_injective _) in Hn; exact Hn. }
  assert (Hp0 : s_policy (start dom no_remove inj) = no_remove).
  { rewrite start_eq. unfold deduce_initial_inequality_preconditions. destruct (s_injective _); reflexivity. }
  cbn [concat] in E0. rewrite learn_components_app in E0. inv_bind E0 as v0 E.
  destruct (learn_components_complete _ _ _ Hc0 E) as [Hc1 Hp1].
  unfold learn_batches. cbn [fold_res]. unfold learn_action_model at 1. fold (start dom no_remove inj). rewrite E. cbn [bind].
  unfold handle_negative_preconditions_policy at 1.
  assert (Hpu : s_policy (handle_unobserved_actions v0) = no_remove) by (change (s_policy v0 = no_remove); congruence).
  rewrite Hpu.
  destruct (learn_components_complete _ _ _ Hc1 E0) as [Hc2 Hp2].
  assert (Hp3 : s_policy (handle_unobserved_actions v) = no_remove) by (change (s_policy v = no_remove); congruence).
  unfold handle_negative_preconditions_policy. rewrite Hp3.
  destruct (rev bs) as [|bl bs'] eqn:Er.
  - apply (f_equal (@rev _)) in Er. rewrite rev_involutive in Er. simpl in Er. subst bs.
    unfold learn_components in E0; simpl in E0. injection E0 as <-.
    exists (handle_unobserved_actions v0). split; [reflexivity|]. intros n b Hb. exists b; auto using incl_refl.
  - assert (Ebs : bs = rev bs' ++ [bl]) by (rewrite <- (rev_involutive bs), Er; reflexivity).
    subst bs. rewrite concat_app in E0. simpl concat in E0 at 2. rewrite app_nil_r, learn_components_app in E0. inv_bind E0 as v1 E1.
    destruct (batches_sim (rev bs') (handle_unobserved_actions v0) v0 v1) as (L1 & EL1 & HL1); auto.
    { apply unobserved_sim_l, sim_refl. }
    rewrite fold_res_app. unfold learn_batches in EL1. rewrite EL1. cbn [bind fold_res].
    destruct (learn_components_complete _ _ _ Hc1 E1) as [Hc3 Hp4].
    assert (H1 := begin_sim L1 v1 (sim_complete L1 v1 HL1 Hc3) HL1).
    unfold learn_action_model. pose proof (learn_components_sim bl _ _ H1) as Hs. rewrite E0 in Hs.
    destruct (learn_components (complete_possibly_missing_actions (deduce_initial_inequality_preconditions L1)) bl) as [L2|] eqn:E2; [|destruct Hs].
    simpl in Hs. cbn [bind].
    assert (Hpol : s_policy (handle_unobserved_actions L2) = no_remove).
    { change (s_policy L2 = no_remove). rewrite (sm_policy _ _ Hs). congruence. }
    unfold handle_negative_preconditions_policy. rewrite Hpol.
    exists (handle_unobserved_actions L2). split; [reflexivity|]. intros n b Hb.
    assert (HF := unobserved_sim _ _ Hs). pose proof (sm_act _ _ HF n) as Hn. rewrite Hb in Hn.
    destruct (dict_get (d_actions (s_dom (handle_unobserved_actions L2))) n) as [a|]; [|destruct Hn].
    exists a. destruct Hn. auto.
Qed.
