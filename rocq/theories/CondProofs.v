(** * Conditional SAM: what the learner knows after any history *)
From Verif Require Import PreludeProofs VocabProofs SamModel SamSpec SamProofs SamFinal LogicProofs DepProofs CondModel CondSpec.

(** ** Lifting snapshots *)
Lemma copy_neg l : copy_lit true l = neg_lit l.
Proof. unfold copy_lit, neg_lit. destruct (l_pos l); reflexivity. Qed.
Lemma neg_neg l : neg_lit (neg_lit l) = l.
Proof. destruct l as [n a p]; unfold neg_lit; simpl. rewrite negb_involutive; reflexivity. Qed.

(** A list of ground literals shows the state [st] to a call: what it says about the literals the action can name is
    exactly what holds in [st]. *)
Definition views (dom : domain) (a : action) (c : call) (st : state) (lits : list literal) : Prop :=
  (forall g, In g lits -> NoDup (l_args g)) /\
  forall m, NoDup (l_args m) -> incl (l_args m) (dict_keys (a_sig a) ++ dict_keys (d_consts dom)) ->
    (In (ground (call_assignment (a_sig a) c) m) lits <->
     mentionable dom (a_sig a) m /\ lit_true st (ground (call_assignment (a_sig a) c) m)).

Lemma mentionable_names dom sig m : mentionable dom sig m ->
  NoDup (l_args m) /\ incl (l_args m) (dict_keys sig ++ dict_keys (d_consts dom)).
Proof.
  intros (psig & os & _ & Hi & Hn & Ha & _). rewrite Ha. split; [assumption|]. intros x Hx.
  apply in_map_iff in Hx. destruct Hx as (o & <- & Ho). apply Hi in Ho. unfold dict_keys. rewrite <- map_app. apply in_map; assumption.
Qed.

Section Lift.
Variables (dom : domain) (a : action) (c : call).
Hypothesis Hg : good_call dom a c.
Let po := parameterized_objects dom a c.
Let sg := call_assignment (a_sig a) c.

Lemma lifted_views st lits : views dom a c st lits ->
  exists ms, possible_literal_matches dom c lits None = Ok ms /\
    forall m, In m ms <-> mentionable dom (a_sig a) m /\ lit_true st (ground sg m).
Proof.
  intros [V1 V2]. destruct (plm_exact dom a c lits Hg V1) as (ms & E & Hms). exists ms; split; [assumption|].
  intros m. rewrite Hms. fold sg in V2 |- *. split.
  - intros (A & B & C). apply V2; assumption.
  - intros H. destruct (mentionable_names _ _ _ (proj1 H)) as [A B]. split; [assumption|]. split; [assumption|]. apply V2; assumption.
Qed.

Lemma snapshot_views st : NoDup (c_params c) -> no_constant_args dom c ->
  views dom a c st (discrete_state_snapshot dom st po).
Proof.
  intros Hp Hc. split; [intros g; apply snapshot_NoDup_args|]. intros m A B.
  rewrite snapshot_exact, <- (typing_ground dom a c m Hg Hp Hc). fold po. tauto.
Qed.

Lemma find_true st lits : views dom a c st lits -> exists ls, find_literals dom c lits true = Ok ls /\ NoDup ls /\
  forall m, In m ls <-> mentionable dom (a_sig a) m /\ lit_true st (ground sg m).
Proof.
  intros V. destruct (lifted_views st lits V) as (ms & E & Hm). unfold find_literals. rewrite E. cbn [bind].
  eexists; split; [reflexivity|]. split; [apply to_set_NoDup|]. intros m. rewrite to_set_In. apply Hm.
Qed.
Lemma find_false st lits : views dom a c st lits -> exists ls, find_literals dom c lits false = Ok ls /\ NoDup ls /\
  forall m, In m ls <-> mentionable dom (a_sig a) m /\ ~ lit_true st (ground sg m).
Proof.
  intros V. destruct (lifted_views st lits V) as (ms & E & Hm). unfold find_literals. rewrite E. cbn [bind].
  eexists; split; [reflexivity|]. split; [apply to_set_NoDup|]. intros m. rewrite to_set_In, in_map_iff. fold sg in Hm. split.
  - intros (x & <- & Hx). rewrite copy_neg. apply Hm in Hx. destruct Hx as [H1 H2]. split; [apply well_typed_neg; assumption|].
    rewrite ground_neg, lit_true_neg. intros H; apply H; assumption.
  - intros [H1 H2]. exists (neg_lit m). split; [rewrite copy_neg, neg_neg; reflexivity|].
    apply Hm. split; [apply well_typed_neg; assumption|]. rewrite ground_neg, lit_true_neg. assumption.
Qed.
Lemma cond_effects st st' prev next : views dom a c st prev -> views dom a c st' next -> exists es,
  lifted_conditional_effects dom c prev next = Ok es /\ NoDup es /\
  forall m, In m es <-> mentionable dom (a_sig a) m /\ ~ lit_true st (ground sg m) /\ lit_true st' (ground sg m).
Proof.
  intros [V1 V2] [W1 W2]. unfold lifted_conditional_effects.
  pose proof (extract_discrete_effects_exact prev next) as He.
  destruct (extract_discrete_effects _ _) as [ga gd]. destruct He as [Ha Hd].
  destruct (plm_exact dom a c (set_union ga gd) Hg) as (ms & Em & Hms).
  { intros g Hin. apply set_union_In in Hin. destruct Hin as [Hin|Hin].
    - apply Ha in Hin. destruct Hin as (_ & Hin & _). apply W1; assumption.
    - apply Hd in Hin. destruct Hin as (_ & Hin & _). apply V1 in Hin. exact Hin. }
  rewrite Em. cbn [bind]. eexists; split; [reflexivity|]. split; [apply to_set_NoDup|].
  intros m. rewrite to_set_In, Hms, set_union_In, Ha, Hd, <- !ground_neg. fold sg.
  assert (Hn : forall ls st0, views dom a c st0 ls -> NoDup (l_args m) -> incl (l_args m) (dict_keys (a_sig a) ++ dict_keys (d_consts dom)) ->
     (In (ground sg m) ls <-> mentionable dom (a_sig a) m /\ lit_true st0 (ground sg m)) /\
     (In (ground sg (neg_lit m)) ls <-> mentionable dom (a_sig a) m /\ ~ lit_true st0 (ground sg m))).
  { intros ls st0 [_ X] A B. split; [apply X; assumption|]. unfold sg. rewrite (X (neg_lit m) A B). fold sg. unfold mentionable.
    rewrite well_typed_neg, ground_neg, lit_true_neg. reflexivity. }
  split.
  - intros (A & B & C). destruct (Hn prev st (conj V1 V2) A B) as [P1 P2]. destruct (Hn next st' (conj W1 W2) A B) as [N1 N2].
    rewrite P1, P2, N1, N2 in C. destruct (lit_true_dec st (ground sg m)), (lit_true_dec st' (ground sg m)); tauto.
  - intros (A & B & C). destruct (mentionable_names _ _ _ A) as [A1 A2]. split; [assumption|]. split; [assumption|].
    destruct (Hn prev st (conj V1 V2) A1 A2) as [P1 P2]. destruct (Hn next st' (conj W1 W2) A1 A2) as [N1 N2].
    rewrite P1, P2, N1, N2. assert (Hpos : l_pos (ground sg m) = l_pos m) by reflexivity. rewrite Hpos. destruct (l_pos m); tauto.
Qed.
End Lift.

(** ** The dependency set of one action *)
Definition all_combinations (dom : domain) (sig : signature) (max : nat) : list (list literal) :=
  create_cnf_combination (to_set (lifted_vocabulary dom sig None)) max None.

Record dep_ok (dom : domain) (sig : signature) (max : nat) (P : literal -> list literal -> Prop) (D : depset literal) : Prop :=
  { do_max : max_antecedents D = max;
    do_nodup : NoDup (dict_keys (possible D));
    do_keys : forall l, In l (dict_keys (possible D)) <-> mentionable dom sig l;
    do_good : forall l cands, dict_get (possible D) l = Some cands -> good_cands max cands;
    do_cands : forall l cands, dict_get (possible D) l = Some cands ->
                 forall c, In c cands <-> In c (all_combinations dom sig max) /\ P l c }.

Lemma dep_ok_ext dom sig max P Q D :
  (forall l c, mentionable dom sig l -> In c (all_combinations dom sig max) -> (P l c <-> Q l c)) ->
  dep_ok dom sig max P D -> dep_ok dom sig max Q D.
Proof.
  intros HPQ [H1 H2 H3 H4 H5]. constructor; auto. intros l cands E c. rewrite (H5 l cands E c).
  assert (Hm : mentionable dom sig l) by (apply H3; eapply dict_get_key; eassumption).
  split; intros [A B]; split; auto; apply (HPQ l c Hm A); assumption.
Qed.

Lemma dep_ok_actions dom acts sig max P D :
  dep_ok (set_actions dom acts) sig max P D <-> dep_ok dom sig max P D.
Proof. split; intros [H1 H2 H3 H4 H5]; constructor; assumption. Qed.

Lemma fold_remove R b ls : forall (D : depset literal), NoDup ls ->
  let D' := fold_left (fun D l => remove_dependencies D l R b) ls D in
  max_antecedents D' = max_antecedents D /\ dict_keys (possible D') = dict_keys (possible D) /\
  forall l, dict_get (possible D') l =
    if memb l ls then option_map (fun c => remove_from (max_antecedents D) c R b) (dict_get (possible D) l)
    else dict_get (possible D) l.
Proof.
  assert (H1 : forall (D : depset literal) x,
     max_antecedents (remove_dependencies D x R b) = max_antecedents D /\
     dict_keys (possible (remove_dependencies D x R b)) = dict_keys (possible D) /\
     forall l, dict_get (possible (remove_dependencies D x R b)) l =
       if eq_dec l x then option_map (fun c => remove_from (max_antecedents D) c R b) (dict_get (possible D) l)
       else dict_get (possible D) l).
  { intros D x. unfold remove_dependencies. destruct (dict_get (possible D) x) as [cs|] eqn:E.
    - split; [reflexivity|]. split.
      + cbn [possible with_possible]. apply dict_set_keys_existing. apply dict_get_Some_iff; eauto.
      + intros l. cbn [possible with_possible]. rewrite dict_get_set. destruct (eq_dec l x) as [->|]; [|reflexivity].
        rewrite E. reflexivity.
    - repeat split; auto. intros l. destruct (eq_dec l x) as [->|]; [|reflexivity]. rewrite E. reflexivity. }
  induction ls as [|x ls IH]; intros D Hnd D'.
  - subst D'; cbn [fold_left]. repeat split; auto.
  - subst D'; cbn [fold_left]. inversion Hnd as [|? ? Hx Hls]; subst.
    destruct (H1 D x) as (A1 & A2 & A3). destruct (IH (remove_dependencies D x R b) Hls) as (B1 & B2 & B3).
    rewrite B1, B2. split; [assumption|]. split; [assumption|]. intros l. rewrite B3, A3, A1.
    unfold memb at 2. cbn [existsb]. fold (memb l ls). destruct (eq_dec l x) as [->|Hne].
    + rewrite (proj2 (memb_nIn x ls) Hx), PreludeProofs.eqb_refl. reflexivity.
    + rewrite (proj2 (PreludeProofs.eqb_neq _ _)) by assumption. reflexivity.
Qed.

Lemma dep_remove dom sig max (P : literal -> list literal -> Prop) (D : depset literal) (R : list literal) (b : bool) (ls : list literal) :
  dep_ok dom sig max P D -> NoDup R -> NoDup ls ->
  dep_ok dom sig max (fun l c => P l c /\ (In l ls -> if b then forall x, In x c -> ~ In x R else exists x, In x c /\ ~ In x R))
         (fold_left (fun D l => remove_dependencies D l R b) ls D).
Proof.
  intros [H1 H2 H3 H4 H5] HR Hls. destruct (fold_remove R b ls D Hls) as (F1 & F2 & F3).
  constructor; rewrite ?F1, ?F2; auto.
  - intros l cands E. rewrite F3 in E. destruct (memb l ls).
    + destruct (dict_get (possible D) l) as [cs|] eqn:Ec; [|discriminate]. cbn [option_map] in E. injection E as <-.
      rewrite H1. apply remove_from_good; eauto.
    + eauto.
  - intros l cands E c. rewrite F3 in E. destruct (memb l ls) eqn:Em.
    + apply memb_In in Em. destruct (dict_get (possible D) l) as [cs|] eqn:Ec; [|discriminate]. cbn [option_map] in E. injection E as <-.
      rewrite H1. destruct b.
      * rewrite remove_from_supersets by eauto. rewrite filter_In, (H5 l cs Ec), negb_true_iff.
        assert (Hme : meets R c = false <-> forall x, In x c -> ~ In x R).
        { split.
          - intros Hf x Hx Hr. assert (meets R c = true) by (apply meets_iff; eauto). congruence.
          - intros Hf. apply not_true_is_false. intros Ht. apply meets_iff in Ht. destruct Ht as (x & Hx & Hr). exact (Hf x Hx Hr). }
        rewrite Hme. tauto.
      * rewrite remove_from_subsets by eauto. rewrite filter_In, (H5 l cs Ec), negb_true_iff.
        assert (Hme : subsetb c R = false <-> exists x, In x c /\ ~ In x R).
        { split.
          - intros Hf. unfold subsetb in Hf. clear -Hf. induction c as [|x c IH]; [discriminate|]. cbn [forallb] in Hf.
            destruct (memb x R) eqn:E; [|exists x; split; [left; reflexivity|apply memb_nIn; assumption]].
            destruct IH as (y & Hy & Hn); [exact Hf|]. exists y; split; [right; assumption|assumption].
          - intros (x & Hx & Hn). apply not_true_is_false. intros Ht. apply subsetb_incl in Ht. apply Hn, Ht; assumption. }
        rewrite Hme. tauto.
    + apply memb_nIn in Em. rewrite (H5 l cands E c). tauto.
Qed.

Lemma comb_mentionable dom sig max c x :
  NoDup (map fst (sig ++ d_consts dom)) -> In c (all_combinations dom sig max) -> In x c -> mentionable dom sig x.
Proof.
  intros Hn Hc Hx. apply cnf_comb_In in Hc; [|apply to_set_NoDup]. destruct Hc as [Hs _].
  apply sublist_incl in Hs. specialize (Hs x Hx). apply (proj1 (to_set_In _ _)) in Hs.
  apply lifted_vocabulary_exact in Hs; [|assumption]. apply Hs.
Qed.

(** What one component adds to [explains]. *)
Definition explains1 (sig : signature) (cp : component) (l : literal) (c : list literal) : Prop :=
  (~ true_after sig cp l -> exists x, In x c /\ ~ true_before sig cp x) /\
  (became_true sig cp l -> forall x, In x c -> true_before sig cp x).

Lemma dep_init dom sig max : NoDup (map fst (sig ++ d_consts dom)) ->
  dep_ok dom sig max (fun _ _ => True) (initialize_dependencies (mkDep [] max) (lifted_vocabulary dom sig None) None).
Proof.
  intros Hn. unfold initialize_dependencies. cbn [possible max_antecedents with_possible]. cbv zeta.
  set (voc := to_set (lifted_vocabulary dom sig None)).
  change (create_cnf_combination voc max None) with (all_combinations dom sig max).
  assert (Hgo : forall (ls : list literal) (d : list (literal * list (list literal))),
     (forall l, dict_get (fold_left (fun p l => dict_set p l (all_combinations dom sig max)) ls d) l =
        if memb l ls then Some (all_combinations dom sig max) else dict_get d l) /\
     (NoDup (dict_keys d) -> NoDup (dict_keys (fold_left (fun p l => dict_set p l (all_combinations dom sig max)) ls d)))).
  { induction ls as [|x ls IH]; intros d; cbn [fold_left]; [split; auto|].
    destruct (IH (dict_set d x (all_combinations dom sig max))) as [IH1 IH2]. split.
    - intros l. rewrite IH1, dict_get_set. unfold memb at 2; cbn [existsb]; fold (memb l ls).
      destruct (eq_dec l x) as [->|Hne].
      + rewrite PreludeProofs.eqb_refl. cbn [orb]. destruct (memb x ls); reflexivity.
      + rewrite (proj2 (PreludeProofs.eqb_neq _ _)) by assumption. reflexivity.
    - intros Hd. apply IH2, dict_set_keys_NoDup; assumption. }
  destruct (Hgo voc []) as [G1 G2].
  assert (G3 : forall l cands, dict_get (fold_left (fun p l => dict_set p l (all_combinations dom sig max)) voc []) l = Some cands ->
     cands = all_combinations dom sig max).
  { intros l cands E. rewrite G1 in E. destruct (memb l voc); [congruence|discriminate]. }
  constructor; cbn [possible max_antecedents].
  - reflexivity.
  - apply G2; constructor.
  - intros l. rewrite dict_get_Some_iff. split.
    + intros (v & E). rewrite G1 in E. destruct (memb l voc) eqn:Em; [|discriminate]. apply memb_In in Em.
      apply (proj1 (to_set_In _ _)) in Em. apply lifted_vocabulary_exact in Em; [apply Em|assumption].
    + intros Hm. exists (all_combinations dom sig max). rewrite G1.
      rewrite (proj2 (memb_In l voc)); [reflexivity|]. apply (proj2 (to_set_In _ _)). apply lifted_vocabulary_exact; [assumption|].
      split; [assumption|exact I].
  - intros l cands E. apply G3 in E. subst. apply cnf_comb_good, to_set_NoDup.
  - intros l cands E c. apply G3 in E. subst. tauto.
Qed.

(** ** The inductive rules *)
Record same_but (C C' : clearner) (n : string) : Prop :=
  { sb_sam : c_sam C' = c_sam C; sb_max : c_max C' = c_max C;
    sb_deps : forall k, k <> n -> dict_get (c_deps C') k = dict_get (c_deps C) k;
    sb_obs : forall k, k <> n -> dict_get (c_obs C') k = dict_get (c_obs C) k }.

Lemma rules_step C cp a max (P : literal -> list literal -> Prop) D obs prev next :
  let dom := s_dom (c_sam C) in let c := cp_call cp in let n := c_name c in
  good_call dom a c -> NoDup (map fst (a_sig a ++ d_consts dom)) ->
  dict_get (c_deps C) n = Some D -> dep_ok dom (a_sig a) max P D -> dict_get (c_obs C) n = Some obs ->
  views dom a c (cp_prev cp) prev -> views dom a c (cp_next cp) next ->
  exists C' D' obs',
    apply_inductive_rules C c prev next = Ok C' /\
    same_but C C' n /\ dict_get (c_deps C') n = Some D' /\ dict_get (c_obs C') n = Some obs' /\
    dep_ok dom (a_sig a) max (fun l c => P l c /\ explains1 (a_sig a) cp l c) D' /\
    (forall l, In l obs' <-> In l obs \/ (mentionable dom (a_sig a) l /\ became_true (a_sig a) cp l)).
Proof.
  intros dom c n Hg Hnd ED HD EO Vp Vn.
  destruct (cond_effects dom a c Hg _ _ _ _ Vp Vn) as (es & Ees & Nes & Hes).
  destruct (find_false dom a c Hg _ _ Vn) as (mn & Emn & Nmn & Hmn).
  destruct (find_true dom a c Hg _ _ Vp) as (pv & Epv & Npv & Hpv).
  destruct (find_false dom a c Hg _ _ Vp) as (mp & Emp & Nmp & Hmp).
  unfold apply_inductive_rules, update_observed_effects. fold dom. rewrite Ees. cbn [bind].
  fold n. rewrite (dict_lookup_Some _ _ _ EO). cbn [bind].
  unfold remove_existing. cbn [c_sam with_obs with_deps c_deps]. fold dom. rewrite Emn. cbn [bind]. rewrite Epv. cbn [bind].
  fold n. rewrite (dict_lookup_Some _ _ _ ED). cbn [bind].
  unfold remove_non_existing. cbn [c_sam with_obs with_deps c_deps]. fold dom. rewrite Ees. cbn [bind]. rewrite Emp. cbn [bind].
  fold n. rewrite (dict_lookup_Some _ n _ (dict_get_set_same _ _ _)). cbn [bind].
  set (D1 := fold_left _ mn D). set (D2 := fold_left _ es D1).
  exists (with_deps (with_deps (with_obs C (dict_set (c_obs C) n (set_union obs es))) (dict_set (c_deps C) n D1))
             (dict_set (dict_set (c_deps C) n D1) n D2)), D2, (set_union obs es).
  split; [reflexivity|]. split; [|split; [|split; [|split]]].
  - constructor; try reflexivity.
    + intros k Hk. cbn [c_deps with_deps]. rewrite !dict_get_set_other by assumption. reflexivity.
    + intros k Hk. cbn [c_obs with_deps with_obs]. rewrite !dict_get_set_other by assumption. reflexivity.
  - cbn [c_deps with_deps]. apply dict_get_set_same.
  - cbn [c_obs with_deps with_obs]. apply dict_get_set_same.
  - pose proof (dep_remove dom (a_sig a) max _ D pv false mn HD Npv Nmn) as HD1. fold D1 in HD1.
    pose proof (dep_remove dom (a_sig a) max _ D1 mp true es HD1 Nmp Nes) as HD2. fold D2 in HD2.
    eapply dep_ok_ext; [|exact HD2]. intros l cd Hl Hcd. cbv beta iota.
    assert (Hment : forall x, In x cd -> mentionable dom (a_sig a) x) by (intros x; apply comb_mentionable with (max := max); assumption).
    unfold explains1, became_true, true_after, true_before. fold c.
    assert (E1 : (In l mn -> exists x, In x cd /\ ~ In x pv) <->
                 (~ lit_true (cp_next cp) (ground (call_assignment (a_sig a) c) l) ->
                   exists x, In x cd /\ ~ lit_true (cp_prev cp) (ground (call_assignment (a_sig a) c) x))).
    { split; intros H.
      - intros Hn. destruct H as (x & Hx & Hnx); [apply Hmn; auto|]. exists x; split; [assumption|].
        intros Ht. apply Hnx, Hpv; auto.
      - intros Hin. apply Hmn in Hin. destruct H as (x & Hx & Hnx); [apply Hin|]. exists x; split; [assumption|].
        intros Hi. apply Hpv in Hi. apply Hnx, Hi. }
    assert (E2 : (In l es -> forall x, In x cd -> ~ In x mp) <->
                 (~ lit_true (cp_prev cp) (ground (call_assignment (a_sig a) c) l) /\
                  lit_true (cp_next cp) (ground (call_assignment (a_sig a) c) l) ->
                  forall x, In x cd -> lit_true (cp_prev cp) (ground (call_assignment (a_sig a) c) x))).
    { split; intros H.
      - intros Hb x Hx. destruct (lit_true_dec (cp_prev cp) (ground (call_assignment (a_sig a) c) x)) as [Ht|Hf]; [assumption|].
        exfalso. apply (H (proj2 (Hes l) (conj Hl Hb)) x Hx), Hmp; auto.
      - intros Hi x Hx Hm. apply Hes in Hi. apply Hmp in Hm. apply (proj2 Hm), (H (proj2 Hi) x Hx). }
    rewrite E1, E2. tauto.
  - intros l. rewrite set_union_In, Hes. unfold became_true, true_before, true_after. fold c. tauto.
Qed.

(** ** Invariant over the history *)
Record cact_inv (dom0 : domain) (inj : bool) (cps : list component) (n : string) (a0 a : action) : Prop :=
  { ci_name : a_name a = n;
    ci_sig : a_sig a = a_sig a0;
    ci_eff : a_eff a = [];
    ci_ineq : a_ineq a = a_ineq (if inj then initial_inequalities a0 else a0);
    ci_pre : forall l, In l (a_pre a) <-> (exists cp, about cps n cp) /\ always_before dom0 (a_sig a0) cps n l }.

Record cond_inv (dom0 : domain) (inj : bool) (max : nat) (cps : list component) (C : clearner) : Prop :=
  { cv_dom : s_dom (c_sam C) = set_actions dom0 (d_actions (s_dom (c_sam C)));
    cv_obsd : forall n, In n (s_observed (c_sam C)) <-> exists cp, about cps n cp;
    cv_obsd_nodup : NoDup (s_observed (c_sam C));
    cv_act : forall n a0, dict_get (d_actions dom0) n = Some a0 ->
      exists a, dict_get (d_actions (s_dom (c_sam C))) n = Some a /\ cact_inv dom0 inj cps n a0 a;
    cv_cbe : forall n, In n (dict_keys (d_actions dom0)) -> dict_get (s_cbe (c_sam C)) n = Some [];
    cv_obs : forall n a0, dict_get (d_actions dom0) n = Some a0 ->
      exists obs, dict_get (c_obs C) n = Some obs /\ forall l, In l obs <-> observed_effect dom0 (a_sig a0) cps n l;
    cv_deps : forall n a0, dict_get (d_actions dom0) n = Some a0 -> (exists cp, about cps n cp) ->
      exists D, dict_get (c_deps C) n = Some D /\ dep_ok dom0 (a_sig a0) max (explains (a_sig a0) cps n) D;
    cv_max : c_max C = max }.

Lemma about_snoc cps cp n cp' :
  about (cps ++ [cp]) n cp' <-> about cps n cp' \/ (cp' = cp /\ c_name (cp_call cp) = n).
Proof.
  unfold about. rewrite in_app_iff. simpl. split.
  - intros [[?|[<-|[]]] ?]; auto.
  - intros [[? ?]|[-> ?]]; auto.
Qed.

Lemma sig_names dom n a0 : wf_domain dom -> dict_get (d_actions dom) n = Some a0 -> NoDup (map fst (a_sig a0 ++ d_consts dom)).
Proof.
  intros W G. apply dict_get_In in G. rewrite map_app. apply NoDup_app_iff. split; [|split].
  - exact (wf_sigs _ W _ _ G).
  - exact (wf_consts _ W).
  - intros x Hx Hx'. exact (wf_disj _ W _ _ x G Hx Hx').
Qed.

Lemma cact_inv_other dom0 inj cps cp n a0 a : c_name (cp_call cp) <> n ->
  cact_inv dom0 inj cps n a0 a -> cact_inv dom0 inj (cps ++ [cp]) n a0 a.
Proof.
  intros Hne [H1 H2 H3 H4 H5].
  assert (Hev : forall cp', about (cps ++ [cp]) n cp' <-> about cps n cp').
  { intros cp'. rewrite about_snoc. split; [intros [?|[_ ?]]; [assumption|contradiction]|auto]. }
  constructor; auto. intros l. rewrite H5. unfold always_before. setoid_rewrite Hev. reflexivity.
Qed.

Lemma put_same C n a a' : dict_get (d_actions (s_dom (c_sam C))) n = Some a ->
  replaced (c_sam C) (put_action (c_sam C) n a') n a'.
Proof. apply put_action_replaced. Qed.

Lemma views_sig dom dom' a a' c st lits :
  (forall l, mentionable dom (a_sig a) l <-> mentionable dom' (a_sig a') l) -> d_consts dom = d_consts dom' -> a_sig a = a_sig a' ->
  views dom a c st lits -> views dom' a' c st lits.
Proof.
  intros Hm Hc Hs [V1 V2]. split; [assumption|]. intros m A B. rewrite <- Hs in *. rewrite <- Hc in B. rewrite (V2 m A B), (Hm m). reflexivity.
Qed.

(** One component, given any two lists of literals that show its states. *)
Lemma cond_process_step dom0 inj max cps C cp a0 prev next :
  wf_domain dom0 -> blank_domain dom0 -> cond_inv dom0 inj max cps C ->
  dict_get (d_actions dom0) (c_name (cp_call cp)) = Some a0 -> length (c_params (cp_call cp)) = length (a_sig a0) ->
  views dom0 a0 (cp_call cp) (cp_prev cp) prev -> views dom0 a0 (cp_call cp) (cp_next cp) next ->
  exists C', cond_process C (cp_call cp) prev next = Ok C' /\ cond_inv dom0 inj max (cps ++ [cp]) C'.
Proof.
  intros W B I G0 Hlen Vp Vn. set (c := cp_call cp) in *. set (n := c_name c) in *.
  destruct (cv_act _ _ _ _ _ I n a0 G0) as (a & Ga & Ia).
  assert (Hsig : a_sig a = a_sig a0) by apply (ci_sig _ _ _ _ _ _ Ia).
  assert (Gc : good_call (s_dom (c_sam C)) a c).
  { exact (good_call_of dom0 (c_sam C) a0 a c W (cv_dom _ _ _ _ _ I) G0 Ga Hsig Hlen). }
  assert (Hdom : forall L, s_dom L = set_actions dom0 (d_actions (s_dom L)) ->
     d_consts (s_dom L) = d_consts dom0 /\ (forall l, mentionable (s_dom L) (a_sig a0) l <-> mentionable dom0 (a_sig a0) l)).
  { intros L E. rewrite E. split; [reflexivity|intros l; reflexivity]. }
  assert (Hmem : memb n (s_observed (c_sam C)) = true <-> exists cp', about cps n cp').
  { rewrite memb_In. apply (cv_obsd _ _ _ _ _ I). }
  assert (Hnames := sig_names dom0 n a0 W G0).
  assert (Hview : forall L b st lits, s_dom L = set_actions dom0 (d_actions (s_dom L)) -> a_sig b = a_sig a0 ->
     views dom0 a0 c st lits -> views (s_dom L) b c st lits).
  { intros L b st lits E Eb V. destruct (Hdom L E) as [E1 E2]. apply (views_sig dom0 (s_dom L) a0 b c st lits); auto.
    rewrite Eb. intros l. symmetry. apply E2. }
  destruct (lifted_views (s_dom (c_sam C)) a c Gc (cp_prev cp) prev) as (ms & Ems & Hms).
  { apply Hview; [apply (cv_dom _ _ _ _ _ I)|exact Hsig|exact Vp]. }
  assert (Hms' : forall m, In m ms <-> mentionable dom0 (a_sig a0) m /\ true_before (a_sig a0) cp m).
  { intros m. rewrite Hms, Hsig. rewrite (proj2 (Hdom _ (cv_dom _ _ _ _ _ I))). reflexivity. }
  unfold cond_process. fold n.
  destruct (cv_obs _ _ _ _ _ I n a0 G0) as (obs & EO & HO).
  (* common end: from the learner after the precondition update *)
  assert (Hend : forall C1 a1 P D,
     replaced (c_sam C) (c_sam C1) n a1 -> s_cbe (c_sam C1) = s_cbe (c_sam C) ->
     a_name a1 = n -> a_sig a1 = a_sig a0 -> a_eff a1 = [] -> a_ineq a1 = a_ineq a ->
     c_obs C1 = c_obs C -> c_max C1 = max ->
     (forall k, k <> n -> dict_get (c_deps C1) k = dict_get (c_deps C) k) ->
     dict_get (c_deps C1) n = Some D -> dep_ok dom0 (a_sig a0) max P D ->
     (forall l cd, P l cd /\ explains1 (a_sig a0) cp l cd <-> explains (a_sig a0) (cps ++ [cp]) n l cd) ->
     (forall l, In l (a_pre a1) <-> always_before dom0 (a_sig a0) (cps ++ [cp]) n l) ->
     exists C2, apply_inductive_rules C1 c prev next = Ok C2 /\
       c_sam C2 = c_sam C1 /\
       forall C3, c_deps C3 = c_deps C2 -> c_obs C3 = c_obs C2 -> c_max C3 = c_max C2 ->
         s_dom (c_sam C3) = s_dom (c_sam C1) -> s_cbe (c_sam C3) = s_cbe (c_sam C1) ->
         (forall k, In k (s_observed (c_sam C3)) <-> exists cp', about (cps ++ [cp]) k cp') ->
         NoDup (s_observed (c_sam C3)) ->
         cond_inv dom0 inj max (cps ++ [cp]) C3).
  { intros C1 a1 P D R Ecbe En1 Es1 Ee1 Ei1 Eo1 Em1 Hother ED HD HP Hpre1.
    assert (Hd1 : s_dom (c_sam C1) = set_actions dom0 (d_actions (s_dom (c_sam C1)))).
    { rewrite (rp_dom _ _ _ _ R), (cv_dom _ _ _ _ _ I). reflexivity. }
    assert (Gc1 : good_call (s_dom (c_sam C1)) a1 c).
    { apply (good_call_replaced (c_sam C) (c_sam C1) a a1 c); [exact R|congruence|exact Gc]. }
    assert (Hsd : dep_ok (s_dom (c_sam C1)) (a_sig a1) max P D).
    { rewrite Hd1, Es1. apply dep_ok_actions. exact HD. }
    destruct (rules_step C1 cp a1 max P D obs prev next) as (C2 & D' & obs' & E2 & SB & ED' & EO' & HD' & HO'); auto.
    { rewrite Es1, (proj1 (Hdom _ Hd1)). exact Hnames. }
    { rewrite Eo1. exact EO. }
    cbv zeta in E2. fold c in E2.
    exists C2. split; [exact E2|]. split; [apply (sb_sam _ _ _ SB)|].
    intros C3 F1 F2 F3 F4 F5 F6 F7. destruct SB as [S1 S2 S3 S4]. fold c n in S3, S4, ED', EO'.
    destruct I, R. constructor.
    - rewrite F4. exact Hd1.
    - exact F6.
    - exact F7.
    - intros k b0 Gb. rewrite F4, rp_get. destruct (eq_dec k n) as [->|Hne].
      + exists a1. split; [reflexivity|]. assert (b0 = a0) by congruence. subst b0.
        destruct Ia. constructor; auto; try congruence.
        intros l. rewrite Hpre1. split; [|tauto]. intros H. split; [|assumption]. exists cp. apply about_snoc; auto.
      + destruct (cv_act0 k b0 Gb) as (b & Gb' & Ib). exists b; split; [assumption|].
        apply cact_inv_other; [fold c; fold n; congruence|assumption].
    - intros k Hk. rewrite F5, Ecbe. auto.
    - intros k b0 Gb. rewrite F2. destruct (eq_dec k n) as [->|Hne].
      + exists obs'. split; [exact EO'|]. assert (b0 = a0) by congruence. subst b0.
        intros l. rewrite HO', HO. rewrite Es1, (proj2 (Hdom _ Hd1)). unfold observed_effect. setoid_rewrite about_snoc. split.
        * intros [(A1 & cp' & A2 & A3)|[A1 A2]]; split; auto; [exists cp'; auto|exists cp; auto].
        * intros (A1 & cp' & [A2|[-> _]] & A3); [left; split; auto; exists cp'; auto|right; auto].
      + rewrite S4, Eo1 by assumption. destruct (cv_obs0 k b0 Gb) as (o & Eo & Ho). exists o; split; [assumption|].
        intros l. rewrite Ho. unfold observed_effect. setoid_rewrite about_snoc. split.
        * intros (A1 & cp' & A2 & A3); split; auto; exists cp'; auto.
        * intros (A1 & cp' & [A2|[-> A2]] & A3); [split; auto; exists cp'; auto|fold c n in A2; congruence].
    - intros k b0 Gb Hex. rewrite F1. destruct (eq_dec k n) as [->|Hne].
      + exists D'. split; [exact ED'|]. assert (b0 = a0) by congruence. subst b0.
        rewrite Es1, Hd1 in HD'. eapply dep_ok_ext; [|exact (proj1 (dep_ok_actions _ _ _ _ _ _) HD')]. intros l cd _ _. apply HP.
      + rewrite S3, Hother by assumption. destruct (cv_deps0 k b0 Gb) as (Dk & EDk & HDk).
        { destruct Hex as (cp' & Hcp'). apply about_snoc in Hcp'. destruct Hcp' as [?|[-> Hk]]; [eauto|fold c n in Hk; congruence]. }
        exists Dk; split; [assumption|]. eapply dep_ok_ext; [|exact HDk]. intros l cd _ _. unfold explains. setoid_rewrite about_snoc.
        split; [intros H cp' [?|[-> Hk]]; [auto|fold c n in Hk; congruence]|intros H cp' ?; auto].
    - rewrite F3, S2. exact Em1. }
  assert (Hnew : forall k, (exists cp', about (cps ++ [cp]) k cp') <-> (exists cp', about cps k cp') \/ k = n).
  { intros k. setoid_rewrite about_snoc. split.
    - intros (cp' & [?|[_ <-]]); [left; eauto|right; reflexivity].
    - intros [(cp' & ?)| ->]; [eauto|exists cp; auto]. }
  destruct (memb n (s_observed (c_sam C))) eqn:Em.
  - (* known action *)
    destruct (proj1 Hmem eq_refl) as (cp1 & Hcp1).
    destruct (cv_deps _ _ _ _ _ I n a0 G0 (ex_intro _ cp1 Hcp1)) as (D & ED & HD).
    unfold cond_update_action, update_action_preconditions. fold n. rewrite (dict_lookup_Some _ _ _ Ga). cbn [bind].
    rewrite Ems. cbn [bind]. cbv zeta. set (a1 := with_pre a _).
    destruct (Hend (with_sam C (put_action (c_sam C) n a1)) a1 (explains (a_sig a0) cps n) D) as (C2 & E2 & Es2 & Hfin); auto.
    + apply put_same with (a := a); exact Ga.
    + apply (ci_name _ _ _ _ _ _ Ia).
    + apply (ci_eff _ _ _ _ _ _ Ia).
    + apply (cv_max _ _ _ _ _ I).
    + intros l cd. unfold explains, explains1. setoid_rewrite about_snoc. split.
      * intros [H1 H2] cp' [H3|[-> _]]; auto.
      * intros H. split; [intros cp' Hcp'; apply H; auto|apply H; auto].
    + intros l. unfold a1; cbn [a_pre with_pre]. rewrite filter_In, memb_In, to_set_In, Hms', (ci_pre _ _ _ _ _ _ Ia).
      unfold always_before. setoid_rewrite about_snoc. split.
      * intros [(_ & A1 & A2) [_ A3]]. split; [assumption|]. intros cp' [?|[-> _]]; auto.
      * intros [A1 A2]. split; [|split; [assumption|apply A2; auto]]. split; [eauto|]. split; auto.
    + exists C2. split; [exact E2|]. apply Hfin; try reflexivity; try (rewrite Es2; reflexivity).
      * intros k. rewrite Es2, Hnew. cbn [c_sam with_sam]. change (s_observed (put_action (c_sam C) n a1)) with (s_observed (c_sam C)).
        rewrite (cv_obsd _ _ _ _ _ I). split; [auto|]. intros [?| ->]; [assumption|eauto].
      * rewrite Es2. exact (cv_obsd_nodup _ _ _ _ _ I).
  - (* first observation *)
    assert (Hnone : forall cp', ~ about cps n cp') by (intros cp' H'; enough (false = true) by discriminate; apply Hmem; eauto).
    unfold initialize_actions_dependencies. fold n. rewrite (dict_lookup_Some _ _ _ Ga). cbn [bind].
    unfold cond_add_new_action, add_new_action_preconditions. cbn [c_sam with_deps]. fold n. rewrite (dict_lookup_Some _ _ _ Ga). cbn [bind].
    rewrite Ems. cbn [bind]. set (a1 := with_pre a _). set (D := initialize_dependencies _ _ _).
    set (C1 := with_sam _ _).
    assert (Hda : a_pre a = []).
    { destruct (a_pre a) as [|l ls] eqn:Ea; [reflexivity|]. exfalso.
      destruct (proj1 (ci_pre _ _ _ _ _ _ Ia l)) as ((cp' & H') & _); [rewrite Ea; left; reflexivity|]. exact (Hnone _ H'). }
    destruct (Hend C1 a1 (fun _ _ => True) D) as (C2 & E2 & Es2 & Hfin); auto.
    + apply put_same with (a := a); exact Ga.
    + apply (ci_name _ _ _ _ _ _ Ia).
    + apply (ci_eff _ _ _ _ _ _ Ia).
    + apply (cv_max _ _ _ _ _ I).
    + intros k Hk. cbn [C1 with_sam with_deps c_deps]. apply dict_get_set_other; assumption.
    + cbn [C1 with_sam with_deps c_deps]. apply dict_get_set_same.
    + unfold D. rewrite Hsig, (cv_max _ _ _ _ _ I).
      replace (lifted_vocabulary (s_dom (c_sam C)) (a_sig a0) None) with (lifted_vocabulary dom0 (a_sig a0) None)
        by (rewrite (cv_dom _ _ _ _ _ I); reflexivity).
      apply dep_init; assumption.
    + intros l cd. unfold explains, explains1. setoid_rewrite about_snoc. split.
      * intros [_ H2] cp' [H3|[-> _]]; [exfalso; eapply Hnone; eassumption|assumption].
      * intros H. split; [exact Logic.I|apply H; auto].
    + intros l. unfold a1; cbn [a_pre with_pre]. rewrite set_union_In, to_set_In, Hms', Hda.
      unfold always_before. setoid_rewrite about_snoc. split.
      * intros [[]|[A1 A2]]. split; [assumption|]. intros cp' [?|[-> _]]; [exfalso; eapply Hnone; eassumption|assumption].
      * intros [A1 A2]. right. split; [assumption|apply A2; auto].
    + rewrite E2. cbn [bind]. rewrite Es2.
      assert (Ga1 : dict_get (d_actions (s_dom (c_sam C1))) n = Some a1).
      { cbn [C1 c_sam with_sam]. apply (replaced_get (c_sam C)). apply put_same with (a := a); exact Ga. }
      rewrite (dict_lookup_Some _ _ _ Ga1). cbn [bind].
      assert (En1 : a_name a1 = n) by apply (ci_name _ _ _ _ _ _ Ia). rewrite En1.
      eexists. split; [reflexivity|]. apply Hfin; try reflexivity.
      * intros k. rewrite Hnew. cbn [c_sam with_sam with_observed s_observed].
        change (s_observed (c_sam C1)) with (s_observed (c_sam C)). rewrite in_app_iff, (cv_obsd _ _ _ _ _ I). simpl. intuition congruence.
      * cbn [c_sam with_sam with_observed s_observed]. change (s_observed (c_sam C1)) with (s_observed (c_sam C)).
        apply NoDup_app_iff. split; [exact (cv_obsd_nodup _ _ _ _ _ I)|]. split; [repeat constructor; intros []|].
        intros x Hx [<-|[]]. apply memb_nIn in Em. contradiction.
Qed.

Lemma cond_step dom0 inj max cps C cp :
  wf_domain dom0 -> blank_domain dom0 -> cond_inv dom0 inj max cps C ->
  good_arity dom0 (cp_call cp) -> NoDup (c_params (cp_call cp)) -> no_constant_args dom0 (cp_call cp) ->
  exists C', cond_handle_component C cp = Ok C' /\ cond_inv dom0 inj max (cps ++ [cp]) C'.
Proof.
  intros W B I (a0 & G0 & Hlen) Hp Hc0.
  destruct (cv_act _ _ _ _ _ I _ a0 G0) as (a & Ga & Ia).
  assert (Hsig : a_sig a = a_sig a0) by apply (ci_sig _ _ _ _ _ _ Ia).
  assert (Gc : good_call dom0 a0 (cp_call cp)).
  { constructor; auto.
    - apply (wf_sigs _ W _ _ (dict_get_In _ _ _ G0)).
    - intros y Hy Hy'. exact (wf_disj _ W _ _ y (dict_get_In _ _ _ G0) Hy Hy').
    - exact (wf_consts _ W). }
  unfold cond_handle_component, triplet_snapshot. rewrite (dict_lookup_Some _ _ _ Ga). cbn [bind].
  assert (Es : forall st, discrete_state_snapshot (s_dom (c_sam C)) st (parameterized_objects (s_dom (c_sam C)) a (cp_call cp)) =
                discrete_state_snapshot dom0 st (parameterized_objects dom0 a0 (cp_call cp))).
  { intros st. unfold parameterized_objects. rewrite Hsig, (cv_dom _ _ _ _ _ I). reflexivity. }
  rewrite !Es. apply cond_process_step with (a0 := a0); auto; apply snapshot_views; assumption.
Qed.

Lemma init_inv dom0 inj max policy : wf_domain dom0 -> blank_domain dom0 ->
  let C0 := init_conditional dom0 max policy inj in
  cond_inv dom0 inj max [] (with_sam C0 (deduce_initial_inequality_preconditions (c_sam C0))).
Proof.
  intros W B C0.
  assert (Hnone : forall n cp, ~ about [] n cp) by (intros n cp [[] _]).
  assert (Eact : forall n a0, dict_get (d_actions dom0) n = Some a0 ->
     dict_get (d_actions (s_dom (deduce_initial_inequality_preconditions (c_sam C0)))) n =
       Some (if inj then initial_inequalities a0 else a0)).
  { intros n a0 G. unfold deduce_initial_inequality_preconditions, C0. cbn [c_sam init_conditional init_learner s_injective s_dom].
    destruct inj; cbn [s_dom with_dom set_actions d_actions init_learner]; [|assumption].
    clear -G. induction (d_actions dom0) as [|[k v] l IH]; [discriminate|]. revert G. cbn [map dict_get fst snd].
    destruct (eq_dec n k); [intros G; injection G as <-; reflexivity|exact IH]. }
  constructor; try reflexivity.
  - unfold deduce_initial_inequality_preconditions, C0. cbn [c_sam with_sam init_conditional init_learner s_injective].
    destruct inj; cbn [s_dom with_dom set_actions d_actions init_learner d_preds d_funcs d_consts]; [reflexivity|].
    destruct dom0; reflexivity.
  - intros n. cbn [c_sam with_sam]. unfold deduce_initial_inequality_preconditions, C0. cbn [c_sam init_conditional].
    split; [|intros (cp & H); exfalso; eapply Hnone; eassumption]. unfold init_learner; cbn [s_injective]. destruct inj; intros [].
  - cbn [c_sam with_sam]. unfold deduce_initial_inequality_preconditions, C0. cbn [c_sam init_conditional init_learner s_injective].
    destruct inj; constructor.
  - intros n a0 G. exists (if inj then initial_inequalities a0 else a0). split; [apply Eact; assumption|].
    assert (Hin := dict_get_In _ _ _ G). destruct (B n a0 Hin) as (B1 & B2 & B3). pose proof (wf_names _ W n a0 Hin) as Hnm.
    constructor; destruct inj; cbn [initial_inequalities with_ineq a_name a_sig a_eff a_ineq a_pre]; auto.
    + intros l. rewrite B1. split; [intros []|intros ((cp & H) & _); exfalso; eapply Hnone; eassumption].
    + intros l. rewrite B1. split; [intros []|intros ((cp & H) & _); exfalso; eapply Hnone; eassumption].
  - intros n Hn. assert (E : s_cbe (c_sam (with_sam C0 (deduce_initial_inequality_preconditions (c_sam C0)))) = map (fun na => (fst na, [])) (d_actions dom0)).
    { cbn [c_sam with_sam]. unfold deduce_initial_inequality_preconditions, C0. cbn [c_sam init_conditional init_learner s_injective]. destruct inj; reflexivity. }
    rewrite E. clear -Hn. unfold dict_keys in Hn. induction (d_actions dom0) as [|[k v] l IH]; [destruct Hn|]. cbn [map dict_get fst snd] in *.
    destruct (eq_dec n k) as [|E]; [reflexivity|]. apply IH. destruct Hn as [Hn|?]; [congruence|assumption].
  - intros n a0 G. exists []. split.
    + cbn [c_obs with_sam C0 init_conditional]. apply dict_get_In in G. assert (Hn : In n (map fst (d_actions dom0))) by (apply (in_map fst) in G; exact G).
      clear -Hn. induction (d_actions dom0) as [|[k v] l IH]; [destruct Hn|]. cbn [map dict_get fst snd] in *.
      destruct (eq_dec n k) as [|E]; [reflexivity|]. apply IH. destruct Hn as [Hn|?]; [congruence|assumption].
    + intros l. split; [intros []|intros (_ & cp & H & _); exfalso; eapply Hnone; eassumption].
  - intros n a0 G (cp & H). exfalso; eapply Hnone; eassumption.
Qed.

Theorem observe_inv dom0 inj max policy cps : wf_domain dom0 -> blank_domain dom0 -> good_history dom0 cps ->
  exists C, cond_observe dom0 max policy inj cps = Ok C /\ cond_inv dom0 inj max cps C.
Proof.
  intros W B GH. unfold cond_observe.
  assert (Hgo : forall rest done C, (forall cp, In cp rest -> In cp cps) -> cond_inv dom0 inj max done C ->
     exists C', fold_res cond_handle_component rest C = Ok C' /\ cond_inv dom0 inj max (done ++ rest) C').
  { induction rest as [|cp rest IH]; intros done C Hin I.
    - exists C. rewrite app_nil_r. split; [reflexivity|assumption].
    - destruct (GH cp (Hin cp (or_introl eq_refl))) as (H1 & H2 & H3).
      destruct (cond_step dom0 inj max done C cp W B I H1 H2 H3) as (C1 & E1 & I1).
      destruct (IH (done ++ [cp]) C1) as (C2 & E2 & I2); [intros x Hx; apply Hin; right; assumption|assumption|].
      exists C2. cbn [fold_res]. rewrite E1. cbn [bind]. rewrite <- app_assoc in I2. split; assumption. }
  destruct (Hgo cps [] _ (fun cp H => H) (init_inv dom0 inj max policy W B)) as (C & E & I). exists C; split; assumption.
Qed.

(** ** C27 *)
Lemma comb_antecedents dom sig max c : NoDup (map fst (sig ++ d_consts dom)) ->
  In c (all_combinations dom sig max) -> antecedents dom sig max c.
Proof.
  intros Hn Hc. assert (Hc' := Hc). apply cnf_comb_In in Hc'; [|apply to_set_NoDup]. destruct Hc' as [Hs Hl].
  split; [eapply sublist_NoDup; [exact Hs|apply to_set_NoDup]|]. split; [|assumption].
  intros x Hx. eapply comb_mentionable; eassumption.
Qed.
Lemma antecedents_comb dom sig max X : NoDup (map fst (sig ++ d_consts dom)) -> antecedents dom sig max X ->
  length (filter (set_eqb X) (all_combinations dom sig max)) = 1.
Proof.
  intros Hn (H1 & H2 & H3). apply cnf_comb_count; auto; [apply to_set_NoDup|].
  intros x Hx. apply (proj2 (to_set_In _ _)). apply lifted_vocabulary_exact; [assumption|]. split; [auto|exact I].
Qed.
Lemma explains_same sig cps n l c d : same_sets c d -> explains sig cps n l c -> explains sig cps n l d.
Proof.
  intros Hs He cp Hcp. destruct (He cp Hcp) as [H1 H2]. split.
  - intros Hn. destruct (H1 Hn) as (x & Hx & Hnx). exists x; split; [apply Hs; assumption|assumption].
  - intros Hb x Hx. apply H2; [assumption|apply Hs; assumption].
Qed.

Lemma one_member {A} `{EqDec A} (X : list A) cands all :
  length (filter (set_eqb X) all) = 1 -> distinct_sets cands ->
  (forall c, In c cands -> In c all) -> (forall c, In c all -> set_eqb X c = true -> In c cands) ->
  length (filter (set_eqb X) cands) = 1.
Proof.
  intros H1 Hd Hsub Hsup. destruct (filter (set_eqb X) all) as [|c [|? ?]] eqn:E; try discriminate.
  assert (Hc : In c all /\ set_eqb X c = true) by (apply filter_In; rewrite E; left; reflexivity).
  assert (Hin : In c (filter (set_eqb X) cands)) by (apply filter_In; split; [apply Hsup; tauto|tauto]).
  assert (Hdf := distinct_filter (set_eqb X) _ Hd).
  destruct (filter (set_eqb X) cands) as [|d [|e rest]] eqn:E'; [destruct Hin|reflexivity|].
  exfalso. inversion Hdf as [|? ? HF _]; subst. inversion HF as [|? ? Hde _]; subst.
  assert (Hd1 : set_eqb X d = true) by (apply (proj1 (filter_In _ d cands)); rewrite E'; left; reflexivity).
  assert (He1 : set_eqb X e = true) by (apply (proj1 (filter_In _ e cands)); rewrite E'; right; left; reflexivity).
  rewrite set_eqb_sym in Hd1. rewrite (set_eqb_trans _ _ _ Hd1 He1) in Hde. discriminate.
Qed.

Theorem dependencies_exact dom0 inj max policy cps n a0 :
  wf_domain dom0 -> blank_domain dom0 -> good_history dom0 cps ->
  dict_get (d_actions dom0) n = Some a0 -> (exists cp, about cps n cp) ->
  exists C D, cond_observe dom0 max policy inj cps = Ok C /\ dict_get (c_deps C) n = Some D /\
    (forall l, In l (dict_keys (possible D)) <-> mentionable dom0 (a_sig a0) l) /\
    forall l cands, dict_get (possible D) l = Some cands ->
      (forall c, In c cands -> antecedents dom0 (a_sig a0) max c /\ explains (a_sig a0) cps n l c) /\
      (forall X, antecedents dom0 (a_sig a0) max X -> explains (a_sig a0) cps n l X ->
                 length (filter (set_eqb X) cands) = 1).
Proof.
  intros W B GH G Hex. destruct (observe_inv dom0 inj max policy cps W B GH) as (C & E & I).
  destruct (cv_deps _ _ _ _ _ I n a0 G Hex) as (D & ED & HD). exists C, D. split; [exact E|]. split; [exact ED|].
  split; [apply (do_keys _ _ _ _ _ HD)|]. intros l cands El.
  assert (Hn := sig_names dom0 n a0 W G). pose proof (do_cands _ _ _ _ _ HD l cands El) as Hc. split.
  - intros c Hin. apply Hc in Hin. destruct Hin as [H1 H2]. split; [apply comb_antecedents; assumption|assumption].
  - intros X HX Hexp. apply (one_member X cands (all_combinations dom0 (a_sig a0) max)).
    + apply antecedents_comb; assumption.
    + apply (do_good _ _ _ _ _ HD l cands El).
    + intros c Hin. apply Hc in Hin. tauto.
    + intros c Hin Es. apply Hc. split; [assumption|]. eapply explains_same; [|exact Hexp]. exact (proj1 (set_eqb_iff _ _) Es).
Qed.
