(** * Consequences used by [SamProperties] *)
From Verif Require Import PreludeProofs SamModel SamSpec VocabProofs SamProofs SamFinal SamBatches.

Lemma well_typed_incl dom names names' l : incl names names' -> well_typed dom names l -> well_typed dom names' l.
Proof. intros Hi (psig & os & H1 & H2 & H3). exists psig, os. split; [assumption|]. split; [eapply incl_tran; eassumption|assumption]. Qed.
Lemma well_typed_dup dom x c l : well_typed dom ((x ++ c) ++ c) l <-> well_typed dom (x ++ c) l.
Proof.
  split; apply well_typed_incl; intros o; rewrite !in_app_iff; tauto.
Qed.

Lemma triplet_exact dom prev next c a p q :
  dict_get (d_actions dom) (c_name c) = Some a ->
  triplet_snapshot dom prev next c = Ok (p, q) ->
  forall l, (In l p <-> well_typed dom (combine (c_params c) (map snd (a_sig a)) ++ d_consts dom) l /\ lit_true prev l) /\
            (In l q <-> well_typed dom (combine (c_params c) (map snd (a_sig a)) ++ d_consts dom) l /\ lit_true next l).
Proof.
  intros G E l. unfold triplet_snapshot in E. rewrite (dict_lookup_Some _ _ _ G) in E. cbn [bind] in E.
  injection E as <- <-. rewrite !snapshot_exact. unfold parameterized_objects. rewrite well_typed_dup. tauto.
Qed.

Lemma pair_list_inj (pool p q : list (string * string)) :
  NoDup (map fst pool) -> incl p pool -> incl q pool -> map fst p = map fst q -> p = q.
Proof.
  intros Hn. revert q; induction p as [|[o x] p IH]; intros [|[o' y] q] Hp Hq E; simpl in E; try discriminate; [reflexivity|].
  injection E as <- E. f_equal.
  - f_equal. assert (H1 := Hp _ (or_introl eq_refl)). assert (H2 := Hq _ (or_introl eq_refl)).
    apply (dict_In_get pool) in H1; [|exact Hn]. apply (dict_In_get pool) in H2; [|exact Hn]. congruence.
  - apply IH; [| |assumption]; intros z Hz; [apply Hp|apply Hq]; right; assumption.
Qed.

Lemma perms_NoDup {A} r (l : list A) : NoDup l -> NoDup (perms r l).
Proof.
  revert l; induction r as [|r IH]; intros l Hl; simpl; [repeat constructor; intros []|].
  assert (Hp : NoDup (map fst (picks l)) /\ forall p, In p (picks l) -> NoDup (snd p)).
  { clear r IH. split.
    - assert (E : map fst (picks l) = l); [|rewrite E; assumption].
      clear Hl. induction l as [|x l IH]; simpl; [reflexivity|]. f_equal. rewrite map_map. simpl. exact IH.
    - intros [x rest] H. apply picks_perm in H. apply (Permutation_NoDup H) in Hl. inversion Hl; assumption. }
  destruct Hp as [Hf Hs]. revert Hf Hs. generalize (picks l). clear l Hl.
  induction l as [|[x rest] l IHl]; intros Hf Hs; simpl; [constructor|]. inversion Hf as [|? ? Hx Hf']; subst.
  apply NoDup_app_iff. split; [|split].
  - apply (NoDup_map_inj (cons x)); [intros; congruence|]. apply IH. apply (Hs (x, rest)); left; reflexivity.
  - apply IHl; [assumption|]. intros p Hp. apply Hs; right; assumption.
  - intros p H1 H2. apply in_map_iff in H1. destruct H1 as (p' & <- & _).
    apply in_flat_map in H2. destruct H2 as ([y rest'] & Hy & H2). apply in_map_iff in H2. destruct H2 as (p'' & E & _).
    injection E as <- _. apply Hx. apply in_map_iff. exists (y, rest'). auto.
Qed.

(** With pairwise distinct non-constant objects a ground literal has at most one match. *)
Lemma injective_length dom a c g ms :
  dict_get (d_actions dom) (c_name c) = Some a ->
  length (c_params c) = length (a_sig a) -> NoDup (c_params c) -> no_constant_args dom c ->
  NoDup (filter (fun o => dict_mem o (d_consts dom)) (l_args g)) ->
  match_predicate dom g c None = Ok ms -> length ms <= 1.
Proof.
  intros G Hl Hp Hc Hg E.
  destruct (eq_dec (l_args g) []) as [Eg|Eg].
  { unfold match_predicate in E. rewrite Eg in E. injection E as <-. simpl; lia. }
  rewrite (match_predicate_nonempty dom g c a Eg G) in E. cbv zeta in E. injection E as <-.
  set (cs := filter (fun o => dict_mem o (d_consts dom)) (l_args g)) in *.
  unfold create_signature_permutations. set (pool := combine (c_params c ++ cs) (dict_keys (a_sig a) ++ cs)).
  assert (Hpool : NoDup (map fst pool)).
  { unfold pool. rewrite map_fst_combine.
    - apply NoDup_app_iff. split; [assumption|]. split; [assumption|]. intros o H1 H2. unfold cs in H2. apply filter_In in H2.
      destruct H2 as [_ H2]. apply memb_In in H2. exact (Hc o H1 H2).
    - rewrite !app_length. unfold dict_keys. rewrite map_length. lia. }
  assert (Hnp : NoDup pool) by (eapply NoDup_map_inv; exact Hpool).
  set (cands := filter _ (perms _ pool)).
  assert (Hcn : NoDup cands) by (apply NoDup_filter, perms_NoDup; assumption).
  assert (Hci : forall p, In p cands -> incl p pool).
  { intros p H. apply filter_In in H. eapply perms_incl; apply H. }
  revert Hcn Hci. generalize cands. clear cands. intros cands Hcn Hci.
  assert (Hlen : forall l : list (list (string * string)), NoDup l -> (forall p, In p l -> incl p pool) ->
     length (filter_out_impossible g (map (fun p => mkLit (l_name g) (sig_keys (snd (extract_combinations_data p))) (l_pos g)) l)
               (map (fun p => fst (extract_combinations_data p)) l)) =
     length (filter (fun p => eqb (mkLit (l_name g) (map fst p) (l_pos g)) g) l)).
  { intros l _ _. unfold filter_out_impossible. rewrite map_length. induction l as [|p l IH]; [reflexivity|].
    simpl. destruct (eqb _ g); cbn [length]; [f_equal|]; exact IH. }
  pose proof (Hlen cands Hcn Hci) as Hx. unfold extract_combinations_data in Hx. cbn [fst snd] in Hx. rewrite Hx. clear Hx Hlen.
  set (good := filter _ cands).
  assert (Hgn : NoDup good) by (apply NoDup_filter; assumption).
  assert (Hall : forall p q, In p good -> In q good -> p = q).
  { intros p q H1 H2. apply filter_In in H1, H2. destruct H1 as [H1 E1], H2 as [H2 E2].
    apply eqb_true in E1. apply eqb_true in E2. apply (pair_list_inj pool); auto.
    apply (f_equal l_args) in E1. apply (f_equal l_args) in E2. simpl in *. congruence. }
  destruct good as [|p [|q good]]; simpl; try lia.
  exfalso. inversion Hgn as [|? ? H _]; subst. apply H. left. apply Hall; simpl; auto.
Qed.

Lemma injective_match dom a c g r :
  dict_get (d_actions dom) (c_name c) = Some a -> NoDup (dict_keys (a_sig a)) ->
  (forall y, In y (dict_keys (a_sig a)) -> ~ In y (dict_keys (d_consts dom))) ->
  length (c_params c) = length (a_sig a) -> NoDup (c_params c) -> no_constant_args dom c ->
  NoDup (filter (fun o => dict_mem o (d_consts dom)) (l_args g)) ->
  get_injective_match dom g c = Ok r ->
  forall m, r = Some m <->
    NoDup (l_args m) /\ incl (l_args m) (dict_keys (a_sig a) ++ dict_keys (d_consts dom)) /\
    ground (call_assignment (a_sig a) c) m = g.
Proof.
  intros G Hs Hd Hl Hp Hc Hg E m. unfold get_injective_match in E. inv_bind E as ms Em. injection E as <-.
  assert (Hlen := injective_length dom a c g ms G Hl Hp Hc Hg Em).
  rewrite <- (match_predicate_exact_gen dom a c g ms m G Hs Hd Hl Hg Em).
  assert (Hsound : forall x, In x ms -> l_pos x = l_pos g).
  { intros x Hx. apply (match_predicate_exact_gen dom a c g ms x G Hs Hd Hl Hg Em) in Hx. destruct Hx as (_ & _ & <-). reflexivity. }
  destruct ms as [|x [|y ms]]; simpl in *; try lia.
  - split; [discriminate|tauto].
  - assert (Ex : mkLit (l_name x) (l_args x) (l_pos g) = x) by (rewrite <- (Hsound x (or_introl eq_refl)); destruct x; reflexivity).
    rewrite Ex. split; [intros [= ->]; auto|intros [->|[]]; reflexivity].
Qed.

Lemma report_spec L :
  NoDup (dict_keys (d_actions (s_dom L))) -> s_safe L = [] ->
  (forall n, In n (s_observed L) -> In n (dict_keys (d_actions (s_dom L)))) ->
  NoDup (map fst (learning_report L)) /\
  (forall n, In n (map fst (learning_report L)) <-> In n (dict_keys (d_actions (s_dom L)))) /\
  (forall n, In (n, v_unobserved) (learning_report L) <-> In n (dict_keys (d_actions (s_dom L))) /\ ~ In n (s_observed L)).
Proof.
  intros Hn Hs Ho. unfold learning_report. rewrite Hs. cbv zeta. cbn [map app].
  set (names := dict_keys (d_actions (s_dom L))) in *.
  set (u := filter (fun n => memb n (set_diff (to_set (s_observed L)) [])) names).
  set (w := set_diff (to_set names) (s_observed L)).
  assert (Hu : forall n, In n u <-> In n names /\ In n (s_observed L)).
  { intros n. unfold u. rewrite filter_In, memb_In, set_diff_In, to_set_In. simpl. tauto. }
  assert (Hw : forall n, In n w <-> In n names /\ ~ In n (s_observed L)).
  { intros n. unfold w. rewrite set_diff_In, to_set_In. tauto. }
  set (l := map (fun n => (n, v_not_safe)) u ++ map (fun n => (n, v_unobserved)) w).
  assert (Hk : map fst l = u ++ w) by (unfold l; rewrite map_app, !map_map; simpl; rewrite !map_id; reflexivity).
  assert (Hnl : NoDup (map fst l)).
  { rewrite Hk. apply NoDup_app_iff. split; [apply NoDup_filter; assumption|]. split; [apply set_diff_NoDup, to_set_NoDup|].
    intros n H1 H2. apply Hu in H1. apply Hw in H2. tauto. }
  rewrite (dict_of_NoDup _ Hnl). split; [assumption|]. split.
  - intros n. rewrite Hk, in_app_iff, Hu, Hw. destruct (In_dec' n (s_observed L)); tauto.
  - intros n. unfold l. rewrite in_app_iff, !in_map_iff. split.
    + intros [(x & E & _)|(x & E & Hx)]; [discriminate|]. injection E as <-. apply Hw; assumption.
    + intros H. right. exists n. split; [reflexivity|]. apply Hw; assumption.
Qed.

Lemma evidence_perm cps cps' n cp : Permutation cps cps' -> (evidence cps n cp <-> evidence cps' n cp).
Proof.
  intros P. unfold evidence. split; intros (H & H'); (split; [|assumption]).
  - eapply Permutation_in; eassumption.
  - eapply Permutation_in; [apply Permutation_sym; eassumption|assumption].
Qed.

Lemma learned_order dom policy inj cps cps' n a0 a a' :
  Permutation cps cps' -> d_consts dom = [] ->
  learned_action dom policy inj cps n a0 a -> learned_action dom policy inj cps' n a0 a' ->
  (forall l, In l (a_eff a) <-> In l (a_eff a')) /\ (forall l, In l (a_pre a) <-> In l (a_pre a')) /\
  (forall p, In p (a_ineq a) <-> In p (a_ineq a')).
Proof.
  intros P C [_ _ P1 S1 C1 Q1] [_ _ P2 S2 C2 Q2].
  assert (He : forall l, In l (a_eff a) <-> In l (a_eff a')).
  { intros l. split; intros H.
    - destruct (S1 l H) as (Hm & cp & Hev & Hb). apply C2; auto. exists cp; split; [|assumption]. apply (evidence_perm cps cps'); assumption.
    - destruct (S2 l H) as (Hm & cp & Hev & Hb). apply C1; auto. exists cp; split; [|assumption]. apply (evidence_perm cps cps'); assumption. }
  split; [exact He|]. split.
  - intros l. rewrite P1, P2. unfold kept. destruct policy; rewrite ?He; setoid_rewrite (evidence_perm cps cps' n _ P); reflexivity.
  - intros [x y]. rewrite Q1, Q2. split; intros (H1 & H2 & H3 & H4); repeat split; auto; intros cp Hin; apply H4;
      (eapply Permutation_in; [|exact Hin]); [apply Permutation_sym|]; assumption.
Qed.

Lemma good_calls_perm dom cps cps' : Permutation cps cps' -> good_calls dom cps -> good_calls dom cps'.
Proof. intros P H cp Hin. apply H. eapply Permutation_in; [apply Permutation_sym; eassumption|assumption]. Qed.

Lemma no_constants_calls dom cps : d_consts dom = [] -> no_constant_calls dom cps.
Proof. intros E cp _ _ o _. rewrite E. intros []. Qed.

Lemma learn_order dom policy inj obs obs' L L' :
  wf_domain dom -> blank_domain dom -> d_consts dom = [] -> good_calls dom (concat obs) ->
  Permutation (concat obs) (concat obs') ->
  learned dom policy inj obs L -> learned dom policy inj obs' L' ->
  dict_keys (d_actions (s_dom L)) = dict_keys (d_actions (s_dom L')) /\
  forall n a a', dict_get (d_actions (s_dom L)) n = Some a -> dict_get (d_actions (s_dom L')) n = Some a' ->
    a_sig a = a_sig a' /\
    (forall l, In l (a_pre a) <-> In l (a_pre a')) /\ (forall l, In l (a_eff a) <-> In l (a_eff a')) /\
    (forall p, In p (a_ineq a) <-> In p (a_ineq a')).
Proof.
  intros W B C Hg P HL HL'.
  assert (Hg' := good_calls_perm _ _ _ P Hg).
  assert (Hn := no_constants_calls dom (concat obs) C). assert (Hn' := no_constants_calls dom (concat obs') C).
  split.
  - destruct HL as [rep E], HL' as [rep' E'].
    destruct (learn_spec dom policy inj obs W B Hg Hn) as (M & r & EM & _ & _ & K & _).
    destruct (learn_spec dom policy inj obs' W B Hg' Hn') as (M' & r' & EM' & _ & _ & K' & _).
    congruence.
  - intros n a a' G G'.
    destruct (learned_spec _ _ _ _ _ _ _ W B Hg Hn HL G) as (a0 & G0 & LA).
    destruct (learned_spec _ _ _ _ _ _ _ W B Hg' Hn' HL' G') as (a0' & G0' & LA').
    assert (a0' = a0) by congruence. subst a0'.
    destruct (learned_order _ _ _ _ _ _ _ _ _ P C LA LA') as (H1 & H2 & H3).
    split; [rewrite (la_sig _ _ _ _ _ _ _ LA), (la_sig _ _ _ _ _ _ _ LA'); reflexivity|]. auto.
Qed.

Lemma unobserved_not_applicable dom inj obs L n a :
  wf_domain dom -> blank_domain dom -> good_calls dom (concat obs) -> no_constant_calls dom (concat obs) ->
  learned dom no_remove inj obs L -> dict_get (d_actions (s_dom L)) n = Some a ->
  (forall cp, ~ evidence (concat obs) n cp) -> (exists l, mentionable dom (a_sig a) l) ->
  forall sg s, ~ applicable a sg s.
Proof.
  intros W B Hg Hn HL G Hno [l Hl] sg s [Hp _].
  destruct (learned_spec _ _ _ _ _ _ _ W B Hg Hn HL G) as (a0 & G0 & LA).
  rewrite (la_sig _ _ _ _ _ _ _ LA) in Hl.
  assert (H1 : In l (a_pre a)).
  { apply (la_pre _ _ _ _ _ _ _ LA). split; [assumption|]. split; [intros cp Hcp; exfalso; eapply Hno; eassumption|exact I]. }
  assert (H2 : In (neg_lit l) (a_pre a)).
  { apply (la_pre _ _ _ _ _ _ _ LA). split; [apply well_typed_neg; assumption|]. split; [intros cp Hcp; exfalso; eapply Hno; eassumption|exact I]. }
  apply Hp in H1. apply Hp in H2. rewrite ground_neg, lit_true_neg in H2. contradiction.
Qed.

(** ** Negative-precondition policies *)
Lemma policy_spec L n a :
  dict_get (d_actions (s_dom L)) n = Some a ->
  exists a', dict_get (d_actions (s_dom (handle_negative_preconditions_policy L))) n = Some a' /\
    a_name a' = a_name a /\ a_sig a' = a_sig a /\ a_eff a' = a_eff a /\ a_ineq a' = a_ineq a /\
    (forall l, In l (a_pre a') <-> In l (a_pre a) /\ kept (s_policy L) (a_eff a) l).
Proof.
  intros G. unfold handle_negative_preconditions_policy. destruct (s_policy L) eqn:E.
  - exists a. do 5 (split; [auto|]). intros l; simpl; tauto.
  - unfold remove_negative_preconditions; cbn [s_dom with_dom set_actions d_actions].
    rewrite dict_get_map_vals, G. cbn [snd]. eexists; split; [reflexivity|]. do 4 (split; [reflexivity|]).
    intros l. rewrite E. apply drop_negative_spec. discriminate.
  - unfold remove_negative_preconditions; cbn [s_dom with_dom set_actions d_actions].
    rewrite dict_get_map_vals, G. cbn [snd]. eexists; split; [reflexivity|]. do 4 (split; [reflexivity|]).
    intros l. rewrite E. apply drop_negative_spec. discriminate.
Qed.

Lemma policy_keys L :
  dict_keys (d_actions (s_dom (handle_negative_preconditions_policy L))) = dict_keys (d_actions (s_dom L)).
Proof.
  unfold handle_negative_preconditions_policy. destruct (s_policy L); [reflexivity| |];
  unfold remove_negative_preconditions; cbn [s_dom with_dom set_actions d_actions]; apply dict_keys_map_vals.
Qed.

Lemma filter_idem {A} (f : A -> bool) l : filter f (filter f l) = filter f l.
Proof.
  induction l as [|x l IH]; simpl; [reflexivity|]. destruct (f x) eqn:E; simpl; [rewrite E; f_equal|]; assumption.
Qed.

Lemma policy_idem L :
  handle_negative_preconditions_policy (handle_negative_preconditions_policy L) = handle_negative_preconditions_policy L.
Proof.
  destruct L as [d o s c sg p i]. destruct p; [reflexivity| |];
    unfold handle_negative_preconditions_policy, remove_negative_preconditions, with_dom, set_actions; cbn;
    rewrite map_map; do 2 f_equal; apply map_ext; intros [n a]; cbn; f_equal;
    unfold drop_negative, with_pre; cbn; f_equal; apply filter_idem.
Qed.

(** ** Components that teach nothing *)
Lemma failed_ignored L obs : learn_action_model L (map (filter cp_ok) obs) = learn_action_model L obs.
Proof.
  assert (E : forall o M, fold_res (fun L cp => if cp_ok cp then handle_component L cp else Ok L) (filter cp_ok o) M =
                          fold_res (fun L cp => if cp_ok cp then handle_component L cp else Ok L) o M).
  { induction o as [|cp o IH]; intros M; simpl; [reflexivity|]. destruct (cp_ok cp) eqn:Eo; simpl; [rewrite Eo|apply IH].
    destruct (handle_component M cp); simpl; auto. }
  unfold learn_action_model, learn_components.
  assert (E2 : forall M, fold_res (fun L o => fold_res (fun L cp => if cp_ok cp then handle_component L cp else Ok L) o L) (map (filter cp_ok) obs) M
     = fold_res (fun L o => fold_res (fun L cp => if cp_ok cp then handle_component L cp else Ok L) o L) obs M).
  { induction obs as [|o obs IH]; intros M; simpl; [reflexivity|]. rewrite E. destruct (fold_res _ o M); simpl; auto. }
  rewrite E2. reflexivity.
Qed.

Lemma duplicates_only_inequalities L cp L' :
  handle_component L cp = Ok L' -> ~ NoDup (c_params (cp_call cp)) ->
  s_observed L' = s_observed L /\ dict_keys (d_actions (s_dom L')) = dict_keys (d_actions (s_dom L)) /\
  forall n a, dict_get (d_actions (s_dom L)) n = Some a ->
    exists a', dict_get (d_actions (s_dom L')) n = Some a' /\ a_name a' = a_name a /\ a_sig a' = a_sig a /\
      a_pre a' = a_pre a /\ a_eff a' = a_eff a /\
      (n <> c_name (cp_call cp) -> a' = a) /\ incl (a_ineq a') (a_ineq a).
Proof.
  intros E Hd. unfold handle_component, verify_parameter_duplication in E.
  rewrite (proj2 (contains_duplicates_true _) Hd) in E. inv_bind E as r Er. inv_bind Er as b Eb. apply dict_lookup_Ok in Eb.
  injection Er as <-. injection E as <-. split; [reflexivity|].
  split. { cbn. apply dict_set_keys_existing. eapply dict_get_key; eassumption. }
  intros n a G. rewrite put_action_get. destruct (eq_dec n (c_name (cp_call cp))) as [->|Hne].
  - assert (b = a) by congruence. subst b. eexists; split; [reflexivity|]. cbn. repeat split; auto; [congruence|apply fold_discard_incl].
  - exists a. repeat split; auto. apply incl_refl.
Qed.

Lemma duplicates_inequalities L cp L' a :
  handle_component L cp = Ok L' -> ~ NoDup (c_params (cp_call cp)) ->
  dict_get (d_actions (s_dom L)) (c_name (cp_call cp)) = Some a ->
  NoDup (dict_keys (a_sig a)) -> NoDup (dict_keys (d_consts (s_dom L))) ->
  (forall x, In x (dict_keys (a_sig a)) -> ~ In x (dict_keys (d_consts (s_dom L)))) ->
  length (c_params (cp_call cp)) = length (a_sig a) ->
  exists a', dict_get (d_actions (s_dom L')) (c_name (cp_call cp)) = Some a' /\
    forall x y, In (x, y) (a_ineq a') <-> In (x, y) (a_ineq a) /\
      ~ (before_in (a_sig a) x y /\ call_assignment (a_sig a) (cp_call cp) x = call_assignment (a_sig a) (cp_call cp) y).
Proof.
  intros E Hd G Hs Hc Hdj Hl. destruct (dup_step L (cp_call cp) a) as (L1 & a' & E1 & R & _ & _ & _ & _ & _ & _ & Hi); auto.
  { constructor; auto. }
  unfold handle_component in E. rewrite E1 in E. injection E as <-. exists a'. split; [|exact Hi].
  rewrite (rp_get _ _ _ _ R). destruct (eq_dec _ _); congruence.
Qed.

(** ** Statements in the form used by [SamProperties] *)
Section Run.
  Variables (dom : domain) (policy : neg_policy) (inj : bool) (obs : list (list component)) (L : learner)
            (rep : list (string * verdict)).
  Hypothesis W : wf_domain dom.
  Hypothesis B : blank_domain dom.
  Hypothesis GC : good_calls dom (concat obs).
  Hypothesis NC : no_constant_calls dom (concat obs).
  Hypothesis E : learn_action_model (init_learner dom policy inj) obs = Ok (L, rep).

  Lemma run_action n a : dict_get (d_actions (s_dom L)) n = Some a ->
    exists a0, dict_get (d_actions dom) n = Some a0 /\ learned_action dom policy inj (concat obs) n a0 a.
  Proof. apply (learned_spec dom policy inj obs L n a W B GC NC). exists rep; exact E. Qed.

  Lemma run_safe real n a r :
    real_domain dom real -> real_components real (concat obs) -> policy_ok policy (concat obs) n r ->
    dict_get (d_actions (s_dom L)) n = Some a -> real n = Some r -> safe_for dom a r.
  Proof. intros RD RC PO G R. destruct (run_action n a G) as (a0 & G0 & LA). eapply safety; eauto. Qed.

  Lemma run_pre_kept real n a r l :
    real_domain dom real -> real_components real (concat obs) -> policy_ok policy (concat obs) n r ->
    dict_get (d_actions (s_dom L)) n = Some a -> real n = Some r -> In l (a_pre r) -> In l (a_pre a).
  Proof. intros RD RC PO G R. destruct (run_action n a G) as (a0 & G0 & LA). eapply real_pre_learned; eauto. Qed.

  Lemma run_pre n a l : dict_get (d_actions (s_dom L)) n = Some a ->
    (In l (a_pre a) <->
     mentionable dom (a_sig a) l /\ (forall cp, evidence (concat obs) n cp -> true_before (a_sig a) cp l) /\ kept policy (a_eff a) l).
  Proof. intros G. destruct (run_action n a G) as (a0 & G0 & LA). rewrite (la_sig _ _ _ _ _ _ _ LA). apply (la_pre _ _ _ _ _ _ _ LA). Qed.

  Lemma run_eff_noconst n a l : d_consts dom = [] -> dict_get (d_actions (s_dom L)) n = Some a ->
    (In l (a_eff a) <->
     mentionable dom (a_sig a) l /\ exists cp, evidence (concat obs) n cp /\ became_true (a_sig a) cp l).
  Proof.
    intros C G. destruct (run_action n a G) as (a0 & G0 & LA). rewrite (la_sig _ _ _ _ _ _ _ LA). split.
    - apply (la_eff_sound _ _ _ _ _ _ _ LA).
    - intros [H1 H2]. apply (la_eff_complete _ _ _ _ _ _ _ LA); auto.
  Qed.

  Lemma run_eff_real real n a r l :
    real_domain dom real -> real_components real (concat obs) ->
    (forall m, In m (a_eff r) -> ~ In (neg_lit m) (a_eff r)) ->
    dict_get (d_actions (s_dom L)) n = Some a -> real n = Some r ->
    (In l (a_eff a) -> In l (a_eff r)) /\
    (In l (a_eff a) <->
     mentionable dom (a_sig a) l /\ exists cp, evidence (concat obs) n cp /\ became_true (a_sig a) cp l).
  Proof.
    intros RD RC Hc G R. destruct (run_action n a G) as (a0 & G0 & LA). rewrite (la_sig _ _ _ _ _ _ _ LA). split.
    - intros Hl. eapply eff_real; eauto.
    - split; [apply (la_eff_sound _ _ _ _ _ _ _ LA)|].
      intros [Hm (cp & Hev & Hb)]. apply (la_eff_complete _ _ _ _ _ _ _ LA); eauto. right. intros cp' Hev'.
      assert (Hr : In l (a_eff r)).
      { eapply (real_after dom (concat obs) n a0 r real W G0 RD R RC GC NC cp l Hev Hm); assumption. }
      apply (real_after dom (concat obs) n a0 r real W G0 RD R RC GC NC cp' l Hev' Hm); auto.
  Qed.

  Lemma run_explained real n a r cp :
    real_domain dom real -> real_components real (concat obs) -> policy_ok policy (concat obs) n r ->
    dict_get (d_actions (s_dom L)) n = Some a -> real n = Some r -> evidence (concat obs) n cp ->
    applicable a (call_assignment (a_sig a) (cp_call cp)) (cp_prev cp) /\
    is_result a (call_assignment (a_sig a) (cp_call cp)) (cp_prev cp) (cp_next cp).
  Proof.
    intros RD RC PO G R Hev. destruct (run_action n a G) as (a0 & G0 & LA). rewrite (la_sig _ _ _ _ _ _ _ LA).
    eapply explained; eauto.
  Qed.

  Lemma run_ineq n a x y : dict_get (d_actions (s_dom L)) n = Some a ->
    (In (x, y) (a_ineq a) <->
     inj = true /\ before_in (a_sig a) x y /\ same_type (a_sig a) x y /\
     forall cp, In cp (concat obs) -> cp_ok cp = true -> c_name (cp_call cp) = n ->
         call_assignment (a_sig a) (cp_call cp) x <> call_assignment (a_sig a) (cp_call cp) y).
  Proof. intros G. destruct (run_action n a G) as (a0 & G0 & LA). rewrite (la_sig _ _ _ _ _ _ _ LA). apply (la_ineq _ _ _ _ _ _ _ LA). Qed.

  Lemma run_facts :
    rep = learning_report L /\ dict_keys (d_actions (s_dom L)) = dict_keys (d_actions dom) /\
    s_safe L = [] /\ (forall n, In n (s_observed L) <-> exists cp, evidence (concat obs) n cp).
  Proof.
    destruct (learn_spec dom policy inj obs W B GC NC) as (L' & rep' & E' & H1 & _ & H2 & H3 & H4 & _).
    rewrite E in E'. injection E' as <- <-. auto.
  Qed.

  Lemma evidence_key n cp : evidence (concat obs) n cp -> In n (dict_keys (d_actions dom)).
  Proof.
    intros (Hin & [Hok _] & <-). destruct (GC cp Hin Hok) as (a & G & _). eapply dict_get_key; eassumption.
  Qed.

  Lemma run_report :
    NoDup (map fst rep) /\
    (forall n, In n (map fst rep) <-> In n (dict_keys (d_actions dom))) /\
    (forall n, In (n, v_unobserved) rep <-> In n (dict_keys (d_actions dom)) /\ ~ exists cp, evidence (concat obs) n cp) /\
    (forall n, In (n, v_not_safe) rep <-> exists cp, evidence (concat obs) n cp) /\
    (forall n, ~ In (n, v_ok) rep).
  Proof.
    destruct run_facts as (Er & Ek & Es & Eo). rewrite Er.
    assert (Hn : NoDup (dict_keys (d_actions (s_dom L)))) by (rewrite Ek; apply wf_acts; assumption).
    assert (Hin : forall n, In n (s_observed L) -> In n (dict_keys (d_actions (s_dom L)))).
    { intros n H. apply Eo in H. destruct H as [cp H]. rewrite Ek. eapply evidence_key; eassumption. }
    destruct (report_spec L Hn Es Hin) as (R1 & R2 & R3).
    rewrite Ek in *. split; [assumption|]. split; [assumption|].
    assert (Hok : forall n, ~ In (n, v_ok) (learning_report L)).
    { intros n. unfold learning_report. rewrite Es. cbn [map app]. 
      intros H. unfold dict_of in H.
      assert (G : forall l d, (forall k v, In (k, v) d -> v <> v_ok) -> (forall k v, In (k, v) l -> v <> v_ok) ->
                forall k v, In (k, v) (fold_left (fun d (kv : string * verdict) => dict_set d (fst kv) (snd kv)) l d) -> v <> v_ok).
      { clear. induction l as [|[k0 v0] l IH]; simpl; intros d Hd Hl k v Hkv; [eauto|].
        eapply IH; [| |exact Hkv].
        - intros k' v' H. assert (Hs : forall d, In (k', v') (dict_set d k0 v0) -> v' = v0 \/ In (k', v') d).
          { clear. induction d as [|[k1 v1] d IH]; simpl.
            - intros [E|[]]; left; congruence.
            - destruct (eq_dec k0 k1); simpl; intros [E|H]; auto; [left; congruence|]. destruct (IH H); auto. }
          destruct (Hs d H) as [->|H']; eauto.
        - intros k' v' H. eapply Hl; right; exact H. }
      eapply (G _ [] ) in H; [apply H; reflexivity|intros ? ? []|].
      intros k v Hkv. apply in_app_iff in Hkv. destruct Hkv as [Hkv|Hkv]; apply in_map_iff in Hkv; destruct Hkv as (z & Ez & _); congruence. }
    split; [|split; [|exact Hok]].
    - intros n. rewrite R3, Eo. reflexivity.
    - intros n. rewrite <- Eo. split.
      + intros H. assert (Hk : In n (map fst (learning_report L))) by (apply in_map_iff; exists (n, v_not_safe); auto).
        apply R2 in Hk. destruct (In_dec' n (s_observed L)) as [Ho|Ho]; [assumption|]. exfalso.
        assert (H' : In (n, v_unobserved) (learning_report L)) by (apply R3; auto).
        apply (dict_In_get (learning_report L)) in H; [|exact R1]. apply (dict_In_get (learning_report L)) in H'; [|exact R1]. congruence.
      + intros H. assert (Hk : In n (map fst (learning_report L))) by (apply R2, Hin, H).
        apply in_map_iff in Hk. destruct Hk as ([n' v] & Ev & Hv). simpl in Ev. subst n'. destruct v.
        * exfalso. eapply Hok; eassumption.
        * assumption.
        * apply R3 in Hv. tauto.
  Qed.
End Run.

(** ** Monotonicity *)
Lemma component_monotone L cp L' :
  handle_component L cp = Ok L' ->
  (forall k, k <> c_name (cp_call cp) -> dict_get (d_actions (s_dom L')) k = dict_get (d_actions (s_dom L)) k) /\
  forall a, dict_get (d_actions (s_dom L)) (c_name (cp_call cp)) = Some a ->
    exists a', dict_get (d_actions (s_dom L')) (c_name (cp_call cp)) = Some a' /\
      a_sig a' = a_sig a /\ incl (a_ineq a') (a_ineq a) /\
      (In (c_name (cp_call cp)) (s_observed L) -> incl (a_pre a') (a_pre a)) /\
      (d_consts (s_dom L) = [] -> incl (a_eff a) (a_eff a')).
Proof.
  intros E. destruct (handle_component_effect L cp L' E) as [H1 _ _ H2]. split; [exact H1|].
  intros a G. destruct (H2 a G) as (a' & G' & Hs & _ & Hi & Hp & He). exists a'. auto.
Qed.

(** ** Vocabularies, in terms of dictionary lookups *)
Lemma grounded_vocabulary_entry dom objs name l :
  (exists lits, dict_get (grounded_predicate_vocabulary dom objs) name = Some lits /\ In l lits) <->
  l_name l = name /\ l_pos l = true /\ well_typed dom (objs ++ d_consts dom) l.
Proof.
  rewrite <- grounded_vocabulary_exact. unfold dd_get. destruct (dict_get _ name) as [lits|]; split.
  - intros (x & [= <-] & H); exact H.
  - intros H; eauto.
  - intros (x & E & _); discriminate.
  - intros [].
Qed.
Lemma mentions_required_iff must args :
  mentions_required must args <-> (forall m, must = Some m -> m <> ""%string -> In m args).
Proof.
  unfold mentions_required. destruct must as [m|]; split.
  - intros H m' [= <-] Hm. destruct H; [congruence|assumption].
  - intros H. destruct (eq_dec m ""%string); [auto|right; auto].
  - intros _ m' E; discriminate.
  - trivial.
Qed.
Lemma lifted_vocabulary_entry dom sig must l :
  NoDup (map fst (sig ++ d_consts dom)) ->
  (In l (lifted_vocabulary dom sig must) <->
   mentionable dom sig l /\ (forall m, must = Some m -> m <> ""%string -> In m (l_args l))).
Proof. intros H. rewrite lifted_vocabulary_exact by assumption. rewrite mentions_required_iff. reflexivity. Qed.
Lemma lifted_vocabulary_neg dom sig must l :
  NoDup (map fst (sig ++ d_consts dom)) ->
  (In (neg_lit l) (lifted_vocabulary dom sig must) <-> In l (lifted_vocabulary dom sig must)).
Proof.
  intros H. rewrite !lifted_vocabulary_exact by assumption. unfold mentionable. rewrite well_typed_neg. reflexivity.
Qed.
Lemma lifted_functions_entry dom sig must fname args :
  In (fname, args) (lifted_functions_vocabulary dom sig must) <->
  (exists fsig objs, In (fname, fsig) (d_funcs dom) /\ incl objs (sig ++ d_consts dom) /\ NoDup (map fst objs) /\
    args = map fst objs /\ Forall2 (fun o p => is_sub_type (snd o) (snd p) = true) objs fsig) /\
  (forall m, must = Some m -> m <> ""%string -> In m args).
Proof. rewrite lifted_functions_vocabulary_exact, mentions_required_iff. reflexivity. Qed.
Lemma effects_exact prev next adds dels :
  extract_discrete_effects prev next = (adds, dels) ->
  (forall l, In l adds <-> l_pos l = true /\ In l next /\ ~ In l prev) /\
  (forall l, In l dels <-> l_pos l = false /\ In (neg_lit l) prev /\ ~ In (neg_lit l) next).
Proof. intros E. pose proof (extract_discrete_effects_exact prev next) as H. rewrite E in H. exact H. Qed.

(** ** Order independence with constants, for data of a real domain *)
Lemma learn_order_real dom policy inj obs obs' L L' rep rep' real :
  wf_domain dom -> blank_domain dom -> good_calls dom (concat obs) -> no_constant_calls dom (concat obs) ->
  real_domain dom real -> real_components real (concat obs) ->
  (forall n r m, real n = Some r -> In m (a_eff r) -> ~ In (neg_lit m) (a_eff r)) ->
  Permutation (concat obs) (concat obs') ->
  learn_action_model (init_learner dom policy inj) obs = Ok (L, rep) ->
  learn_action_model (init_learner dom policy inj) obs' = Ok (L', rep') ->
  dict_keys (d_actions (s_dom L)) = dict_keys (d_actions (s_dom L')) /\
  forall n a a', dict_get (d_actions (s_dom L)) n = Some a -> dict_get (d_actions (s_dom L')) n = Some a' ->
    a_sig a = a_sig a' /\
    (forall l, In l (a_pre a) <-> In l (a_pre a')) /\ (forall l, In l (a_eff a) <-> In l (a_eff a')) /\
    (forall p, In p (a_ineq a) <-> In p (a_ineq a')).
Proof.
  intros W B GC NC RD RC HC P E E'.
  assert (GC' := good_calls_perm _ _ _ P GC).
  assert (Pin : forall cp, In cp (concat obs') -> In cp (concat obs)) by (intros cp; apply Permutation_in, Permutation_sym; assumption).
  assert (NC' : no_constant_calls dom (concat obs')) by (intros cp Hin; apply NC, Pin, Hin).
  assert (RC' : real_components real (concat obs')) by (intros cp Hin; apply RC, Pin, Hin).
  destruct (run_facts dom policy inj obs L rep W B GC NC E) as (_ & K & _).
  destruct (run_facts dom policy inj obs' L' rep' W B GC' NC' E') as (_ & K' & _).
  split; [congruence|]. intros n a a' G G'.
  destruct (run_action dom policy inj obs L rep W B GC NC E n a G) as (a0 & G0 & LA).
  destruct (run_action dom policy inj obs' L' rep' W B GC' NC' E' n a' G') as (a0' & G0' & LA').
  assert (a0' = a0) by congruence. subst a0'.
  assert (S1 := la_sig _ _ _ _ _ _ _ LA). assert (S2 := la_sig _ _ _ _ _ _ _ LA').
  destruct (real_sig _ _ RD n a0 G0) as (r & Hr & _).
  assert (He : forall l, In l (a_eff a) <-> In l (a_eff a')).
  { intros l.
    destruct (run_eff_real dom policy inj obs L rep W B GC NC E real n a r l RD RC (fun m => HC n r m Hr) G Hr) as [_ Q1].
    destruct (run_eff_real dom policy inj obs' L' rep' W B GC' NC' E' real n a' r l RD RC' (fun m => HC n r m Hr) G' Hr) as [_ Q2]. rewrite Q1, Q2.
    rewrite S1, S2. setoid_rewrite (evidence_perm _ _ n _ P). reflexivity. }
  split; [congruence|]. split; [|split; [exact He|]].
  - intros l. rewrite (run_pre dom policy inj obs L rep W B GC NC E n a l G), (run_pre dom policy inj obs' L' rep' W B GC' NC' E' n a' l G').
    rewrite S1, S2. unfold kept. destruct policy; rewrite ?He; setoid_rewrite (evidence_perm _ _ n _ P); reflexivity.
  - intros [x y]. rewrite (run_ineq dom policy inj obs L rep W B GC NC E n a x y G), (run_ineq dom policy inj obs' L' rep' W B GC' NC' E' n a' x y G').
    rewrite S1, S2. split; intros (H1 & H2 & H3 & H4); repeat split; auto; intros cp Hin; apply H4;
      first [apply Pin; assumption | eapply Permutation_in; eassumption].
Qed.

(** An injective match is the only literal that denotes the ground literal, for every call. *)
Lemma injective_match_unique dom a c g m :
  dict_get (d_actions dom) (c_name c) = Some a -> NoDup (dict_keys (a_sig a)) ->
  (forall y, In y (dict_keys (a_sig a)) -> ~ In y (dict_keys (d_consts dom))) ->
  length (c_params c) = length (a_sig a) ->
  NoDup (filter (fun o => dict_mem o (d_consts dom)) (l_args g)) ->
  get_injective_match dom g c = Ok (Some m) ->
  forall m', (NoDup (l_args m') /\ incl (l_args m') (dict_keys (a_sig a) ++ dict_keys (d_consts dom)) /\
              ground (call_assignment (a_sig a) c) m' = g) <-> m' = m.
Proof.
  intros G Hs Hd Hl Hg E m'. unfold get_injective_match in E. inv_bind E as ms Em. injection E as E.
  rewrite <- (match_predicate_exact_gen dom a c g ms m' G Hs Hd Hl Hg Em).
  assert (Hsound : forall x, In x ms -> l_pos x = l_pos g).
  { intros x Hx. apply (match_predicate_exact_gen dom a c g ms x G Hs Hd Hl Hg Em) in Hx. destruct Hx as (_ & _ & <-). reflexivity. }
  destruct ms as [|x [|y ms]]; try discriminate. injection E as <-.
  assert (Ex : mkLit (l_name x) (l_args x) (l_pos g) = x) by (rewrite <- (Hsound x (or_introl eq_refl)); destruct x; reflexivity).
  rewrite Ex. simpl. split; [intros [->|[]]; reflexivity|auto].
Qed.
