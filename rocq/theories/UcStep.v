(** * Quantified learning: one component *)
From Verif Require Import VocabProofs SamModel SamSpec SamProofs SamFinal LogicProofs DepProofs CondModel CondSpec CondProofs TextProofs UcModel UcSpec UcLift PreludeProofs.

Lemma incl_map_inv {A B} (f : A -> B) (k : list A) : forall l, incl l (map f k) -> exists ys, incl ys k /\ map f ys = l.
Proof.
  induction l as [|y l IH]; intros Hi.
  - exists []. split; [intros z []|reflexivity].
  - destruct IH as (ys & H1 & H2); [intros z Hz; apply Hi; right; assumption|].
    assert (Hy := Hi y (or_introl eq_refl)). apply in_map_iff in Hy. destruct Hy as (z & Ez & Hz).
    exists (z :: ys). split; [intros w [<-|Hw]; auto|]. cbn [map]. congruence.
Qed.

(** ** Dependency sets over a vocabulary with results about [x] *)
Record qdep (dom : domain) (sig : signature) (max : nat) (x : string) (P : literal -> list literal -> Prop) (D : depset literal) : Prop :=
  { qd_max : max_antecedents D = max;
    qd_nodup : NoDup (dict_keys (possible D));
    qd_keys : forall l, In l (dict_keys (possible D)) <-> quantified_literal dom sig x l;
    qd_good : forall l cands, dict_get (possible D) l = Some cands -> good_cands max cands;
    qd_cands : forall l cands, dict_get (possible D) l = Some cands ->
                 forall c, In c cands <-> In c (all_combinations dom sig max) /\ P l c }.

Lemma qdep_ext dom sig max x (P R : literal -> list literal -> Prop) D :
  (forall l c, quantified_literal dom sig x l -> In c (all_combinations dom sig max) -> (P l c <-> R l c)) ->
  qdep dom sig max x P D -> qdep dom sig max x R D.
Proof.
  intros HPQ [H1 H2 H3 H4 H5]. constructor; auto. intros l cands E c. rewrite (H5 l cands E c).
  assert (Hm : quantified_literal dom sig x l) by (apply H3; eapply dict_get_key; eassumption).
  split; intros [A B]; split; auto; apply (HPQ l c Hm A); assumption.
Qed.
Lemma qdep_actions dom acts sig max x P D : qdep (set_actions dom acts) sig max x P D <-> qdep dom sig max x P D.
Proof. split; intros [H1 H2 H3 H4 H5]; constructor; assumption. Qed.

Lemma qdep_remove dom sig max x (P : literal -> list literal -> Prop) (D : depset literal) (R : list literal) (b : bool) (ls : list literal) :
  qdep dom sig max x P D -> NoDup R -> NoDup ls ->
  qdep dom sig max x (fun l c => P l c /\ (In l ls -> if b then forall y, In y c -> ~ In y R else exists y, In y c /\ ~ In y R))
       (fold_left (fun D l => remove_dependencies D l R b) ls D).
Proof.
  intros [H1 H2 H3 H4 H5] HR Hls. destruct (fold_remove R b ls D Hls) as (F1 & F2 & F3).
  constructor; rewrite ?F1, ?F2; auto.
  - intros l cands E. rewrite F3 in E. destruct (memb l ls).
    + destruct (dict_get (possible D) l) as [cs|] eqn:Ec; [|discriminate]. cbn [option_map] in E. injection E as <-.
      rewrite H1. apply remove_from_good; eauto.
    + eauto.
  - intros l cands E c. rewrite F3 in E. destruct (memb l ls) eqn:Em.
    + apply memb_In in Em. destruct (dict_get (possible D) l) as [cs|] eqn:Ec; [|discriminate]. cbn [option_map] in E. injection E as <-.
      rewrite H1. destruct b.
      * rewrite remove_from_supersets by eauto. rewrite filter_In, (H5 l cs Ec), negb_true_iff.
        assert (Hme : meets R c = false <-> forall y, In y c -> ~ In y R).
        { split.
          - intros Hf y Hy Hr. assert (meets R c = true) by (apply meets_iff; eauto). congruence.
          - intros Hf. apply not_true_is_false. intros Ht. apply meets_iff in Ht. destruct Ht as (y & Hy & Hr). exact (Hf y Hy Hr). }
        rewrite Hme. tauto.
      * rewrite remove_from_subsets by eauto. rewrite filter_In, (H5 l cs Ec), negb_true_iff.
        assert (Hme : subsetb c R = false <-> exists y, In y c /\ ~ In y R).
        { split.
          - intros Hf. unfold subsetb in Hf. clear -Hf. induction c as [|y c IH]; [discriminate|]. cbn [forallb] in Hf.
            destruct (memb y R) eqn:E; [|exists y; split; [left; reflexivity|apply memb_nIn; assumption]].
            destruct IH as (z & Hz & Hn); [exact Hf|]. exists z; split; [right; assumption|assumption].
          - intros (y & Hy & Hn). apply not_true_is_false. intros Ht. apply subsetb_incl in Ht. apply Hn, Ht; assumption. }
        rewrite Hme. tauto.
    + apply memb_nIn in Em. rewrite (H5 l cands E c). tauto.
Qed.

Lemma guarded_remove (R : list literal) b ls : forall (D : depset literal),
  fold_left (fun D l => if is_possible_result D l then remove_dependencies D l R b else D) ls D =
  fold_left (fun D l => remove_dependencies D l R b) ls D.
Proof.
  induction ls as [|l ls IH]; intros D; [reflexivity|]. cbn [fold_left]. rewrite <- IH. f_equal.
  unfold is_possible_result, dict_mem, remove_dependencies. destruct (dict_get (possible D) l) as [v|] eqn:E.
  - rewrite (proj2 (memb_In _ _)) by (eapply dict_get_key; eassumption). reflexivity.
  - destruct (memb l (dict_keys (possible D))); reflexivity.
Qed.

Lemma qdep_init dom sig max x : NoDup (map fst (sig ++ d_consts dom)) -> x <> ""%string ->
  qdep dom sig max x (fun _ _ => True)
       (initialize_dependencies (mkDep [] max) (lifted_vocabulary dom sig (Some x)) (Some (lifted_vocabulary dom sig None))).
Proof.
  intros Hn Hx. unfold initialize_dependencies. cbn [possible max_antecedents with_possible]. cbv zeta.
  set (voc := to_set (lifted_vocabulary dom sig (Some x))).
  change (create_cnf_combination (to_set (lifted_vocabulary dom sig None)) max None) with (all_combinations dom sig max).
  assert (Hvoc : forall l, In l voc <-> quantified_literal dom sig x l).
  { intros l. unfold voc. rewrite to_set_In, lifted_vocabulary_exact by assumption. unfold mentions_required, quantified_literal.
    destruct (String.eqb x "") eqn:E; [apply String.eqb_eq in E; contradiction|]. tauto. }
  assert (Hgo : forall (ls : list literal) (d : list (literal * list (list literal))),
     (forall l, dict_get (fold_left (fun p l => dict_set p l (all_combinations dom sig max)) ls d) l =
        if memb l ls then Some (all_combinations dom sig max) else dict_get d l) /\
     (NoDup (dict_keys d) -> NoDup (dict_keys (fold_left (fun p l => dict_set p l (all_combinations dom sig max)) ls d)))).
  { induction ls as [|y ls IH]; intros d; cbn [fold_left]; [split; auto|].
    destruct (IH (dict_set d y (all_combinations dom sig max))) as [IH1 IH2]. split.
    - intros l. rewrite IH1, dict_get_set. unfold memb at 2; cbn [existsb]; fold (memb l ls).
      destruct (eq_dec l y) as [->|Hne].
      + rewrite PreludeProofs.eqb_refl. cbn [orb]. destruct (memb y ls); reflexivity.
      + rewrite (proj2 (PreludeProofs.eqb_neq _ _)) by assumption. reflexivity.
    - intros Hd. apply IH2, dict_set_keys_NoDup; assumption. }
  destruct (Hgo voc []) as [G1 G2].
  assert (G3 : forall l cands, dict_get (fold_left (fun p l => dict_set p l (all_combinations dom sig max)) voc []) l = Some cands ->
     cands = all_combinations dom sig max).
  { intros l cands E. rewrite G1 in E. destruct (memb l voc); [congruence|discriminate]. }
  constructor; cbn [possible max_antecedents].
  - reflexivity.
  - apply G2; constructor.
  - intros l. rewrite dict_get_Some_iff, <- Hvoc. split.
    + intros (v & E). rewrite G1 in E. destruct (memb l voc) eqn:Em; [|discriminate]. apply memb_In in Em. assumption.
    + intros Hm. exists (all_combinations dom sig max). rewrite G1, (proj2 (memb_In l voc) Hm). reflexivity.
  - intros l cands E. apply G3 in E. subst. apply cnf_comb_good, to_set_NoDup.
  - intros l cands E c. apply G3 in E. subst. tauto.
Qed.

(** ** What a step leaves alone *)
Record frame (n : string) (U U' : ulearner) : Prop :=
  { fr_c : u_c U' = u_c U;
    fr_types : u_types U' = u_types U;
    fr_map : u_map U' = u_map U;
    fr_param : u_param U' = u_param U;
    fr_q : forall m, m <> n -> sub_dict (u_q U') m = sub_dict (u_q U) m;
    fr_qk : dict_keys (sub_dict (u_q U') n) = dict_keys (sub_dict (u_q U) n);
    fr_s : forall m, m <> n -> sub_dict (u_seen U') m = sub_dict (u_seen U) m }.
Lemma frame_refl n U : frame n U U.
Proof. constructor; reflexivity. Qed.
Lemma frame_trans n U U1 U2 : frame n U U1 -> frame n U1 U2 -> frame n U U2.
Proof.
  intros [A1 A2 A3 A4 A5 A6 A7] [B1 B2 B3 B4 B5 B6 B7]. constructor; try congruence.
  - intros m Hm. rewrite B5, A5; auto.
  - intros m Hm. rewrite B7, A7; auto.
Qed.
Lemma frame_dom n U U' : frame n U U' -> u_dom U' = u_dom U.
Proof. intros F. unfold u_dom. rewrite (fr_c _ _ _ F). reflexivity. Qed.
Lemma sub_set_same {V} (d : list (string * list (string * V))) n t v : sub_dict (sub_set d n t v) n = dict_set (sub_dict d n) t v.
Proof. rewrite sub_dict_set. destruct (eq_dec n n); [reflexivity|contradiction]. Qed.
Lemma sub_set_other {V} (d : list (string * list (string * V))) n t v m : m <> n -> sub_dict (sub_set d n t v) m = sub_dict d m.
Proof. intros H. rewrite sub_dict_set. destruct (eq_dec m n); [contradiction|reflexivity]. Qed.

(** ** One component *)
Section Step.
Variables (dom : domain) (a : action) (cp : component) (objs : list pobject) (names : list string).
Variables (xs : string -> string) (ts : string -> ptype).
Let c := cp_call cp.
Let n := c_name c.
Let e0 : entry := (objs, cp).
Let r := in_view names e0.
Let prev := discrete_state_snapshot dom (cp_prev cp) r.
Let next := discrete_state_snapshot dom (cp_next cp) r.
Let xsig (tn : string) : signature := a_sig a ++ [(xs tn, ts tn)].
Hypothesis Hcon : d_consts dom = [].
Hypothesis Hget : dict_get (d_actions dom) n = Some a.
Hypothesis Hsig : NoDup (dict_keys (a_sig a)).
Hypothesis Hlen : length (c_params c) = length (a_sig a).
Hypothesis Hp : NoDup (c_params c).
Hypothesis Hobjs : NoDup (dict_keys objs).
Hypothesis Hpar : incl (combine (c_params c) (map snd (a_sig a))) objs.
Hypothesis Hty : forall o t, In (o, t) objs -> In (t_name t) names -> t = ts (t_name t).
Hypothesis Hxs : forall tn, In tn names -> ~ In (xs tn) (dict_keys (a_sig a)).
Hypothesis Hone : forall l, well_typed dom r l -> lit_true (cp_next cp) l -> ~ lit_true (cp_prev cp) l ->
  forall o o', In o (l_args l) -> In o' (l_args l) -> ~ In o (c_params c) -> ~ In o' (c_params c) -> o = o'.

Lemma r_nodup : NoDup (dict_keys r).
Proof.
  unfold r, in_view, dict_keys. unfold dict_keys in Hobjs. clear -Hobjs. cbn [fst e0]. induction objs as [|[k v] l IH]; [constructor|].
  cbn [filter map fst] in *. inversion Hobjs as [|? ? Hk Hr]; subst.
  match goal with |- context [if ?b then _ else _] => destruct b end; [|apply IH; assumption]. cbn [map fst]. constructor; [|apply IH; assumption].
  intros Hin. apply Hk. apply in_map_iff in Hin. destruct Hin as (y & Ey & Hy). apply filter_In in Hy. apply in_map_iff. exists y; tauto.
Qed.
Lemma r_params : incl (combine (c_params c) (map snd (a_sig a))) r.
Proof.
  intros [o t] Hin. unfold r, in_view. apply filter_In. split; [apply Hpar; assumption|]. apply orb_true_iff. left. apply memb_In.
  apply in_combine_l in Hin. exact Hin.
Qed.
Lemma base_view st : views dom a c st (discrete_state_snapshot dom st r).
Proof.
  apply (wide_views dom a c st r None); auto.
  - constructor; auto; rewrite Hcon; [intros y _ []|constructor].
  - exact r_nodup.
  - exact r_params.
  - intros ls Hls. discriminate.
Qed.

Lemma other_In tn o : In o (other_objects tn e0) <-> ~ In o (c_params c) /\ exists t, In (o, t) objs /\ t_name t = tn.
Proof.
  unfold other_objects. rewrite in_map_iff. split.
  - intros ([o' t] & <- & Hin). apply filter_In in Hin. destruct Hin as [H1 H2]. cbn [fst snd] in *. apply andb_true_iff in H2. destruct H2 as [H2 H3].
    apply String.eqb_eq in H2. apply negb_true_iff, memb_nIn in H3. split; [exact H3|]. exists t; auto.
  - intros (H1 & t & H2 & <-). exists (o, t). split; [reflexivity|]. apply filter_In. split; [exact H2|]. cbn [fst snd]. rewrite String.eqb_refl.
    cbn [andb]. apply negb_true_iff, memb_nIn. exact H1.
Qed.

Section Object.
Variables (tn o : string).
Hypothesis Htn : In tn names.
Hypothesis Ho : In o (other_objects tn e0).
Let xa := xaction a (xs tn) (ts tn).
Let xd := xdomain dom n a (xs tn) (ts tn).
Let xc := xcall c o.
Let xsg := call_assignment (xsig tn) xc.

Lemma ob_out : ~ In o (c_params c). Proof. apply (proj1 (proj1 (other_In tn o) Ho)). Qed.
Lemma ob_in : In (o, ts tn) objs.
Proof. destruct (proj1 (other_In tn o) Ho) as (_ & t & H1 & H2). rewrite <- H2. rewrite <- (Hty o t H1); [assumption|]. rewrite H2; exact Htn. Qed.
Lemma ob_r : incl (combine (c_params xc) (map snd (a_sig xa))) r.
Proof.
  cbn [xc xcall c_params xa xaction a_sig]. rewrite map_app. cbn [map snd]. rewrite combine_app by (rewrite map_length; exact Hlen).
  intros y Hy. apply in_app_iff in Hy. destruct Hy as [Hy|[<-|[]]]; [apply r_params; assumption|].
  unfold r, in_view. apply filter_In. split; [exact ob_in|]. apply orb_true_iff. right. apply memb_In. cbn [snd].
  destruct (proj1 (other_In tn o) Ho) as (_ & t & H1 & H2). assert (E : t = ts tn) by (rewrite (Hty o t H1), H2; [reflexivity|rewrite H2; exact Htn]).
  rewrite <- E, H2. exact Htn.
Qed.
Lemma ob_good : good_call xd xa xc. Proof. apply xgood; auto; apply Hxs, Htn. Qed.
Lemma ob_view st : views xd xa xc st (discrete_state_snapshot dom st r).
Proof.
  change (discrete_state_snapshot dom st r) with (discrete_state_snapshot xd st r).
  apply (wide_views xd xa xc st r None); auto.
  - exact ob_good.
  - apply xdistinct; [exact Hp|exact ob_out].
  - exact r_nodup.
  - exact ob_r.
  - intros ls Hls. discriminate.
Qed.
Lemma ob_reduced st : views xd xa xc st (reduce_state (discrete_state_snapshot dom st r) (c_params c ++ [o])).
Proof.
  change (discrete_state_snapshot dom st r) with (discrete_state_snapshot xd st r).
  apply (wide_views xd xa xc st r (Some (c_params c ++ [o]))); auto.
  - exact ob_good.
  - apply xdistinct; [exact Hp|exact ob_out].
  - exact r_nodup.
  - exact ob_r.
  - intros ls Hls y Hy. injection Hls as <-. exact Hy.
Qed.
Lemma ob_inj l m : mentionable dom (xsig tn) l -> mentionable dom (xsig tn) m -> ground xsg l = ground xsg m -> l = m.
Proof.
  intros Hl Hm E. destruct (mentionable_names _ _ _ Hl) as [_ Il]. destruct (mentionable_names _ _ _ Hm) as [_ Im].
  apply (ground_lit_injective xsg (dict_keys (a_sig xa) ++ dict_keys (d_consts xd))); auto.
  destruct ob_good as [X1 X2 X3 _ X5]. apply (ground_injective xd (a_sig xa) xc); auto.
  - apply xdistinct; [exact Hp|exact ob_out].
  - apply xnoconst; exact Hcon.
Qed.
Lemma ob_became l : mentionable dom (xsig tn) l ->
  (became_true (xsig tn) (at_object cp o) l <-> In (ground xsg l) next /\ ~ In (ground xsg l) prev).
Proof.
  intros Hl. destruct (mentionable_names _ _ _ Hl) as [A B].
  destruct (ob_view (cp_prev cp)) as [_ V1]. destruct (ob_view (cp_next cp)) as [_ V2].
  specialize (V1 l A B). specialize (V2 l A B). fold xsg in V1, V2. fold (xsig tn) in V1, V2.
  change (ground (call_assignment (a_sig xa) xc) l) with (ground xsg l) in V1, V2. unfold prev, next. rewrite V1, V2.
  unfold became_true, true_before, true_after. cbn [at_object cp_prev cp_next cp_call].
  change (mkCall (c_name (cp_call cp)) (c_params (cp_call cp) ++ [o])) with xc. fold xsg.
  change (mentionable xd (a_sig xa) l) with (mentionable dom (xsig tn) l). tauto.
Qed.
End Object.

(** The changes about a further object. *)
Lemma change_spec e : In e (universal_changes dom c prev next) <->
  well_typed dom r e /\ lit_true (cp_next cp) e /\ ~ lit_true (cp_prev cp) e /\ exists o, In o (l_args e) /\ ~ In o (c_params c).
Proof.
  unfold universal_changes. pose proof (extract_discrete_effects_exact prev next) as He.
  destruct (extract_discrete_effects prev next) as [ga gd]. destruct He as [Ha Hd].
  rewrite filter_In, set_union_In, Ha, Hd. unfold prev, next. rewrite !snapshot_exact, Hcon, app_nil_r, well_typed_neg, !lit_true_neg.
  assert (Hex : existsb (fun o => negb (memb o (dict_keys (@nil pobject) ++ c_params c))) (l_args e) = true <-> exists o, In o (l_args e) /\ ~ In o (c_params c)).
  { rewrite existsb_exists. cbn [dict_keys map app]. split; intros (o & H1 & H2); exists o; (split; [assumption|]).
    - apply negb_true_iff, memb_nIn in H2. exact H2.
    - apply negb_true_iff, memb_nIn. exact H2. }
  rewrite Hex. destruct (lit_true_dec (cp_prev cp) e), (lit_true_dec (cp_next cp) e); destruct (l_pos e); intuition congruence.
Qed.

Lemma change_lift e : In e (universal_changes dom c prev next) ->
  exists o t m, additional_object c e = Ok o /\ dict_get objs o = Some t /\ In (t_name t) names /\ In o (other_objects (t_name t) e0) /\
    first_match dom e c o (xs (t_name t)) = Ok m /\
    mentionable dom (xsig (t_name t)) m /\ In (xs (t_name t)) (l_args m) /\ became_true (xsig (t_name t)) (at_object cp o) m /\
    ground (call_assignment (xsig (t_name t)) (xcall c o)) m = e.
Proof.
  intros Hin. assert (Hin' := Hin). apply change_spec in Hin'. destruct Hin' as (Hw & Ht & Hf & o1 & Ho1 & Hn1).
  unfold additional_object. destruct (filter (fun o => negb (memb o (c_params c))) (l_args e)) as [|o os] eqn:Ef.
  { exfalso. assert (In o1 (filter (fun o => negb (memb o (c_params c))) (l_args e))) by (apply filter_In; split; [assumption|apply negb_true_iff, memb_nIn; assumption]).
    rewrite Ef in *. contradiction. }
  assert (Ho : In o (l_args e) /\ ~ In o (c_params c)).
  { assert (H : In o (filter (fun o => negb (memb o (c_params c))) (l_args e))) by (rewrite Ef; left; reflexivity).
    apply filter_In in H. destruct H as [H1 H2]. split; [assumption|]. apply negb_true_iff, memb_nIn in H2. exact H2. }
  destruct Ho as [Hoa Hon].
  assert (Hargs : incl (l_args e) (c_params c ++ [o])).
  { intros y Hy. apply in_app_iff. destruct (in_dec string_dec y (c_params c)) as [|Hny]; [left; assumption|right; left].
    symmetry. exact (Hone e Hw Ht Hf y o Hy Hoa Hny Hon). }
  assert (Hw' := Hw). destruct Hw' as (psig & ws & W1 & W2 & W3 & W4 & W5).
  assert (Hor : exists t, In (o, t) r).
  { rewrite W4 in Hoa. apply in_map_iff in Hoa. destruct Hoa as ([o' t] & <- & Hws). exists t. apply W2; assumption. }
  destruct Hor as (t & Hor). unfold r, in_view in Hor. apply filter_In in Hor. destruct Hor as [Hot Hv]. cbn [fst snd e0] in Hot, Hv.
  apply orb_true_iff in Hv. destruct Hv as [Hv|Hv]; [apply memb_In in Hv; contradiction|]. apply memb_In in Hv.
  assert (Hoth : In o (other_objects (t_name t) e0)) by (apply other_In; split; [assumption|exists t; auto]).
  exists o, t. 
  set (tn := t_name t) in *. set (xsg := call_assignment (xsig tn) (xcall c o)).
  assert (Hxn := Hxs tn Hv).
  (* a literal with this grounding *)
  assert (Hnd : NoDup (l_args e)) by (rewrite W4; exact W3).
  assert (Hpre : exists ys, incl ys (dict_keys (xsig tn)) /\ map xsg ys = l_args e).
  { apply incl_map_inv. intros y Hy. apply Hargs in Hy. apply in_app_iff in Hy. apply in_map_iff.
    assert (Hk : dict_keys (xsig tn) = dict_keys (a_sig a) ++ [xs tn]) by (unfold xsig, dict_keys; rewrite map_app; reflexivity).
    destruct Hy as [Hy|[<-|[]]].
    - assert (Hz : exists z, In (y, z) (combine (c_params c) (dict_keys (a_sig a)))).
      { assert (Hll : length (c_params c) = length (dict_keys (a_sig a))) by (unfold dict_keys; rewrite map_length; exact Hlen).
        rewrite <- (map_fst_combine (c_params c) (dict_keys (a_sig a)) Hll) in Hy. apply in_map_iff in Hy. destruct Hy as ([y' z] & <- & Hz). exists z; exact Hz. }
      destruct Hz as (z & Hz). exists z. assert (Hzk : In z (dict_keys (a_sig a))) by (eapply in_combine_r; exact Hz). split.
      + etransitivity; [apply (xsg_other a c (xs tn) (ts tn) o Hlen Hxn z); intros ->; contradiction|].
        apply call_assignment_spec; assumption.
      + rewrite Hk. apply in_app_iff. left. exact Hzk.
    - exists (xs tn). split; [|rewrite Hk; apply in_app_iff; right; left; reflexivity].
      exact (xsg_x a c (xs tn) (ts tn) o Hlen Hxn). }
  destruct Hpre as (ys & Hys & Ey).
  destruct (ob_good tn o Hv) as [X1 X2 X3 X4 X5].
  destruct (match_predicate_total _ _ _ e X1) as [ms Ems].
  assert (Hms := match_predicate_exact _ _ _ e ms (mkLit (l_name e) ys (l_pos e)) X1 X2 X3 X5 Hnd Ems).
  change (d_consts (xdomain dom n a (xs tn) (ts tn))) with (d_consts dom) in Hms. rewrite Hcon in Hms. cbn [dict_keys map] in Hms. rewrite app_nil_r in Hms.
  assert (Hin1 : In (mkLit (l_name e) ys (l_pos e)) ms).
  { apply Hms. cbn [l_args]. split; [|split].
    - rewrite <- Ey in Hnd. apply NoDup_map_inv in Hnd. exact Hnd.
    - exact Hys.
    - unfold ground; cbn [l_name l_args l_pos]. change (a_sig (xaction a (xs tn) (ts tn))) with (xsig tn). fold xsg. rewrite Ey. destruct e; reflexivity. }
  destruct ms as [|m ms]; [destruct Hin1|].
  assert (Hm := match_predicate_exact _ _ _ e (m :: ms) m X1 X2 X3 X5 Hnd Ems).
  destruct (proj1 Hm (or_introl eq_refl)) as (M1 & M2 & M3).
  change (call_assignment (a_sig (xaction a (xs tn) (ts tn))) (xcall c o)) with xsg in M3.
  destruct (ob_view tn o Hv Hoth (cp_next cp)) as [_ V]. specialize (V m M1 M2).
  assert (Hment : mentionable dom (xsig tn) m).
  { change (call_assignment (a_sig (xaction a (xs tn) (ts tn))) (xcall c o)) with xsg in V. rewrite M3 in V. apply V.
    apply snapshot_exact. rewrite Hcon, app_nil_r. split; assumption. }
  exists m. split; [reflexivity|]. split; [apply dict_In_get; assumption|]. split; [assumption|]. split; [assumption|]. split.
  { unfold first_match. rewrite (match_extra dom a c (xs tn) (ts tn) o); auto.
    fold n. rewrite Ems. reflexivity. }
  split; [assumption|]. split; [|split].
  - destruct (in_dec string_dec (xs tn) (l_args m)) as [|Hnx]; [assumption|]. exfalso. apply Hon.
    rewrite <- M3 in Hoa. cbn [ground l_args] in Hoa. apply in_map_iff in Hoa. destruct Hoa as (y & Ey' & Hy).
    assert (Hyk : In y (dict_keys (a_sig a))).
    { specialize (M2 y Hy). change (d_consts (xdomain dom n a (xs tn) (ts tn))) with (d_consts dom) in M2. rewrite Hcon in M2.
      cbn [dict_keys map] in M2. rewrite app_nil_r in M2. change (a_sig (xaction a (xs tn) (ts tn))) with (a_sig a ++ [(xs tn, ts tn)]) in M2.
      unfold dict_keys in M2. rewrite map_app in M2. apply in_app_iff in M2. destruct M2 as [M2|[M2|[]]]; [exact M2|]. cbn [fst] in M2. subst y. contradiction. }
    rewrite <- Ey'. exact (xsg_param a c (xs tn) (ts tn) o Hsig Hlen Hxn y Hyk).
  - apply (ob_became tn o Hv Hoth m Hment). fold xsg. rewrite M3. unfold prev, next. rewrite !snapshot_exact, Hcon, app_nil_r. tauto.
  - exact M3.
Qed.

Lemma change_of tn o l : In tn names -> In o (other_objects tn e0) -> mentionable dom (xsig tn) l -> In (xs tn) (l_args l) ->
  became_true (xsig tn) (at_object cp o) l ->
  exists e, In e (universal_changes dom c prev next) /\ ground (call_assignment (xsig tn) (xcall c o)) l = e.
Proof.
  intros Htn Ho Hl Hx Hb. set (xsg := call_assignment (xsig tn) (xcall c o)). exists (ground xsg l). split; [|reflexivity].
  apply (ob_became tn o Htn Ho l Hl) in Hb. fold xsg in Hb. unfold prev, next in Hb. rewrite !snapshot_exact, Hcon, app_nil_r in Hb.
  apply change_spec. destruct Hb as [[H1 H2] H3]. split; [assumption|]. split; [assumption|]. split; [tauto|].
  exists o. split; [|exact (ob_out tn o Ho)]. cbn [ground l_args]. apply in_map_iff. exists (xs tn). split; [exact (xsg_x a c (xs tn) (ts tn) o Hlen (Hxs tn Htn))|assumption].
Qed.

(** The lift of a change is determined by it. *)
Lemma change_unique e o t m tn o' l : In e (universal_changes dom c prev next) ->
  additional_object c e = Ok o -> dict_get objs o = Some t ->
  mentionable dom (xsig (t_name t)) m -> ground (call_assignment (xsig (t_name t)) (xcall c o)) m = e ->
  In o (other_objects (t_name t) e0) -> In (t_name t) names ->
  In tn names -> In o' (other_objects tn e0) -> mentionable dom (xsig tn) l -> In (xs tn) (l_args l) ->
  ground (call_assignment (xsig tn) (xcall c o')) l = e -> o' = o /\ tn = t_name t /\ l = m.
Proof.
  intros Hin Ha Ht Hm Em Ho Hn Htn Ho' Hl Hx El.
  apply change_spec in Hin. destruct Hin as (Hw & H1 & H2 & _).
  assert (Hoe : In o (l_args e) /\ ~ In o (c_params c)).
  { unfold additional_object in Ha. destruct (filter (fun o => negb (memb o (c_params c))) (l_args e)) as [|o1 os] eqn:Ef; [discriminate|].
    injection Ha as ->. assert (H : In o (filter (fun o => negb (memb o (c_params c))) (l_args e))) by (rewrite Ef; left; reflexivity).
    apply filter_In in H. destruct H as [H3 H4]. split; [assumption|]. apply negb_true_iff, memb_nIn in H4. exact H4. }
  assert (Hoe' : In o' (l_args e)).
  { rewrite <- El. cbn [ground l_args]. apply in_map_iff. exists (xs tn). split; [exact (xsg_x a c (xs tn) (ts tn) o' Hlen (Hxs tn Htn))|assumption]. }
  assert (Eo : o' = o) by (apply (Hone e Hw H1 H2 o' o); try tauto; exact (ob_out tn o' Ho')).
  subst o'. split; [reflexivity|].
  destruct (proj1 (other_In _ _) Ho') as (_ & t' & Ht' & Etn). apply (dict_In_get _ _ _ Hobjs) in Ht'.
  assert (t' = t) by congruence. subst t'. split; [congruence|]. subst tn.
  apply (ob_inj (t_name t) o Hn Ho); auto. congruence.
Qed.

(** ** The folds *)
Let changes := universal_changes dom c prev next.
Definition lifts (tn o : string) (e l : literal) : Prop :=
  quantified_literal dom (xsig tn) (xs tn) l /\ In o (other_objects tn e0) /\ became_true (xsig tn) (at_object cp o) l /\
  ground (call_assignment (xsig tn) (xcall c o)) l = e.
Definition params_ok (U : ulearner) : Prop := forall tn, In tn names -> dict_get (sub_dict (u_param U) n) tn = Some (xs tn).

Lemma change_total e : In e changes ->
  exists o t m, additional_object c e = Ok o /\ dict_get objs o = Some t /\ In (t_name t) names /\ In o (other_objects (t_name t) e0) /\
    first_match dom e c o (xs (t_name t)) = Ok m /\ quantified_literal dom (xsig (t_name t)) (xs (t_name t)) m /\
    forall tn o' l, In tn names -> (lifts tn o' e l <-> tn = t_name t /\ o' = o /\ l = m).
Proof.
  intros He. destruct (change_lift e He) as (o & t & m & H1 & H2 & H3 & H4 & H5 & H6 & H7 & H8 & H9).
  exists o, t, m. repeat (split; [first [assumption|split; assumption]|]). intros tn o' l Htn. split.
  - intros ([L1 L2] & L3 & L4 & L5). destruct (change_unique e o t m tn o' l) as (E1 & E2 & E3); auto.
  - intros (-> & -> & ->). split; [split; assumption|]. auto.
Qed.

Lemma observe_fold : forall es U, incl es changes -> u_dom U = dom -> params_ok U ->
  (forall tn, In tn names -> exists s, dict_get (sub_dict (u_seen U) n) tn = Some s) ->
  exists U', fold_res (observe_universal_change objs c) es U = Ok U' /\ frame n U U' /\ u_q U' = u_q U /\
    forall tn s, In tn names -> dict_get (sub_dict (u_seen U) n) tn = Some s ->
      exists s', dict_get (sub_dict (u_seen U') n) tn = Some s' /\
        forall l, In l s' <-> In l s \/ exists e o, In e es /\ lifts tn o e l.
Proof.
  induction es as [|e es IH]; intros U Hi Hd Hpo Hs.
  - exists U. split; [reflexivity|]. split; [apply frame_refl|]. split; [reflexivity|]. intros tn s Htn Es. exists s. split; [assumption|].
    intros l. split; [auto|]. intros [H|(e & o & [] & _)]; assumption.
  - destruct (change_total e (Hi e (or_introl eq_refl))) as (o & t & m & H1 & H2 & H3 & H4 & H5 & _ & H6).
    destruct (Hs (t_name t) H3) as (s0 & Es0). set (U1 := with_seen U (sub_set (u_seen U) n (t_name t) (set_add m s0))).
    assert (E1 : observe_universal_change objs c U e = Ok U1).
    { unfold observe_universal_change. rewrite Hd, H1. cbn [bind]. rewrite Hcon. cbn [dict_get]. rewrite (dict_lookup_Some _ _ _ H2). cbn [bind].
      fold n. rewrite (sub_get_Ok _ _ _ _ (Hpo _ H3)). cbn [bind]. rewrite H5. cbn [bind]. rewrite (sub_get_Ok _ _ _ _ Es0). reflexivity. }
    assert (F1 : frame n U U1).
    { constructor; try reflexivity. intros k Hk. cbn [U1 u_seen with_seen]. apply sub_set_other; exact Hk. }
    destruct (IH U1) as (U' & E' & F' & Q' & S').
    + intros y Hy. apply Hi. right; exact Hy.
    + rewrite (frame_dom _ _ _ F1). exact Hd.
    + intros tn Htn. rewrite (fr_param _ _ _ F1). auto.
    + intros tn Htn. cbn [U1 u_seen with_seen]. rewrite sub_set_same, dict_get_set. destruct (eq_dec tn (t_name t)); [eauto|auto].
    + exists U'. split; [cbn [fold_res]; rewrite E1; exact E'|]. split; [eapply frame_trans; eassumption|]. split; [rewrite Q'; reflexivity|].
      intros tn s Htn Es. destruct (S' tn (if eq_dec tn (t_name t) then set_add m s0 else s) Htn) as (s' & Es' & Hs').
      { cbn [U1 u_seen with_seen]. rewrite sub_set_same, dict_get_set. destruct (eq_dec tn (t_name t)); [reflexivity|exact Es]. }
      exists s'. split; [exact Es'|]. intros l. rewrite Hs'.
      assert (Hin : In l (if eq_dec tn (t_name t) then set_add m s0 else s) <-> In l s \/ exists o', lifts tn o' e l).
      { destruct (eq_dec tn (t_name t)) as [E|Hne].
        - rewrite E in Es. assert (s = s0) by congruence. subst s. rewrite set_add_In. split.
          + intros [->|H]; [right; exists o; apply (H6 tn o m Htn); auto|auto].
          + intros [H|(o' & H)]; [auto|]. apply (H6 tn o' l Htn) in H. destruct H as (_ & _ & ->). auto.
        - split; [auto|]. intros [H|(o' & H)]; [assumption|]. apply (H6 tn o' l Htn) in H. destruct H as (H & _). contradiction. }
      rewrite Hin. split.
      * intros [[H|(o' & H)]|(e' & o' & He' & H)]; [auto|right; exists e, o'; split; [left; reflexivity|exact H]|right; exists e', o'; split; [right; exact He'|exact H]].
      * intros [H|(e' & o' & [<-|He'] & H)]; [auto|left; right; exists o'; exact H|right; exists e', o'; auto].
Qed.

(** The dependency sets of the quantified types. *)
Definition q_ok (max : nat) (P : string -> literal -> list literal -> Prop) (U : ulearner) : Prop :=
  forall tn, In tn names -> exists D, dict_get (sub_dict (u_q U) n) tn = Some D /\ qdep dom (xsig tn) max (xs tn) (P tn) D.
Lemma q_ok_ext max (P R : string -> literal -> list literal -> Prop) U :
  (forall tn l cd, In tn names -> quantified_literal dom (xsig tn) (xs tn) l -> In cd (all_combinations dom (xsig tn) max) -> (P tn l cd <-> R tn l cd)) ->
  q_ok max P U -> q_ok max R U.
Proof.
  intros H HP tn Htn. destruct (HP tn Htn) as (D & E & HD). exists D. split; [exact E|]. eapply qdep_ext; [|exact HD]. intros l cd Hl Hcd. apply H; assumption.
Qed.
Lemma sig_nodup tn : In tn names -> NoDup (map fst (xsig tn ++ d_consts dom)).
Proof.
  intros Htn. rewrite Hcon, app_nil_r. change (map fst (xsig tn)) with (dict_keys (xsig tn)).
  replace (dict_keys (xsig tn)) with (dict_keys (a_sig a) ++ [xs tn]) by (unfold xsig, dict_keys; rewrite map_app; reflexivity).
  apply NoDup_app_iff. split; [exact Hsig|]. split; [repeat constructor; intros []|]. intros y Hy [<-|[]]. exact (Hxs tn Htn Hy).
Qed.
Lemma q_set max (P : string -> literal -> list literal -> Prop) U tn D (R : literal -> list literal -> Prop) :
  In tn names -> q_ok max P U -> qdep dom (xsig tn) max (xs tn) (fun l cd => P tn l cd /\ R l cd) D ->
  let U1 := with_q U (sub_set (u_q U) n tn D) in
  q_ok max (fun tn' l cd => P tn' l cd /\ (tn' = tn -> R l cd)) U1 /\ frame n U U1.
Proof.
  intros Htn HP HD U1. split.
  - intros tn' Htn'. cbn [U1 u_q with_q]. rewrite sub_set_same, dict_get_set. destruct (eq_dec tn' tn) as [->|Hne].
    + exists D. split; [reflexivity|]. eapply qdep_ext; [|exact HD]. intros l cd _ _. cbv beta. intuition.
    + destruct (HP tn' Htn') as (D' & E' & HD'). exists D'. split; [exact E'|]. eapply qdep_ext; [|exact HD']. intros l cd _ _. cbv beta. intuition congruence.
  - constructor; try reflexivity.
    + intros k Hk. cbn [U1 u_q with_q]. apply sub_set_other; exact Hk.
    + cbn [U1 u_q with_q]. rewrite sub_set_same. apply dict_set_keys_existing. destruct (HP tn Htn) as (D' & E' & _). eapply dict_get_key; exact E'.
Qed.

(** Rule 1 at one object. *)
Definition rule1 (tn o : string) (l : literal) (cd : list literal) : Prop :=
  ~ true_after (xsig tn) (at_object cp o) l -> exists y, In y cd /\ ~ true_before (xsig tn) (at_object cp o) y.
Definition rule2 (tn o : string) (l : literal) (cd : list literal) : Prop :=
  became_true (xsig tn) (at_object cp o) l -> forall y, In y cd -> true_before (xsig tn) (at_object cp o) y.

Lemma remove_object max P U tn o : In tn names -> In o (other_objects tn e0) -> u_dom U = dom -> q_ok max P U ->
  exists U', (forall t, remove_existing_object c prev next tn (xs tn) U (o, t) = Ok U') /\ frame n U U' /\ u_seen U' = u_seen U /\
    q_ok max (fun tn' l cd => P tn' l cd /\ (tn' = tn -> rule1 tn o l cd)) U'.
Proof.
  intros Htn Ho Hd HP. destruct (HP tn Htn) as (D & ED & HD).
  destruct (find_with_false dom a c (xs tn) (ts tn) o Hcon Hget Hsig Hlen (Hxs tn Htn) (cp_next cp) _ (ob_reduced tn o Htn Ho (cp_next cp)))
    as (nr & En & Nn & Hn).
  destruct (find_with_true dom a c (xs tn) (ts tn) o Hcon Hget Hsig Hlen (Hxs tn Htn) (cp_prev cp) _ (ob_reduced tn o Htn Ho (cp_prev cp)))
    as (pv & Ev & Nv & Hv).
  set (D' := fold_left (fun D l => if is_possible_result D l then remove_dependencies D l pv false else D) nr D).
  assert (HD' : qdep dom (xsig tn) max (xs tn) (fun l cd => P tn l cd /\ rule1 tn o l cd) D').
  { unfold D'. rewrite guarded_remove. eapply qdep_ext; [|apply (qdep_remove dom (xsig tn) max (xs tn) (P tn) D pv false nr HD Nv Nn)].
    intros l cd [Hl _] Hcd. cbv beta iota. unfold rule1, true_after, true_before. cbn [at_object cp_prev cp_next cp_call].
    change (mkCall (c_name (cp_call cp)) (c_params (cp_call cp) ++ [o])) with (xcall c o).
    assert (Hment : forall y, In y cd -> mentionable dom (xsig tn) y) by (intros y; apply comb_mentionable with (max := max); [apply sig_nodup; exact Htn|assumption]).
    split; intros [HP1 H]; (split; [exact HP1|]).
    - intros Hf. destruct H as (y & Hy & Hny); [apply Hn; split; [exact Hl|exact Hf]|]. exists y. split; [exact Hy|].
      intros Ht. apply Hny, Hv. split; [apply Hment; exact Hy|exact Ht].
    - intros Hin. apply Hn in Hin. destruct H as (y & Hy & Hny); [apply Hin|]. exists y. split; [exact Hy|]. intros Hi. apply Hv in Hi. apply Hny, Hi. }
  destruct (q_set max P U tn D' _ Htn HP HD') as [HQ HF].
  eexists. split; [|split; [exact HF|split; [reflexivity|exact HQ]]].
  intros t. unfold remove_existing_object. cbn [fst]. rewrite Hd. unfold prev, next. rewrite En. cbn [bind]. rewrite Ev. cbn [bind].
  fold n. rewrite (sub_get_Ok _ _ _ _ ED). reflexivity.
Qed.

Lemma remove_objects max tn : In tn names -> forall (os : list pobject) P U, (forall o t, In (o, t) os -> In o (other_objects tn e0)) -> u_dom U = dom -> q_ok max P U ->
  exists U', fold_res (remove_existing_object c prev next tn (xs tn)) os U = Ok U' /\ frame n U U' /\ u_seen U' = u_seen U /\
    q_ok max (fun tn' l cd => P tn' l cd /\ (tn' = tn -> forall o t, In (o, t) os -> rule1 tn o l cd)) U'.
Proof.
  intros Htn. induction os as [|[o t] os IH]; intros P U Hos Hd HP.
  - exists U. split; [reflexivity|]. split; [apply frame_refl|]. split; [reflexivity|]. eapply q_ok_ext; [|exact HP]. intros. cbv beta. split; [intros H2; split; [exact H2|intros _ o t []]|tauto].
  - destruct (remove_object max P U tn o Htn (Hos o t (or_introl eq_refl)) Hd HP) as (U1 & E1 & F1 & S1 & Q1).
    destruct (IH _ U1 (fun o' t' H => Hos o' t' (or_intror H)) (eq_trans (frame_dom _ _ _ F1) Hd) Q1) as (U' & E' & F' & S' & Q').
    exists U'. split; [cbn [fold_res]; rewrite E1; exact E'|]. split; [eapply frame_trans; eassumption|]. split; [congruence|].
    eapply q_ok_ext; [|exact Q']. intros tn' l cd _ _ _. cbv beta. split.
    + intros [[H1 H2] H3]. split; [exact H1|]. intros E o' t' [Heq|Hin]; [injection Heq as <- <-; auto|eauto].
    + intros [H1 H2]. split; [split; [exact H1|intros E; apply (H2 E o t); left; reflexivity]|]. intros E o' t' Hin. apply (H2 E o' t'). right; exact Hin.
Qed.

Lemma objects_of_In tn o t : In (o, t) (objects_of (find_unique_objects_by_type objs (c_params c)) tn) <-> In (o, t) objs /\ ~ In o (c_params c) /\ t_name t = tn.
Proof.
  unfold objects_of. rewrite by_type_spec, filter_In, andb_true_iff, negb_true_iff, memb_nIn. cbn [fst snd].
  assert (E : Prelude.eqb (t_name t) tn = true <-> t_name t = tn) by (split; [apply eqb_true|intros ->; apply PreludeProofs.eqb_refl]).
  rewrite E. tauto.
Qed.

Lemma remove_types max : forall (txs : list (string * string)) P U, (forall tn x, In (tn, x) txs -> In tn names /\ x = xs tn) -> u_dom U = dom -> q_ok max P U ->
  exists U', fold_res (fun U tx => fold_res (remove_existing_object c prev next (fst tx) (snd tx))
                         (objects_of (find_unique_objects_by_type objs (c_params c)) (fst tx)) U) txs U = Ok U' /\ frame n U U' /\ u_seen U' = u_seen U /\
    q_ok max (fun tn l cd => P tn l cd /\ (In tn (dict_keys txs) -> forall o, In o (other_objects tn e0) -> rule1 tn o l cd)) U'.
Proof.
  induction txs as [|[tn x] txs IH]; intros P U Htx Hd HP.
  - exists U. split; [reflexivity|]. split; [apply frame_refl|]. split; [reflexivity|]. eapply q_ok_ext; [|exact HP]. intros. cbv beta. split; [intros H2; split; [exact H2|intros []]|tauto].
  - destruct (Htx tn x (or_introl eq_refl)) as [Htn ->].
    destruct (remove_objects max tn Htn (objects_of (find_unique_objects_by_type objs (c_params c)) tn) P U) as (U1 & E1 & F1 & S1 & Q1); auto.
    { intros o t Hin. apply objects_of_In in Hin. apply other_In. split; [tauto|]. exists t; tauto. }
    destruct (IH _ U1 (fun tn' x' H => Htx tn' x' (or_intror H)) (eq_trans (frame_dom _ _ _ F1) Hd) Q1) as (U' & E' & F' & S' & Q').
    exists U'. split; [cbn [fold_res fst snd]; rewrite E1; exact E'|]. split; [eapply frame_trans; eassumption|]. split; [congruence|].
    assert (Hob : forall o, In o (other_objects tn e0) <-> exists t, In (o, t) (objects_of (find_unique_objects_by_type objs (c_params c)) tn)).
    { intros o. rewrite other_In. setoid_rewrite objects_of_In. split; [intros (A & t & B & C); exists t; tauto|intros (t & A & B & C); split; [exact B|exists t; tauto]]. }
    eapply q_ok_ext; [|exact Q']. intros tn' l cd _ _ _. cbv beta. cbn [dict_keys map fst In]. fold (dict_keys txs). split.
    + intros [[H1 H2] H3]. split; [exact H1|]. intros [<-|Hin] o Ho; [|auto]. apply Hob in Ho. destruct Ho as (t & Ho). apply (H2 eq_refl o t Ho).
    + intros [H1 H2]. split; [split; [exact H1|]|].
      * intros -> o t Hin. apply H2; [left; reflexivity|apply Hob; eauto].
      * intros Hin o Ho. apply H2; [right; exact Hin|exact Ho].
Qed.

Lemma remove_change max P U e : In e changes -> u_dom U = dom -> params_ok U -> q_ok max P U ->
  exists U', remove_non_existing_change objs c prev U e = Ok U' /\ frame n U U' /\ u_seen U' = u_seen U /\
    q_ok max (fun tn l cd => P tn l cd /\ forall o, lifts tn o e l -> forall y, In y cd -> true_before (xsig tn) (at_object cp o) y) U'.
Proof.
  intros He Hd Hpo HP. destruct (change_total e He) as (o & t & m & H1 & H2 & H3 & H4 & H5 & Hm & H6). set (tn := t_name t) in *.
  destruct (HP tn H3) as (D & ED & HD).
  destruct (find_with_false dom a c (xs tn) (ts tn) o Hcon Hget Hsig Hlen (Hxs tn H3) (cp_prev cp) _ (ob_reduced tn o H3 H4 (cp_prev cp)))
    as (mp & Em & Nm & Hmp).
  set (R := fun (l : literal) (cd : list literal) => l = m -> forall y, In y cd -> true_before (xsig tn) (at_object cp o) y).
  assert (HD' : qdep dom (xsig tn) max (xs tn) (fun l cd => P tn l cd /\ R l cd) (remove_dependencies D m mp true)).
  { change (remove_dependencies D m mp true) with (fold_left (fun D l => remove_dependencies D l mp true) [m] D).
    eapply qdep_ext; [|apply (qdep_remove dom (xsig tn) max (xs tn) (P tn) D mp true [m] HD Nm)]; [|repeat constructor; intros []].
    intros l cd Hl Hcd. cbv beta iota. unfold R, true_before. cbn [at_object cp_prev cp_call].
    change (mkCall (c_name (cp_call cp)) (c_params (cp_call cp) ++ [o])) with (xcall c o).
    assert (Hment : forall y, In y cd -> mentionable dom (xsig tn) y) by (intros y; apply comb_mentionable with (max := max); [apply sig_nodup; exact H3|assumption]).
    split; intros [HP1 H]; (split; [exact HP1|]).
    - intros -> y Hy. destruct (lit_true_dec (cp_prev cp) (ground (call_assignment (xsig tn) (xcall c o)) y)) as [Ht|Hf]; [exact Ht|].
      exfalso. apply (H (or_introl eq_refl) y Hy), Hmp. split; [apply Hment; exact Hy|exact Hf].
    - intros [<-|[]] y Hy Hin. apply Hmp in Hin. apply (proj2 Hin), (H eq_refl y Hy). }
  destruct (q_set max P U tn _ _ H3 HP HD') as [HQ HF].
  eexists. split; [|split; [exact HF|split; [reflexivity|]]].
  - unfold remove_non_existing_change. rewrite H1. cbn [bind]. rewrite (dict_lookup_Some _ _ _ H2). cbn [bind]. fold n tn.
    rewrite (sub_get_Ok _ _ _ _ (Hpo _ H3)). cbn [bind]. rewrite Hd, H5. cbn [bind]. unfold prev. rewrite Em. cbn [bind].
    rewrite (sub_get_Ok _ _ _ _ ED). reflexivity.
  - eapply q_ok_ext; [|exact HQ]. intros tn' l cd Htn' _ _. cbv beta. split; intros [HP1 H]; (split; [exact HP1|]).
    + intros o' Hl. apply (H6 tn' o' l Htn') in Hl. destruct Hl as (-> & -> & ->). exact (H eq_refl eq_refl).
    + intros ->. intros ->. apply H. apply (H6 tn o m H3). auto.
Qed.

Lemma remove_changes max : forall es P U, incl es changes -> u_dom U = dom -> params_ok U -> q_ok max P U ->
  exists U', fold_res (remove_non_existing_change objs c prev) es U = Ok U' /\ frame n U U' /\ u_seen U' = u_seen U /\
    q_ok max (fun tn l cd => P tn l cd /\ forall e o, In e es -> lifts tn o e l -> forall y, In y cd -> true_before (xsig tn) (at_object cp o) y) U'.
Proof.
  induction es as [|e es IH]; intros P U Hi Hd Hpo HP.
  - exists U. split; [reflexivity|]. split; [apply frame_refl|]. split; [reflexivity|]. eapply q_ok_ext; [|exact HP]. intros. cbv beta. split; [intros H2; split; [exact H2|intros e o []]|tauto].
  - destruct (remove_change max P U e (Hi e (or_introl eq_refl)) Hd Hpo HP) as (U1 & E1 & F1 & S1 & Q1).
    assert (Hpo1 : params_ok U1) by (intros tn Htn; rewrite (fr_param _ _ _ F1); auto).
    destruct (IH _ U1 (fun y Hy => Hi y (or_intror Hy)) (eq_trans (frame_dom _ _ _ F1) Hd) Hpo1 Q1) as (U' & E' & F' & S' & Q').
    exists U'. split; [cbn [fold_res]; rewrite E1; exact E'|]. split; [eapply frame_trans; eassumption|]. split; [congruence|].
    eapply q_ok_ext; [|exact Q']. intros tn l cd _ _ _. cbv beta. split.
    + intros [[H1 H2] H3]. split; [exact H1|]. intros e' o [<-|Hin] Hl; [exact (H2 o Hl)|exact (H3 e' o Hin Hl)].
    + intros [H1 H2]. split; [split; [exact H1|]|].
      * intros o Hl. apply (H2 e o); [left; reflexivity|exact Hl].
      * intros e' o Hin Hl. apply (H2 e' o); [right; exact Hin|exact Hl].
Qed.

Lemma lifts_changes tn o l : In tn names -> quantified_literal dom (xsig tn) (xs tn) l -> In o (other_objects tn e0) ->
  became_true (xsig tn) (at_object cp o) l -> exists e, In e changes /\ lifts tn o e l.
Proof.
  intros Htn [H1 H2] Ho Hb. destruct (change_of tn o l Htn Ho H1 H2 Hb) as (e & He & E). exists e. split; [exact He|].
  split; [split; assumption|]. auto.
Qed.
End Step.
