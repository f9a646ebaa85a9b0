(** * Quantified learning: what the learner knows after any history *)
From Verif Require Import VocabProofs SamModel SamSpec SamProofs SamFinal LogicProofs DepProofs CondModel CondSpec CondProofs TextProofs UcModel UcSpec UcLift UcStep PreludeProofs.

(** ** Doing the precondition update twice *)
Lemma dict_set_again {V} (d : list (string * V)) k v w : dict_set (dict_set d k v) k w = dict_set d k w.
Proof.
  induction d as [|[k' v'] d IH]; cbn [dict_set fst snd].
  - destruct (eq_dec k k); [reflexivity|contradiction].
  - destruct (eq_dec k k') as [->|Hne]; cbn [dict_set fst snd].
    + destruct (eq_dec k' k'); [reflexivity|contradiction].
    + destruct (eq_dec k k'); [contradiction|]. rewrite IH. reflexivity.
Qed.
Lemma put_again L n a b : put_action (put_action L n a) n b = put_action L n b.
Proof. unfold put_action, with_dom, set_actions. cbn. rewrite dict_set_again. reflexivity. Qed.
Lemma set_union_incl {A} `{EqDec A} (s l : list A) : incl l s -> set_union s l = s.
Proof.
  unfold set_union. revert s. induction l as [|x l IH]; intros s Hi; [reflexivity|]. cbn [fold_left].
  unfold set_add at 2. rewrite (proj2 (memb_In x s)) by (apply Hi; left; reflexivity). apply IH. intros y Hy. apply Hi; right; exact Hy.
Qed.

Section Twice.
Variables (L : learner) (a : action) (c : call) (st : state) (prev : list literal).
Hypothesis Hg : good_call (s_dom L) a c.
Hypothesis Hv : views (s_dom L) a c st prev.
Let n := c_name c.

Lemma twice_matches p : exists ms ms', possible_literal_matches (s_dom L) c prev None = Ok ms /\
  possible_literal_matches (s_dom (put_action L n (with_pre a p))) c prev None = Ok ms' /\ forall m, In m ms <-> In m ms'.
Proof.
  destruct (lifted_views (s_dom L) a c Hg st prev Hv) as (ms & E & H).
  assert (R := put_action_replaced L n a (with_pre a p) (gc_get _ _ _ Hg)).
  assert (Hg' : good_call (s_dom (put_action L n (with_pre a p))) (with_pre a p) c).
  { exact (good_call_replaced L _ a (with_pre a p) c R eq_refl Hg). }
  destruct (lifted_views _ _ c Hg' st prev) as (ms' & E' & H').
  { apply (views_sig (s_dom L) _ a (with_pre a p)); try reflexivity. exact Hv. }
  exists ms, ms'. split; [exact E|]. split; [exact E'|]. intros m. rewrite H, H'. reflexivity.
Qed.
Lemma update_twice L1 : update_action_preconditions L c prev = Ok L1 -> update_action_preconditions L1 c prev = Ok L1.
Proof.
  unfold update_action_preconditions at 1. rewrite (dict_lookup_Some _ _ _ (gc_get _ _ _ Hg)). cbn [bind].
  destruct (possible_literal_matches (s_dom L) c prev None) as [ms|] eqn:E; cbn [bind]; [|discriminate]. cbv zeta. intros H; injection H as <-. fold n.
  set (p := filter _ (a_pre a)). destruct (twice_matches p) as (ms1 & ms' & E1 & E' & H). assert (ms1 = ms) by congruence. subst ms1.
  unfold update_action_preconditions. fold n.
  rewrite (dict_lookup_Some _ n (with_pre a p) (replaced_get _ _ _ _ (put_action_replaced L n a (with_pre a p) (gc_get _ _ _ Hg)))). cbn [bind].
  rewrite E'. cbn [bind]. cbv zeta. rewrite put_again. f_equal. f_equal. unfold with_pre. cbn [a_pre a_name a_sig a_ineq a_eff]. f_equal.
  assert (Hm : forall q, memb q (to_set ms') = memb q (to_set ms)).
  { intros q. destruct (memb q (to_set ms)) eqn:Eq.
    - apply memb_In. apply memb_In in Eq. rewrite to_set_In in *. apply H; exact Eq.
    - apply memb_nIn. apply memb_nIn in Eq. rewrite to_set_In in *. rewrite <- H. exact Eq. }
  clear E'. unfold p. induction (a_pre a) as [|q l IH]; [reflexivity|]. cbn [filter]. destruct (memb q (to_set ms)) eqn:Eq; cbn [filter]; rewrite ?Hm, ?Eq, IH; reflexivity.
Qed.
Lemma add_twice L1 : add_new_action_preconditions L c prev = Ok L1 -> add_new_action_preconditions L1 c prev = Ok L1.
Proof.
  unfold add_new_action_preconditions at 1. rewrite (dict_lookup_Some _ _ _ (gc_get _ _ _ Hg)). cbn [bind].
  destruct (possible_literal_matches (s_dom L) c prev None) as [ms|] eqn:E; cbn [bind]; [|discriminate]. intros H; injection H as <-. fold n.
  set (p := set_union (a_pre a) (to_set ms)). destruct (twice_matches p) as (ms1 & ms' & E1 & E' & H). assert (ms1 = ms) by congruence. subst ms1.
  unfold add_new_action_preconditions. fold n.
  rewrite (dict_lookup_Some _ n (with_pre a p) (replaced_get _ _ _ _ (put_action_replaced L n a (with_pre a p) (gc_get _ _ _ Hg)))). cbn [bind].
  rewrite E'. cbn [bind]. rewrite put_again. f_equal. f_equal. unfold with_pre. cbn [a_pre a_name a_sig a_ineq a_eff]. f_equal.
  apply set_union_incl. intros q Hq. unfold p. apply set_union_In. right. rewrite to_set_In in *. apply H; exact Hq.
Qed.
End Twice.

(** ** The additional parameters *)
Definition xname (sig : signature) (tn : string) : string :=
  match create_additional_parameter_name (dict_keys sig) tn with Ok x => x | Err _ => tn end.
Definition xtype (types : list (string * ptype)) (tn : string) : ptype :=
  match dict_get types tn with Some t => t | None => mkType tn [] end.
Definition xsignature (types : list (string * ptype)) (sig : signature) (tn : string) : signature :=
  sig ++ [(xname sig tn, xtype types tn)].
Lemma xname_spec sig tn : tn <> ""%string -> create_additional_parameter_name (dict_keys sig) tn = Ok (xname sig tn) /\ ~ In (xname sig tn) (dict_keys sig) /\ xname sig tn <> ""%string.
Proof.
  intros Hne. destruct tn as [|letter rest]; [congruence|]. destruct (fresh_name_spec (dict_keys sig) letter rest) as (x & suf & E & Ex & Hn).
  unfold xname. rewrite E. split; [reflexivity|]. split; [exact Hn|]. rewrite Ex. discriminate.
Qed.

Section Init.
Variables (dom0 : domain) (types : list (string * ptype)) (umap : list (string * list string)) (sig : signature) (c : call) (names : list string) (max : nat).
Let n := c_name c.
Hypothesis Hmap : dict_get umap n = Some names.
Hypothesis Hnames : forall tn, In tn names -> tn <> "object"%string /\ tn <> ""%string.
Definition qinit (tn : string) : depset literal :=
  initialize_dependencies (mkDep [] max) (lifted_vocabulary dom0 (xsignature types sig tn) (Some (xname sig tn)))
    (Some (lifted_vocabulary dom0 (xsignature types sig tn) None)).

Lemma init_fold : forall ts U, (forall tn t, In (tn, t) ts -> t_name t = tn /\ xtype types tn = t) -> NoDup (dict_keys ts) ->
  u_map U = umap -> u_dom U = set_actions dom0 (d_actions (u_dom U)) -> c_max (u_c U) = max ->
  exists U', fold_res (initialize_universal_type sig c) ts U = Ok U' /\
    u_c U' = u_c U /\ u_types U' = u_types U /\ u_map U' = u_map U /\ u_seen U' = u_seen U /\
    (forall m, m <> n -> sub_dict (u_q U') m = sub_dict (u_q U) m /\ sub_dict (u_param U') m = sub_dict (u_param U) m) /\
    (forall tn, dict_get (sub_dict (u_param U') n) tn =
       if memb tn names && memb tn (dict_keys ts) then Some (xname sig tn) else dict_get (sub_dict (u_param U) n) tn) /\
    (forall tn, dict_get (sub_dict (u_q U') n) tn =
       if memb tn names && memb tn (dict_keys ts) then Some (qinit tn) else dict_get (sub_dict (u_q U) n) tn) /\
    (dict_keys (sub_dict (u_q U) n) = dict_keys (sub_dict (u_param U) n) -> dict_keys (sub_dict (u_q U') n) = dict_keys (sub_dict (u_param U') n)) /\
    (NoDup (dict_keys (sub_dict (u_param U) n)) -> NoDup (dict_keys (sub_dict (u_param U') n))).
Proof.
  induction ts as [|[tn t] ts IH]; intros U Ht Hnd Hm Hd Hmx.
  - exists U. split; [reflexivity|]. repeat (split; [reflexivity|]). split; [intros m _; split; reflexivity|].
    split; [intros tn; rewrite andb_false_r; reflexivity|]. split; [intros tn; rewrite andb_false_r; reflexivity|]. split; auto.
  - cbn [dict_keys map fst] in Hnd. apply NoDup_cons_iff in Hnd. destruct Hnd as [Hk Hnd']. destruct (Ht tn t (or_introl eq_refl)) as [Etn Ext].
    assert (Ht' : forall tn' t', In (tn', t') ts -> t_name t' = tn' /\ xtype types tn' = t') by (intros; apply Ht; right; assumption).
    assert (Hmn : dict_get (u_map U) n = Some names) by (rewrite Hm; exact Hmap).
    destruct (memb tn names) eqn:Em.
    + apply memb_In in Em. destruct (Hnames tn Em) as [Ho Hne]. destruct (xname_spec sig tn Hne) as (Ex & Hx & _).
      set (U1 := mkU (u_c U) (u_types U) (u_map U) (sub_set (u_q U) n tn (qinit tn)) (sub_set (u_param U) n tn (xname sig tn)) (u_seen U)).
      assert (E1 : initialize_universal_type sig c U (tn, t) = Ok U1).
      { unfold initialize_universal_type. cbn [fst snd]. apply String.eqb_neq in Ho. rewrite Ho. fold n. rewrite (dict_lookup_Some _ _ _ Hmn). cbn [bind].
        rewrite (proj2 (memb_In tn names) Em). cbn [negb]. rewrite Etn, Ex. cbn [bind]. cbv zeta. unfold U1. f_equal. f_equal. f_equal.
        unfold quantified_dependencies, qinit. cbv zeta. rewrite Hd, Hmx. rewrite dict_set_keys_new by exact Hx. unfold xsignature. rewrite Ext. reflexivity. }
      destruct (IH U1 Ht' Hnd' Hm Hd Hmx) as (U' & E' & A1 & A2 & A3 & A4 & A5 & A6 & A7 & A8 & A9).
      exists U'. split; [cbn [fold_res]; rewrite E1; exact E'|]. split; [exact A1|]. split; [exact A2|]. split; [exact A3|]. split; [exact A4|].
      split; [|split; [|split; [|split]]].
      * intros m Hm'. destruct (A5 m Hm') as [B1 B2]. rewrite B1, B2. cbn [U1 u_q u_param]. split; apply sub_set_other; exact Hm'.
      * intros tn'. rewrite A6. cbn [U1 u_param]. rewrite sub_set_same, dict_get_set. cbn [dict_keys map fst]. unfold memb at 4; cbn [existsb]. fold (memb tn' (map fst ts)). fold (dict_keys ts).
        destruct (eq_dec tn' tn) as [->|Hne'].
        -- rewrite PreludeProofs.eqb_refl, (proj2 (memb_In tn names) Em). cbn [orb andb]. destruct (memb tn (dict_keys ts)); reflexivity.
        -- rewrite (proj2 (PreludeProofs.eqb_neq _ _)) by assumption. reflexivity.
      * intros tn'. rewrite A7. cbn [U1 u_q]. rewrite sub_set_same, dict_get_set. cbn [dict_keys map fst]. unfold memb at 4; cbn [existsb]. fold (memb tn' (map fst ts)). fold (dict_keys ts).
        destruct (eq_dec tn' tn) as [->|Hne'].
        -- rewrite PreludeProofs.eqb_refl, (proj2 (memb_In tn names) Em). cbn [orb andb]. destruct (memb tn (dict_keys ts)); reflexivity.
        -- rewrite (proj2 (PreludeProofs.eqb_neq _ _)) by assumption. reflexivity.
      * intros Hk0. apply A8. cbn [U1 u_q u_param]. rewrite !sub_set_same.
        destruct (in_dec string_dec tn (dict_keys (sub_dict (u_param U) n))) as [Hin|Hnin].
        -- rewrite !dict_set_keys_existing; auto. rewrite Hk0; exact Hin.
        -- rewrite !dict_set_keys_new; auto; [|rewrite Hk0; exact Hnin]. unfold dict_keys in *. rewrite !map_app, Hk0. reflexivity.
      * intros H0. apply A9. cbn [U1 u_param]. rewrite sub_set_same. apply dict_set_keys_NoDup; exact H0.
    + assert (E1 : initialize_universal_type sig c U (tn, t) = Ok U).
      { unfold initialize_universal_type. cbn [fst snd]. destruct (String.eqb tn "object"); [reflexivity|]. fold n. rewrite (dict_lookup_Some _ _ _ Hmn). cbn [bind].
        rewrite Em. reflexivity. }
      destruct (IH U Ht' Hnd' Hm Hd Hmx) as (U' & E' & A1 & A2 & A3 & A4 & A5 & A6 & A7 & A8 & A9).
      exists U'. split; [cbn [fold_res]; rewrite E1; exact E'|]. do 5 (split; [assumption|]).
      assert (Hb : forall tn', memb tn' names && memb tn' (dict_keys ((tn, t) :: ts)) = memb tn' names && memb tn' (dict_keys ts)).
      { intros tn'. cbn [dict_keys map fst]. unfold memb at 2; cbn [existsb]. fold (memb tn' (map fst ts)). fold (dict_keys ts).
        destruct (eq_dec tn' tn) as [->|Hne']; [rewrite Em; reflexivity|]. rewrite (proj2 (PreludeProofs.eqb_neq _ _)) by assumption. reflexivity. }
      split; [intros tn'; rewrite Hb; apply A6|]. split; [intros tn'; rewrite Hb; apply A7|]. split; assumption.
Qed.
End Init.

(** ** The inductive rules *)
Lemma observed_sam C c p q C1 : update_observed_effects C c p q = Ok C1 -> c_sam C1 = c_sam C.
Proof.
  unfold update_observed_effects. destruct (lifted_conditional_effects _ _ _ _); cbn [bind]; [|discriminate].
  destruct (dict_lookup _ _); cbn [bind]; [|discriminate]. intros H; injection H as <-. reflexivity.
Qed.
Lemma existing_sam C c p q C1 : remove_existing C c p q = Ok C1 -> c_sam C1 = c_sam C.
Proof.
  unfold remove_existing. destruct (find_literals _ _ q _); cbn [bind]; [|discriminate]. destruct (find_literals _ _ p _); cbn [bind]; [|discriminate].
  destruct (dict_lookup _ _); cbn [bind]; [|discriminate]. intros H; injection H as <-. reflexivity.
Qed.
Lemma non_existing_sam C c p q C1 : remove_non_existing C c p q = Ok C1 -> c_sam C1 = c_sam C.
Proof.
  unfold remove_non_existing. destruct (lifted_conditional_effects _ _ _ _); cbn [bind]; [|discriminate]. destruct (find_literals _ _ p _); cbn [bind]; [|discriminate].
  destruct (dict_lookup _ _); cbn [bind]; [|discriminate]. intros H; injection H as <-. reflexivity.
Qed.
Lemma frame_with n U U1 C : frame n U U1 -> frame n (with_c U C) (with_c U1 C).
Proof. intros [A1 A2 A3 A4 A5 A6 A7]. constructor; auto. Qed.
Lemma with_c_id U : with_c U (u_c U) = U. Proof. destruct U; reflexivity. Qed.
Lemma with_c_c U C C' : with_c (with_c U C) C' = with_c U C'. Proof. reflexivity. Qed.

Section Rules.
Variables (U : ulearner) (a : action) (cp : component) (objs : list pobject) (names : list string) (types : list (string * ptype)) (max : nat).
Let dom := u_dom U.
Let c := cp_call cp.
Let n := c_name c.
Let xs := xname (a_sig a).
Let ts := xtype types.
Let r := in_view names (objs, cp).
Let prev := discrete_state_snapshot dom (cp_prev cp) r.
Let next := discrete_state_snapshot dom (cp_next cp) r.
Hypothesis Hcon : d_consts dom = [].
Hypothesis Hget : dict_get (d_actions dom) n = Some a.
Hypothesis Hsig : NoDup (dict_keys (a_sig a)).
Hypothesis Hlen : length (c_params c) = length (a_sig a).
Hypothesis Hp : NoDup (c_params c).
Hypothesis Hobjs : NoDup (dict_keys objs).
Hypothesis Hpar : incl (combine (c_params c) (map snd (a_sig a))) objs.
Hypothesis Hty : forall o t, In (o, t) objs -> In (t_name t) names -> t = ts (t_name t).
Hypothesis Hxs : forall tn, In tn names -> ~ In (xs tn) (dict_keys (a_sig a)).
Hypothesis Hone : forall l, well_typed dom r l -> lit_true (cp_next cp) l -> ~ lit_true (cp_prev cp) l ->
  forall o o', In o (l_args l) -> In o' (l_args l) -> ~ In o (c_params c) -> ~ In o' (c_params c) -> o = o'.
Hypothesis Hmap : dict_get (u_map U) n = Some names.
Hypothesis Hpin : forall tn x, In (tn, x) (sub_dict (u_param U) n) -> In tn names /\ x = xs tn.
Hypothesis Hpok : forall tn, In tn names -> dict_get (sub_dict (u_param U) n) tn = Some (xs tn).
Hypothesis Hseen : forall tn, In tn names -> exists s, dict_get (sub_dict (u_seen U) n) tn = Some s.

Lemma u_rules P C2 : q_ok dom a cp names xs ts max P U -> apply_inductive_rules (u_c U) c prev next = Ok C2 ->
  exists U', u_apply_rules U objs c prev next = Ok U' /\ frame n (with_c U C2) U' /\
    q_ok dom a cp names xs ts max (fun tn l cd => P tn l cd /\
        forall o, In o (other_objects tn (objs, cp)) -> explains1 (xsignature types (a_sig a) tn) (at_object cp o) l cd) U' /\
    forall tn s, In tn names -> dict_get (sub_dict (u_seen U) n) tn = Some s ->
      exists s', dict_get (sub_dict (u_seen U') n) tn = Some s' /\
        forall l, In l s' <-> In l s \/ (quantified_literal dom (xsignature types (a_sig a) tn) (xs tn) l /\
                      exists o, In o (other_objects tn (objs, cp)) /\ became_true (xsignature types (a_sig a) tn) (at_object cp o) l).
Proof.
  intros HP E. unfold apply_inductive_rules in E.
  destruct (update_observed_effects (u_c U) c prev next) as [C1|] eqn:E1; cbn [bind] in E; [|discriminate].
  destruct (remove_existing C1 c prev next) as [C1'|] eqn:E1'; cbn [bind] in E; [|discriminate].
  assert (S1 := observed_sam _ _ _ _ _ E1). assert (S1' := existing_sam _ _ _ _ _ E1'). assert (S2 := non_existing_sam _ _ _ _ _ E).
  unfold u_apply_rules. fold n. rewrite (dict_lookup_Some _ _ _ Hmap). cbn [bind]. unfold u_update_observed. rewrite E1. cbn [bind].
  assert (D1 : u_dom (with_c U C1) = dom) by (unfold u_dom, with_c; cbn [u_c]; rewrite S1; reflexivity).
  destruct (observe_fold dom a cp objs names xs ts Hcon Hget Hsig Hlen Hp Hobjs Hpar Hty Hxs Hone (universal_changes dom c prev next) (with_c U C1))
    as (U1 & EU1 & F1 & Q1 & SE1); auto.
  { intros y Hy; exact Hy. }
  change (fold_res (observe_universal_change objs c) (universal_changes (u_dom U) c prev next) (with_c U C1) = Ok U1) in EU1.
  rewrite EU1. cbn [bind]. unfold u_remove_not_antecedents. rewrite (fr_c _ _ _ F1). cbn [with_c u_c]. rewrite E1'. cbn [bind]. rewrite E. cbn [bind].
  change (mkU C2 (u_types U1) (u_map U1) (u_q U1) (u_param U1) (u_seen U1)) with (with_c U1 C2).
  assert (F2 : frame n (with_c U C2) (with_c U1 C2)).
  { apply (frame_with n _ _ C2) in F1. exact F1. }
  assert (D2 : u_dom (with_c U1 C2) = dom) by (unfold u_dom, with_c; cbn [u_c]; rewrite S2, S1', S1; reflexivity).
  assert (HP2 : q_ok dom a cp names xs ts max P (with_c U1 C2)).
  { intros tn Htn. destruct (HP tn Htn) as (D & ED & HD). exists D. split; [|exact HD]. cbn [with_c u_q]. rewrite Q1. exact ED. }
  destruct (remove_types dom a cp objs names xs ts Hcon Hget Hsig Hlen Hp Hobjs Hpar Hty Hxs max (sub_dict (u_param (with_c U1 C2)) n) P (with_c U1 C2))
    as (U2 & EU2 & F3 & SE2 & HQ2); auto.
  { intros tn x. cbn [with_c u_param]. rewrite (fr_param _ _ _ F1). apply Hpin. }
  change (remove_existing_quantified (with_c U1 C2) objs c prev next = Ok U2) in EU2. rewrite EU2. cbn [bind].
  unfold remove_non_existing_quantified.
  assert (D3 : u_dom U2 = dom) by (rewrite (frame_dom _ _ _ F3); exact D2). rewrite D3.
  assert (P3 : params_ok cp names xs U2).
  { intros tn Htn. rewrite (fr_param _ _ _ F3). cbn [with_c u_param]. rewrite (fr_param _ _ _ F1). apply Hpok; exact Htn. }
  destruct (remove_changes dom a cp objs names xs ts Hcon Hget Hsig Hlen Hp Hobjs Hpar Hty Hxs Hone max (universal_changes dom c prev next) _ U2
              (fun y Hy => Hy) D3 P3 HQ2) as (U3 & EU3 & F4 & SE3 & HQ3).
  exists U3. split; [exact EU3|]. split; [eapply frame_trans; [|exact F4]; eapply frame_trans; [exact F2|exact F3]|]. split.
  - eapply q_ok_ext; [|exact HQ3]. intros tn l cd Htn Hl Hcd. cbv beta.
    assert (Hk : In tn (dict_keys (sub_dict (u_param (with_c U1 C2)) n))).
    { eapply dict_get_key. cbn [with_c u_param]. rewrite (fr_param _ _ _ F1). apply Hpok; exact Htn. }
    split.
    + intros [[H1 H2] H3]. split; [exact H1|]. intros o Ho. split; [exact (H2 Hk o Ho)|]. intros Hb.
      assert (HX : exists e, In e (universal_changes dom c prev next) /\ lifts dom a cp objs xs ts tn o e l) by (eapply lifts_changes; eassumption).
      destruct HX as (e & He & HL).
      exact (H3 e o He HL).
    + intros [H1 H2]. split; [split; [exact H1|]|].
      * intros _ o Ho. exact (proj1 (H2 o Ho)).
      * intros e o He HL. destruct HL as (_ & Ho & Hb & _). exact (proj2 (H2 o Ho) Hb).
  - intros tn s Htn Es. destruct (SE1 tn s Htn Es) as (s' & Es' & Hs'). exists s'. split.
    { rewrite SE3, SE2. cbn [with_c u_seen]. exact Es'. }
    intros l. rewrite Hs'. split; (intros [H|H]; [left; exact H|right]).
    + destruct H as (e & o & He & HL). destruct HL as (Hl & Ho & Hb & _). split; [exact Hl|]. exists o; auto.
    + destruct H as (Hl & o & Ho & Hb).
      assert (HX : exists e, In e (universal_changes dom c prev next) /\ lifts dom a cp objs xs ts tn o e l) by (eapply lifts_changes; eassumption).
      destruct HX as (e & He & HL). exists e, o. auto.
Qed.
End Rules.
