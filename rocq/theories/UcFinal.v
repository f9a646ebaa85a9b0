(** * Quantified learning: the learned actions *)
From Verif Require Import VocabProofs SamModel SamSpec SamProofs SamFinal LogicProofs DepProofs CondModel CondSpec CondProofs CondFinal TextProofs UcModel UcSpec UcLift UcStep UcProofs UcInv UcForm PreludeProofs.

Definition antecedents_of (cands : list (list literal)) : list literal :=
  match cands with [] => [] | [c] => c | _ => all_antecedents cands end.

Section QPruned.
Variables (dom : domain) (sig : signature) (max : nat) (x : string) (cps : list component) (n : string) (G : list literal).
Hypothesis Hnames : NoDup (map fst (sig ++ d_consts dom)).
Hypothesis HG : forall l, In l G -> ~ In x (l_args l).
Notation cand := (candidate_given dom sig max cps n G).

Record qpruned (D : depset literal) : Prop :=
  { qp_nodup : NoDup (dict_keys (possible D));
    qp_keys : forall l, In l (dict_keys (possible D)) <-> quantified_literal dom sig x l;
    qp_distinct : forall l cands, dict_get (possible D) l = Some cands -> distinct_sets cands;
    qp_sound : forall l cands c, dict_get (possible D) l = Some cands -> In c cands -> cand l c;
    qp_complete : forall l cands c, dict_get (possible D) l = Some cands -> cand l c -> exists d, In d cands /\ same_sets c d }.

Lemma qprune D pre : qdep dom sig max x (explains sig cps n) D -> (forall l, In l pre <-> In l G) ->
  qpruned (remove_preconditions_literals D pre).
Proof.
  intros HD Hpre. unfold remove_preconditions_literals. cbv zeta.
  set (D1 := with_possible D (fold_left (fun p l => dict_pop p l) pre (possible D))).
  assert (N1 : NoDup (dict_keys (possible D1))) by (apply pop_fold_nodup, (qd_nodup _ _ _ _ _ _ HD)).
  assert (G1 : forall l, dict_get (possible D1) l = if memb l pre then None else dict_get (possible D) l) by (intros l; apply pop_fold_get).
  destruct (fold_remove pre true (dict_keys (possible D1)) D1 N1) as (F1 & F2 & F3).
  set (D2 := fold_left (fun D l => remove_dependencies D l pre true) (dict_keys (possible D1)) D1) in *.
  assert (Hmax : max_antecedents D1 = max) by (apply (qd_max _ _ _ _ _ _ HD)).
  assert (G2 : forall l cands, dict_get (possible D2) l = Some cands -> exists cs, dict_get (possible D) l = Some cs /\
     cands = filter (fun c => negb (meets pre c)) cs).
  { intros l cands E. assert (Hk : In l (dict_keys (possible D1))) by (rewrite <- F2; eapply dict_get_key; eassumption).
    rewrite F3, (proj2 (memb_In _ _) Hk), G1 in E. destruct (memb l pre) eqn:Em; [discriminate|].
    destruct (dict_get (possible D) l) as [cs|] eqn:Ec; [|discriminate]. cbn [option_map] in E. injection E as <-.
    exists cs. split; [reflexivity|].
    rewrite <- (remove_from_supersets max) by apply (qd_good _ _ _ _ _ _ HD l cs Ec). rewrite <- Hmax. reflexivity. }
  assert (Hmeet : forall c, meets pre c = false <-> forall y, In y c -> ~ In y G).
  { intros c. split.
    - intros E y Hy Hb. assert (meets pre c = true); [|congruence]. apply meets_iff. exists y; split; [assumption|apply Hpre; assumption].
    - intros Hd. apply not_true_is_false. intros E. apply meets_iff in E. destruct E as (y & Hy & Hp). apply (Hd y Hy), Hpre; assumption. }
  constructor.
  - rewrite F2. exact N1.
  - intros l. rewrite F2, <- (qd_keys _ _ _ _ _ _ HD), !dict_get_Some_iff. setoid_rewrite G1.
    destruct (memb l pre) eqn:Em; [apply memb_In in Em|tauto].
    split; [intros (v & E); discriminate|]. intros Hv. exfalso. apply (HG l (proj1 (Hpre l) Em)).
    apply (qd_keys _ _ _ _ _ _ HD). apply dict_get_Some_iff; assumption.
  - intros l cands E. destruct (G2 l cands E) as (cs & Ec & ->). apply distinct_filter, (qd_good _ _ _ _ _ _ HD l cs Ec).
  - intros l cands c E Hc. destruct (G2 l cands E) as (cs & Ec & ->). apply filter_In in Hc. destruct Hc as [Hc Hm].
    apply (qd_cands _ _ _ _ _ _ HD l cs Ec) in Hc. destruct Hc as [Ha Hx]. apply negb_true_iff in Hm.
    split; [apply comb_antecedents; assumption|]. split; [assumption|]. apply Hmeet; assumption.
  - intros l cands c E (Ha & Hx & Hd). destruct (G2 l cands E) as (cs & Ec & ->).
    pose proof (antecedents_comb dom sig max c Hnames Ha) as Hone.
    destruct (filter (set_eqb c) (all_combinations dom sig max)) as [|d rest] eqn:Ef; [discriminate|].
    assert (Hin : In d (all_combinations dom sig max) /\ set_eqb c d = true) by (apply filter_In; rewrite Ef; left; reflexivity).
    destruct Hin as [Hin Es]. assert (Hs : same_sets c d) by exact (proj1 (set_eqb_iff _ _) Es).
    exists d. split; [|assumption]. apply filter_In. split.
    + apply (qd_cands _ _ _ _ _ _ HD l cs Ec). split; [assumption|]. eapply explains_same; eassumption.
    + apply negb_true_iff, Hmeet. intros y Hy. apply Hd, Hs; assumption.
Qed.

Lemma given_cases D l cands : qpruned D -> dict_get (possible D) l = Some cands ->
  (cands = [] /\ none_given dom sig max cps n G l) \/
  (exists c, cands = [c] /\ only_given dom sig max cps n G l c) \/
  (2 <= length cands /\ several_given dom sig max cps n G l).
Proof.
  intros PD E. destruct cands as [|c [|d rest]].
  - left. split; [reflexivity|]. intros c Hc. destruct (qp_complete _ PD l [] c E Hc) as (d & [] & _).
  - right; left. exists c. split; [reflexivity|]. split; [eapply qp_sound; [exact PD|exact E|left; reflexivity]|].
    intros d Hd. destruct (qp_complete _ PD l [c] d E Hd) as (e & [<-|[]] & Hs). assumption.
  - right; right. split; [simpl; lia|]. exists c, d. split; [eapply qp_sound; [exact PD|exact E|left; reflexivity]|].
    split; [eapply qp_sound; [exact PD|exact E|right; left; reflexivity]|].
    intros Hs. pose proof (qp_distinct _ PD l _ E) as Hd. inversion Hd as [|? ? HF _]; subst. inversion HF as [|? ? Hf _]; subst.
    rewrite (proj2 (set_eqb_iff _ _)) in Hf by exact Hs. discriminate.
Qed.
Lemma only_not_several l c : only_given dom sig max cps n G l c -> ~ several_given dom sig max cps n G l.
Proof. intros [_ Ho] (d & e & Hd & He & Hne). apply Hne. intros y. rewrite (Ho d Hd y). symmetry. apply (Ho e He y). Qed.
Lemma none_only l c : none_given dom sig max cps n G l -> ~ only_given dom sig max cps n G l c.
Proof. intros Hn [Hc _]. exact (Hn c Hc). Qed.
Lemma none_several l : none_given dom sig max cps n G l -> ~ several_given dom sig max cps n G l.
Proof. intros Hn (c & _ & Hc & _). exact (Hn c Hc). Qed.

(** ** The loop over the literals of one quantified type *)
Variables (lb : lib) (k : cact) (tn : string) (seen : list literal).
Hypothesis Hroot : lib_nested lb = false -> G = same_level (k_root k).

Definition type_conditions (D : depset literal) (done : list literal) (fs : list (form literal)) : Prop :=
  lib_nested lb = false -> forall s sg, conj_holds (lit_at s sg) G ->
    ((forall f, In f fs -> f_holds (lit_at s sg) f) <->
     (forall l cands, In l done -> dict_get (possible D) l = Some cands -> 2 <= length cands -> restriction (lit_at s sg) l cands (memb l seen))).
Definition type_effects (D : depset literal) (done : list literal) (effs : list (list literal * list literal)) : Prop :=
  forall e, In e effs <-> exists l cands, In l done /\ In l seen /\ dict_get (possible D) l = Some cands /\ e = (antecedents_of cands, [l]).
Definition entries_of (qs : list (string * string * list (form literal))) : Prop := forall q, In q qs -> fst q = (x, tn).

Lemma universal_step D pre0 qs done effs l : qpruned D -> In l (dict_keys (possible D)) ->
  entries_of qs -> type_conditions D done (flat_map snd qs) -> type_effects D done effs ->
  exists qs' effs', verify_universal_single lb k D seen tn x (pre0 ++ qs, effs) l = Ok (pre0 ++ qs', effs') /\
    entries_of qs' /\ type_conditions D (done ++ [l]) (flat_map snd qs') /\ type_effects D (done ++ [l]) effs'.
Proof.
  intros PD Hk He Hc Hf. apply dict_get_Some_iff in Hk. destruct Hk as (cands & Ec).
  assert (Hdone : forall y, In y (done ++ [l]) <-> In y done \/ y = l).
  { intros y. rewrite in_app_iff. simpl. intuition congruence. }
  assert (Hf0 : ~ In l seen -> type_effects D (done ++ [l]) effs).
  { intros Hn e. rewrite (Hf e). setoid_rewrite Hdone. split.
    - intros (y & cs & A & B). exists y, cs. tauto.
    - intros (y & cs & [A| ->] & B & C); [exists y, cs; auto|contradiction]. }
  assert (Hf1 : In l seen -> type_effects D (done ++ [l]) (effs ++ [(antecedents_of cands, [l])])).
  { intros Hn e. rewrite in_app_iff, (Hf e). setoid_rewrite Hdone. simpl. split.
    - intros [(y & cs & A & B)|[<-|[]]]; [exists y, cs; tauto|exists l, cands; auto 6].
    - intros (y & cs & [A| ->] & B & C & E'); [left; exists y, cs; auto|]. rewrite Ec in C. injection C as <-. right; left; auto. }
  unfold verify_universal_single, is_safe_literal. rewrite (dict_lookup_Some' _ _ _ Ec). cbn [bind].
  destruct (length cands <=? 1) eqn:El; cbn [negb].
  - apply Nat.leb_le in El.
    assert (Hc0 : type_conditions D (done ++ [l]) (flat_map snd qs)).
    { intros Hl s sg Hg. rewrite (Hc Hl s sg Hg). split; intros A y cs Hy Ey Hlen.
      - apply Hdone in Hy. destruct Hy as [Hy| ->]; [eauto|]. rewrite Ec in Ey. injection Ey as <-. lia.
      - apply A; auto. apply Hdone; auto. }
    destruct (memb l seen) eqn:Eo.
    + apply memb_In in Eo. unfold conditional_effect_data, extract_safe_antecedents. rewrite (dict_lookup_Some' _ _ _ Ec). cbn [bind].
      exists qs, (effs ++ [(antecedents_of cands, [l])]). destruct cands as [|c [|d rest]]; [| |simpl in El; lia]; cbn [bind antecedents_of];
        (split; [reflexivity|]; split; [assumption|]; split; [assumption|]; exact (Hf1 Eo)).
    + apply memb_nIn in Eo. exists qs, effs. split; [reflexivity|]. split; [assumption|]. split; [assumption|]. exact (Hf0 Eo).
  - apply Nat.leb_gt in El. unfold u_restrictive_precondition.
    set (pl := u_precondition_literals lb k (pre0 ++ qs)).
    destruct (restrictive_spec any_lit literal_lawful (lib_flatten lb) D pl l (memb l seen) cands) as (r & Er & Hr).
    { exact Ec. }
    { intros c Hin. destruct (qp_sound _ PD l cands c Ec Hin) as ((_ & _ & Hlen) & _). split; [|intros y _; exact I].
      destruct c; [simpl in Hlen; lia|discriminate]. }
    { exact I. } { intros y _; exact I. }
    rewrite Er. cbn [bind].
    set (fs := match r with None => [] | Some f => add_condition (lib_flatten lb) op_and [] f end).
    assert (Hfs : forall s sg, (forall f, In f fs -> f_holds (lit_at s sg) f) <-> cond_holds (lit_at s sg) r).
    { intros s sg. unfold fs. destruct r as [f|]; [|simpl; tauto]. cbn [cond_holds]. rewrite <- f_and_iff, add_and.
      rewrite f_and_iff. simpl; tauto. }
    assert (He1 : entries_of (qs ++ [(x, tn, fs)])).
    { intros q Hq. apply in_app_iff in Hq. destruct Hq as [Hq|[<-|[]]]; [auto|reflexivity]. }
    assert (Hc1 : type_conditions D (done ++ [l]) (flat_map snd (qs ++ [(x, tn, fs)]))).
    { intros Hl s sg Hg.
      assert (Hiff : cond_holds (lit_at s sg) r <-> restriction (lit_at s sg) l cands (memb l seen)).
      { apply Hr; [apply literal_truth|]. unfold pl, u_precondition_literals. rewrite Hl. intros y Hy. apply (proj1 (to_set_In _ _)) in Hy.
        apply Hg. rewrite (Hroot Hl). assumption. }
      rewrite flat_map_app. cbn [flat_map snd]. rewrite app_nil_r. split.
      - intros A y cs Hy Ey Hlen. apply Hdone in Hy. destruct Hy as [Hy| ->].
        + apply (proj1 (Hc Hl s sg Hg)) with (cands := cs); auto. intros f Hin. apply A, in_app_iff; auto.
        + rewrite Ec in Ey. injection Ey as <-. apply Hiff, Hfs. intros f Hin. apply A, in_app_iff; auto.
      - intros A f Hin. apply in_app_iff in Hin. destruct Hin as [Hin|Hin].
        + revert f Hin. apply (proj2 (Hc Hl s sg Hg)). intros y cs Hy. apply A, Hdone; auto.
        + revert f Hin. apply Hfs, Hiff. apply A; auto. apply Hdone; auto. }
    destruct (memb l seen) eqn:Eo.
    + apply memb_In in Eo. unfold restrictive_effect. rewrite (dict_lookup_Some' _ _ _ Ec). cbn [bind]. cbv zeta.
      fold (all_antecedents cands). unfold conditional_effect_data, extract_safe_antecedents, dict_lookup. cbn [possible dict_get].
      destruct (eq_dec l l) as [_|]; [|congruence]. cbn [bind].
      exists (qs ++ [(x, tn, fs)]), (effs ++ [(antecedents_of cands, [l])]). split.
      { f_equal. f_equal; [symmetry; apply app_assoc|]. destruct cands as [|c [|d rest]]; [simpl in El; lia|simpl in El; lia|reflexivity]. }
      split; [assumption|]. split; [assumption|]. exact (Hf1 Eo).
    + apply memb_nIn in Eo. exists (qs ++ [(x, tn, fs)]), effs. split; [f_equal; f_equal; symmetry; apply app_assoc|].
      split; [assumption|]. split; [assumption|]. exact (Hf0 Eo).
Qed.

Lemma universal_loop D pre0 : qpruned D -> forall rest qs done effs, (forall l, In l rest -> In l (dict_keys (possible D))) ->
  entries_of qs -> type_conditions D done (flat_map snd qs) -> type_effects D done effs ->
  exists qs' effs', fold_res (verify_universal_single lb k D seen tn x) rest (pre0 ++ qs, effs) = Ok (pre0 ++ qs', effs') /\
    entries_of qs' /\ type_conditions D (done ++ rest) (flat_map snd qs') /\ type_effects D (done ++ rest) effs'.
Proof.
  intros PD. induction rest as [|l rest IH]; intros qs done effs Hr He Hc Hf.
  - exists qs, effs. rewrite app_nil_r. auto.
  - destruct (universal_step D pre0 qs done effs l PD (Hr l (or_introl eq_refl)) He Hc Hf) as (qs1 & effs1 & E1 & He1 & Hc1 & Hf1).
    destruct (IH qs1 (done ++ [l]) effs1) as (qs2 & effs2 & E2 & He2 & Hc2 & Hf2); auto.
    { intros y Hy; apply Hr; right; assumption. }
    exists qs2, effs2. cbn [fold_res]. rewrite E1. cbn [bind]. rewrite <- app_assoc in Hc2, Hf2. auto.
Qed.

Lemma universal_type D pre0 : qpruned D ->
  exists qs effs, fold_res (verify_universal_single lb k D seen tn x) (dict_keys (possible D)) (pre0, []) = Ok (pre0 ++ qs, effs) /\
    entries_of qs /\ type_conditions D (dict_keys (possible D)) (flat_map snd qs) /\ type_effects D (dict_keys (possible D)) effs.
Proof.
  intros PD. destruct (universal_loop D pre0 PD (dict_keys (possible D)) [] [] []) as (qs & effs & E & H); auto.
  - intros q [].
  - intros _ s sg _. split; [intros _ l cands []|intros _ f []].
  - intros e. split; [intros []|intros (l & cands & [] & _)].
  - rewrite app_nil_r in E. exists qs, effs. split; [exact E|exact H].
Qed.
End QPruned.

Lemma fires_rules effs s sg l : fires (rules_of effs) s sg l <-> eff_fires (lit_at s sg) effs l.
Proof.
  unfold fires, rules_of, eff_fires. split.
  - intros (r & Hr & <- & Hw). apply in_flat_map in Hr. destruct Hr as (e & He & Hr). apply in_map_iff in Hr. destruct Hr as (y & <- & Hy).
    exists e; auto.
  - intros (e & He & Hl & Hw). exists (mkRule (fst e) l). split; [|split; [reflexivity|exact Hw]]. apply in_flat_map. exists e. split; [assumption|].
    apply in_map; assumption.
Qed.

(** ** From the loop to the specification of one type *)
Lemma type_learned lb dom max h n sig tn x t u D seen effs :
  qpruned dom (sig ++ [(x, t)]) max x (instances tn h) n (granted lb (ua_k u)) D ->
  (forall l, In l seen <-> In x (l_args l) /\ observed_effect dom (sig ++ [(x, t)]) (instances tn h) n l) ->
  type_conditions (granted lb (ua_k u)) lb seen D (dict_keys (possible D)) (conditions_for u tn) ->
  type_effects seen D (dict_keys (possible D)) effs ->
  learned_universal lb dom max h n sig tn x t u (compress_conditional_effects effs).
Proof.
  intros PD HS Hc Hf. set (xs := sig ++ [(x, t)]) in *. set (cps := instances tn h) in *. set (G := granted lb (ua_k u)) in *.
  assert (Hkey : forall l, quantified_literal dom xs x l -> In l (dict_keys (possible D)) /\ exists cands, dict_get (possible D) l = Some cands).
  { intros l Hq. assert (Hin : In l (dict_keys (possible D))) by (apply (qp_keys _ _ _ _ _ _ _ _ PD); assumption).
    split; [assumption|]. apply dict_get_Some_iff; assumption. }
  assert (Hall : forall s sg l cands, dict_get (possible D) l = Some cands ->
            ((forall c, candidate_given dom xs max cps n G l c -> conj_holds (lit_at s sg) c) <-> conj_holds (lit_at s sg) (all_antecedents cands))).
  { intros s sg l cands E. split.
    - intros H y Hy. apply all_antecedents_In in Hy. destruct Hy as (c & Hin & Hy). apply (H c); [|assumption].
      eapply qp_sound; eassumption.
    - intros H c Hin y Hy. destruct (qp_complete _ _ _ _ _ _ _ _ PD l cands c E Hin) as (d & Hd & Hs). apply H, all_antecedents_In.
      exists d; split; [assumption|apply Hs; assumption]. }
  assert (Hdnf : forall s sg l cands, dict_get (possible D) l = Some cands ->
            ((forall c, candidate_given dom xs max cps n G l c -> ~ conj_holds (lit_at s sg) c) <-> ~ dnf_holds (lit_at s sg) cands)).
  { intros s sg l cands E. split.
    - intros H (c & Hin & Ht). apply (H c); [|assumption]. eapply qp_sound; eassumption.
    - intros H c Hin Ht. destruct (qp_complete _ _ _ _ _ _ _ _ PD l cands c E Hin) as (d & Hd & Hs). apply H. exists d; split; [assumption|].
      intros y Hy. apply Ht, Hs; assumption. }
  constructor; fold xs cps G.
  - intros l Hq. destruct (Hkey l Hq) as (Hk & cands & E).
    destruct (given_cases dom xs max x cps n G D l cands PD E) as [[_ H0]|[(c & _ & H0)|[_ H0]]]; eauto.
  - intros s sg l. rewrite fires_rules. unfold compress_conditional_effects. rewrite compress_fires by lia. split.
    + intros (e & He & Hin & Hh). apply Hf in He. destruct He as (l' & cands & Hk & Hs & E & ->). cbn [fst snd] in *.
      destruct Hin as [->|[]]. apply HS in Hs. destruct Hs as [Hx Ho]. split; [assumption|]. split; [assumption|].
      destruct (given_cases dom xs max x cps n G D l cands PD E) as [[_ H0]|[(c & Ec & H0)|[Hlen H0]]].
      * auto.
      * right; left. exists c. split; [assumption|]. subst cands. exact Hh.
      * right; right. split; [assumption|]. apply (Hall s sg l cands E).
        destruct cands as [|c [|d rest]]; [simpl in Hlen; lia|simpl in Hlen; lia|exact Hh].
    + intros (Hx & Ho & Hcase). destruct (Hkey l) as (Hk & cands & E); [split; [apply Ho|assumption]|].
      exists (antecedents_of cands, [l]). split; [apply Hf; exists l, cands; repeat split; auto; apply HS; auto|].
      split; [left; reflexivity|]. cbn [fst].
      destruct (given_cases dom xs max x cps n G D l cands PD E) as [[-> H0]|[(c & -> & H0)|[Hlen H0]]].
      * intros y [].
      * destruct Hcase as [Hc0|[(c' & Hc0 & Hh)|[Hc0 _]]].
        -- exfalso; eapply none_only; eassumption.
        -- intros y Hy. apply Hh. apply (proj2 Hc0 c (proj1 H0)); assumption.
        -- exfalso; eapply only_not_several; eassumption.
      * destruct Hcase as [Hc0|[(c' & Hc0 & Hh)|[_ Hh]]].
        -- exfalso; eapply none_several; eassumption.
        -- exfalso; eapply only_not_several; eassumption.
        -- apply (Hall s sg l cands E) in Hh. destruct cands as [|c [|d rest]]; [simpl in Hlen; lia|simpl in Hlen; lia|exact Hh].
  - intros Hl s sg Hg. rewrite (Hc Hl s sg Hg). split.
    + intros A l Hq Hs. destruct (Hkey l Hq) as (Hk & cands & E).
      destruct (given_cases dom xs max x cps n G D l cands PD E) as [[_ H0]|[(c & _ & H0)|[Hlen _]]].
      * exfalso; eapply none_several; eassumption.
      * exfalso; eapply only_not_several; eassumption.
      * specialize (A l cands Hk E Hlen). unfold restriction in A. rewrite <- (Hdnf s sg l cands E), <- (Hall s sg l cands E) in A.
        destruct A as [A|[A|[Ao A]]]; [auto|auto|]. apply memb_In, HS in Ao. tauto.
    + intros B l cands Hk E Hlen. pose proof (proj1 (qp_keys _ _ _ _ _ _ _ _ PD l) Hk) as Hq.
      destruct (given_cases dom xs max x cps n G D l cands PD E) as [[-> _]|[(c & -> & _)|[_ Hs]]]; [simpl in Hlen; lia|simpl in Hlen; lia|].
      unfold restriction. rewrite <- (Hdnf s sg l cands E), <- (Hall s sg l cands E).
      destruct (B l Hq Hs) as [B1|[B1|[B1 B2]]]; [auto|auto|]. right; right. split; [|assumption]. apply memb_In, HS. split; [apply Hq|assumption].
Qed.

(** ** All the quantified types of one action *)
Section Types.
Variables (lb : lib) (k : cact) (params : list (string * string)) (seen : list (string * list literal)).

Definition type_good (q : string * depset literal) : Prop :=
  exists x s dom sig max cps n, dict_get params (fst q) = Some x /\ dict_get seen (fst q) = Some s /\
    qpruned dom sig max x cps n (granted lb k) (snd q).
Definition for_type {A} (tn : string) (qs : list (string * string * A)) : list (string * string * A) :=
  filter (fun q => String.eqb (snd (fst q)) tn) qs.
Definition type_done (pre : list (string * string * list (form literal))) (effs : list (string * string * list (list literal * list literal)))
    (q : string * depset literal) : Prop :=
  exists x s es, dict_get params (fst q) = Some x /\ dict_get seen (fst q) = Some s /\
    for_type (fst q) effs = [(x, fst q, compress_conditional_effects es)] /\
    (forall p, In p (for_type (fst q) pre) -> fst p = (x, fst q)) /\
    type_conditions (granted lb k) lb s (snd q) (dict_keys (possible (snd q))) (flat_map snd (for_type (fst q) pre)) /\
    type_effects s (snd q) (dict_keys (possible (snd q))) es.

Lemma for_type_app {A} tn (a b : list (string * string * A)) : for_type tn (a ++ b) = for_type tn a ++ for_type tn b.
Proof. apply filter_app. Qed.
Lemma for_type_same {A} x tn (a : list (string * string * A)) : (forall q, In q a -> fst q = (x, tn)) -> for_type tn a = a.
Proof.
  intros H. unfold for_type. apply filter_id. intros q Hq. rewrite (H q Hq). apply String.eqb_refl.
Qed.
Lemma for_type_none {A} tn (a : list (string * string * A)) : (forall q, In q a -> snd (fst q) <> tn) -> for_type tn a = [].
Proof.
  intros H. unfold for_type. apply filter_none. intros q Hq. apply String.eqb_neq. exact (H q Hq).
Qed.

Lemma types_loop : forall (todo done : list (string * depset literal)) pre effs,
  NoDup (dict_keys (done ++ todo)) -> (forall q, In q todo -> type_good q) ->
  (forall q, In q done -> type_done pre effs q) ->
  (forall p, In p pre -> In (snd (fst p)) (dict_keys done)) -> map (fun e => snd (fst e)) effs = dict_keys done ->
  exists pre' effs', fold_res (verify_universal_type lb k params seen) todo (pre, effs) = Ok (pre', effs') /\
    (forall q, In q (done ++ todo) -> type_done pre' effs' q) /\
    (forall p, In p pre' -> In (snd (fst p)) (dict_keys (done ++ todo))) /\
    map (fun e => snd (fst e)) effs' = dict_keys (done ++ todo).
Proof.
  induction todo as [|q todo IH]; intros done pre effs Hn Hg Hd Hp He.
  - exists pre, effs. rewrite app_nil_r. auto.
  - destruct (Hg q (or_introl eq_refl)) as (x & s & dom & sig & max & cps & n & Ex & Es & PD).
    cbn [fold_res]. unfold verify_universal_type at 1. rewrite (dict_lookup_Some _ _ _ Ex). cbn [bind].
    rewrite (dict_lookup_Some _ _ _ Es). cbn [bind].
    destruct (universal_type dom sig max x cps n (granted lb k) lb k (fst q) s) with (D := snd q) (pre0 := pre) as (qs & es & E1 & He1 & Hc1 & Hf1).
    { intros Hl. unfold granted. rewrite Hl. reflexivity. }
    { exact PD. }
    rewrite E1. cbn [bind].
    assert (Hfresh : ~ In (fst q) (dict_keys done)).
    { unfold dict_keys in *. rewrite map_app in Hn. apply NoDup_app_iff in Hn. destruct Hn as (_ & _ & Hx).
      intros Hin. exact (Hx (fst q) Hin (or_introl eq_refl)). }
    assert (Hsplit : (done ++ [q]) ++ todo = done ++ q :: todo) by (rewrite <- app_assoc; reflexivity).
    destruct (IH (done ++ [q]) (pre ++ qs) (effs ++ [(x, fst q, compress_conditional_effects es)])) as (pre' & effs' & E2 & H1 & H2 & H3).
    + rewrite Hsplit. exact Hn.
    + intros q' Hq'; apply Hg; right; assumption.
    + intros q' Hq'. apply in_app_iff in Hq'. destruct Hq' as [Hq'|[<-|[]]].
      * destruct (Hd q' Hq') as (x' & s' & es' & A1 & A2 & A3 & A4 & A5 & A6).
        assert (Hne : fst q <> fst q').
        { intros Eq. apply Hfresh. rewrite Eq. apply in_map. assumption. }
        exists x', s', es'. split; [exact A1|]. split; [exact A2|].
        rewrite !for_type_app, A3. rewrite (for_type_none (fst q') qs).
        2:{ intros p Hin Eq. rewrite (He1 p Hin) in Eq. exact (Hne Eq). }
        rewrite (for_type_none (fst q') [_]).
        2:{ intros p [<-|[]]. exact Hne. }
        rewrite !app_nil_r. auto.
      * exists x, s, es. split; [exact Ex|]. split; [exact Es|]. rewrite !for_type_app.
        rewrite (for_type_none (fst q) pre).
        2:{ intros p Hin Eq. apply Hfresh. rewrite <- Eq. apply Hp; assumption. }
        rewrite (for_type_none (fst q) effs).
        2:{ intros p Hin Eq. apply Hfresh. rewrite <- He, <- Eq. apply (in_map (fun e => snd (fst e))); assumption. }
        rewrite (for_type_same x (fst q) qs He1). rewrite (for_type_same x (fst q) [_]) by (intros p [<-|[]]; reflexivity).
        cbn [app]. auto.
    + intros p Hin. unfold dict_keys. rewrite map_app. apply in_app_iff. apply in_app_iff in Hin. destruct Hin as [Hin|Hin].
      * left. apply Hp; assumption.
      * right. rewrite (He1 p Hin). left; reflexivity.
    + rewrite map_app, He. unfold dict_keys. rewrite map_app. reflexivity.
    + rewrite Hsplit in *. exists pre', effs'. auto.
Qed.
End Types.
