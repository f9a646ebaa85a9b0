(** * Conditional SAM: the learned action, and its safety *)
From Verif Require Import PreludeProofs VocabProofs SamModel SamSpec SamProofs SamFinal LogicProofs DepProofs CondModel CondSpec CondProofs.

Lemma dict_lookup_Some' {K V} `{EqDec K} (d : list (K * V)) k v : dict_get d k = Some v -> dict_lookup d k = Ok v.
Proof. unfold dict_lookup; intros ->; reflexivity. Qed.

Definition any_lit (l : literal) : Prop := True.
Lemma literal_lawful : lawful any_lit.
Proof.
  constructor; intros [n a p] _; unfold flip, starts_not, literal_search; cbn [literal_lits copy_lit l_name l_args l_pos]; try exact I;
    destruct p; reflexivity.
Qed.
Lemma literal_truth s sg : truth any_lit (lit_at s sg).
Proof.
  constructor; intros l _.
  - cbn [flip literal_lits]. rewrite copy_neg. unfold lit_at. rewrite ground_neg. apply lit_true_neg.
  - apply lit_true_dec.
Qed.

(** ** Pruning by the preconditions *)
Lemma pop_fold_get {V} (pre : list literal) : forall (d : list (literal * V)) l,
  dict_get (fold_left (fun p l => dict_pop p l) pre d) l = if memb l pre then None else dict_get d l.
Proof.
  induction pre as [|x pre IH]; intros d l; cbn [fold_left]; [reflexivity|]. rewrite IH, dict_pop_get.
  unfold memb at 2; cbn [existsb]; fold (memb l pre). destruct (eq_dec l x) as [->|Hne].
  - rewrite PreludeProofs.eqb_refl. destruct (memb x pre); reflexivity.
  - rewrite (proj2 (PreludeProofs.eqb_neq _ _)) by assumption. reflexivity.
Qed.
Lemma pop_fold_nodup {V} (pre : list literal) : forall (d : list (literal * V)),
  NoDup (dict_keys d) -> NoDup (dict_keys (fold_left (fun p l => dict_pop p l) pre d)).
Proof.
  induction pre as [|x pre IH]; intros d Hd; cbn [fold_left]; [assumption|]. apply IH. unfold dict_pop, dict_keys.
  clear -Hd. unfold dict_keys in Hd. induction d as [|[k v] d IH]; [constructor|]. cbn [filter map fst] in *. inversion Hd as [|? ? Hk Hr]; subst.
  destruct (negb (eqb k x)); [|apply IH; assumption]. cbn [map fst]. constructor; [|apply IH; assumption].
  intros Hin. apply Hk. apply in_map_iff in Hin. destruct Hin as (y & Ey & Hy). apply filter_In in Hy. apply in_map_iff. exists y; tauto.
Qed.

Section Pruned.
Variables (dom : domain) (sig : signature) (max : nat) (cps : list component) (n : string).
Hypothesis Hnames : NoDup (map fst (sig ++ d_consts dom)).
Notation cand := (candidate dom sig max cps n).

Record pruned (D : depset literal) : Prop :=
  { pd_nodup : NoDup (dict_keys (possible D));
    pd_keys : forall l, In l (dict_keys (possible D)) <-> mentionable dom sig l /\ ~ always_before dom sig cps n l;
    pd_distinct : forall l cands, dict_get (possible D) l = Some cands -> distinct_sets cands;
    pd_sound : forall l cands c, dict_get (possible D) l = Some cands -> In c cands -> cand l c;
    pd_complete : forall l cands c, dict_get (possible D) l = Some cands -> cand l c -> exists d, In d cands /\ same_sets c d }.

Lemma prune D pre : dep_ok dom sig max (explains sig cps n) D -> NoDup pre ->
  (forall l, In l pre <-> always_before dom sig cps n l) -> pruned (remove_preconditions_literals D pre).
Proof.
  intros HD Hnp Hpre. unfold remove_preconditions_literals. cbv zeta.
  set (D1 := with_possible D (fold_left (fun p l => dict_pop p l) pre (possible D))).
  assert (N1 : NoDup (dict_keys (possible D1))) by (apply pop_fold_nodup, (do_nodup _ _ _ _ _ HD)).
  assert (G1 : forall l, dict_get (possible D1) l = if memb l pre then None else dict_get (possible D) l) by (intros l; apply pop_fold_get).
  destruct (fold_remove pre true (dict_keys (possible D1)) D1 N1) as (F1 & F2 & F3).
  set (D2 := fold_left (fun D l => remove_dependencies D l pre true) (dict_keys (possible D1)) D1) in *.
  assert (Hmax : max_antecedents D1 = max) by (apply (do_max _ _ _ _ _ HD)).
  assert (G2 : forall l cands, dict_get (possible D2) l = Some cands -> exists cs, dict_get (possible D) l = Some cs /\ ~ In l pre /\
     cands = filter (fun c => negb (meets pre c)) cs).
  { intros l cands E. assert (Hk : In l (dict_keys (possible D1))) by (rewrite <- F2; eapply dict_get_key; eassumption).
    rewrite F3, (proj2 (memb_In _ _) Hk), G1 in E. destruct (memb l pre) eqn:Em; [discriminate|]. apply memb_nIn in Em.
    destruct (dict_get (possible D) l) as [cs|] eqn:Ec; [|discriminate]. cbn [option_map] in E. injection E as <-.
    exists cs. split; [reflexivity|]. split; [assumption|].
    rewrite <- (remove_from_supersets max) by apply (do_good _ _ _ _ _ HD l cs Ec). rewrite <- Hmax. reflexivity. }
  assert (Hmeet : forall c, meets pre c = false <-> forall x, In x c -> ~ always_before dom sig cps n x).
  { intros c. split.
    - intros E x Hx Hb. assert (meets pre c = true); [|congruence]. apply meets_iff. exists x; split; [assumption|apply Hpre; assumption].
    - intros Hd. apply not_true_is_false. intros E. apply meets_iff in E. destruct E as (x & Hx & Hp). apply (Hd x Hx), Hpre; assumption. }
  constructor.
  - rewrite F2. exact N1.
  - intros l. rewrite F2, <- (do_keys _ _ _ _ _ HD), <- Hpre, !dict_get_Some_iff. setoid_rewrite G1.
    destruct (memb l pre) eqn:Em; [apply memb_In in Em|apply memb_nIn in Em].
    + split; [intros (v & E); discriminate|tauto].
    + tauto.
  - intros l cands E. destruct (G2 l cands E) as (cs & Ec & _ & ->). apply distinct_filter, (do_good _ _ _ _ _ HD l cs Ec).
  - intros l cands c E Hc. destruct (G2 l cands E) as (cs & Ec & _ & ->). apply filter_In in Hc. destruct Hc as [Hc Hm].
    apply (do_cands _ _ _ _ _ HD l cs Ec) in Hc. destruct Hc as [Ha Hx]. apply negb_true_iff in Hm.
    split; [apply comb_antecedents; assumption|]. split; [assumption|]. apply Hmeet; assumption.
  - intros l cands c E (Ha & Hx & Hd). destruct (G2 l cands E) as (cs & Ec & _ & ->).
    pose proof (antecedents_comb dom sig max c Hnames Ha) as Hone.
    destruct (filter (set_eqb c) (all_combinations dom sig max)) as [|d rest] eqn:Ef; [discriminate|].
    assert (Hin : In d (all_combinations dom sig max) /\ set_eqb c d = true) by (apply filter_In; rewrite Ef; left; reflexivity).
    destruct Hin as [Hin Es]. assert (Hs : same_sets c d) by exact (proj1 (set_eqb_iff _ _) Es).
    exists d. split; [|assumption]. apply filter_In. split.
    + apply (do_cands _ _ _ _ _ HD l cs Ec). split; [assumption|]. eapply explains_same; eassumption.
    + apply negb_true_iff, Hmeet. intros x Hx'. apply Hd, Hs; assumption.
Qed.

Lemma cand_cases D l cands : pruned D -> dict_get (possible D) l = Some cands ->
  (cands = [] /\ no_candidate dom sig max cps n l) \/
  (exists c, cands = [c] /\ only_candidate dom sig max cps n l c) \/
  (2 <= length cands /\ several_candidates dom sig max cps n l).
Proof.
  intros PD E. destruct cands as [|c [|d rest]].
  - left. split; [reflexivity|]. intros c Hc. destruct (pd_complete _ PD l [] c E Hc) as (d & [] & _).
  - right; left. exists c. split; [reflexivity|]. split; [eapply pd_sound; [exact PD|exact E|left; reflexivity]|].
    intros d Hd. destruct (pd_complete _ PD l [c] d E Hd) as (e & [<-|[]] & Hs). assumption.
  - right; right. split; [simpl; lia|]. exists c, d. split; [eapply pd_sound; [exact PD|exact E|left; reflexivity]|].
    split; [eapply pd_sound; [exact PD|exact E|right; left; reflexivity]|].
    intros Hs. pose proof (pd_distinct _ PD l _ E) as Hd. inversion Hd as [|? ? HF _]; subst. inversion HF as [|? ? Hf _]; subst.
    rewrite (proj2 (set_eqb_iff _ _)) in Hf by exact Hs. discriminate.
Qed.
Lemma only_unique l c : only_candidate dom sig max cps n l c -> ~ several_candidates dom sig max cps n l.
Proof.
  intros [_ Ho] (d & e & Hd & He & Hne). apply Hne. intros x. rewrite (Ho d Hd x). symmetry. apply (Ho e He x).
Qed.
Lemma none_not_only l c : no_candidate dom sig max cps n l -> ~ only_candidate dom sig max cps n l c.
Proof. intros Hn [Hc _]. exact (Hn c Hc). Qed.
Lemma none_not_several l : no_candidate dom sig max cps n l -> ~ several_candidates dom sig max cps n l.
Proof. intros Hn (c & _ & Hc & _). exact (Hn c Hc). Qed.

(** ** The loop over the literals *)
Variables (lb : lib) (obs : list literal).
Hypothesis Hobs : forall l, In l obs <-> observed_effect dom sig cps n l.

Record loop_inv (D : depset literal) (k0 : cact) (done : list literal) (k : cact) (effs : list (list literal * list literal)) : Prop :=
  { li_name : k_name k = k_name k0; li_sig : k_sig k = k_sig k0; li_ineq : k_ineq k = k_ineq k0;
    li_pre : forall s sg, (forall f, In f (k_root k) -> f_holds (lit_at s sg) f) -> (forall f, In f (k_root k0) -> f_holds (lit_at s sg) f);
    li_root : lib_nested lb = false -> forall s sg,
       (forall f, In f (k_root k) -> f_holds (lit_at s sg) f) <->
       (forall f, In f (k_root k0) -> f_holds (lit_at s sg) f) /\
       (forall l cands, In l done -> dict_get (possible D) l = Some cands -> 2 <= length cands ->
          restriction (lit_at s sg) l cands (memb l obs));
    li_eff : forall l, In l (k_eff k) <-> In l done /\ In l obs /\ dict_get (possible D) l = Some [];
    li_cond : forall e, In e (k_cond k) <-> exists l cands, In l done /\ In l obs /\ dict_get (possible D) l = Some cands /\
                 2 <= length cands /\ e = (all_antecedents cands, [l]);
    li_effs : forall e, In e effs <-> exists l c, In l done /\ In l obs /\ dict_get (possible D) l = Some [c] /\ e = (c, [l]) }.

Lemma same_level_root (s : state) (sg : assignment) (root : list (form literal)) :
  (forall f, In f root -> f_holds (lit_at s sg) f) -> conj_holds (lit_at s sg) (same_level root).
Proof.
  induction root as [|[l|fs|fs] root IH]; intros Hr x Hx; cbn [same_level] in Hx; [destruct Hx| | |].
  - destruct Hx as [<-|Hx]; [exact (Hr (f_lit l) (or_introl eq_refl))|]. apply IH; [intros f Hf; apply Hr; right; assumption|assumption].
  - apply IH; [intros f Hf; apply Hr; right; assumption|assumption].
  - apply IH; [intros f Hf; apply Hr; right; assumption|assumption].
Qed.

Lemma verify_step D k0 done k effs l : pruned D -> loop_inv D k0 done k effs -> In l (dict_keys (possible D)) -> ~ In l done ->
  exists k' e, verify_single lb [] D obs k l = Ok (k', e) /\
    loop_inv D k0 (done ++ [l]) k' (match e with Some e => effs ++ [e] | None => effs end).
Proof.
  intros PD [H1 H2 H3 H4 H5 H6 H7 H8] Hk Hnd. apply dict_get_Some_iff in Hk. destruct Hk as (cands & Ec).
  assert (Hdone : forall x, In x (done ++ [l]) <-> In x done \/ x = l).
  { intros x. rewrite in_app_iff. simpl. intuition congruence. }
  unfold verify_single, is_safe_literal. rewrite (dict_lookup_Some' _ _ _ Ec). cbn [bind].
  destruct (length cands <=? 1) eqn:El; cbn [negb].
  - apply Nat.leb_le in El.
    destruct (memb l obs) eqn:Eo; cbn [negb].
    + apply memb_In in Eo. unfold is_safe_conditional_effect. rewrite (dict_lookup_Some' _ _ _ Ec). cbn [bind].
      destruct cands as [|c [|d rest]]; cbn [length Nat.eqb negb]; [| |simpl in El; lia].
      * (* simple effect *)
        unfold construct_simple_effect. rewrite (proj2 (memb_nIn l []) (fun H => H)).
        eexists; exists None. split; [reflexivity|]. constructor; cbn [k_name k_sig k_ineq k_root k_eff k_cond]; auto.
        -- intros Hl s sg. rewrite (H5 Hl s sg). split; intros [A B]; split; auto.
           ++ intros x cs Hx Ex. apply Hdone in Hx. destruct Hx as [Hx| ->]; [auto|]. rewrite Ec in Ex. injection Ex as <-. simpl; lia.
           ++ intros x cs Hx. apply B, Hdone; auto.
        -- intros x. rewrite set_add_In, H6, Hdone. split.
           ++ intros [->|(A & B & C)]; auto.
           ++ intros ([A| ->] & B & C); auto.
        -- intros e. rewrite H7. setoid_rewrite Hdone. split.
           ++ intros (x & cs & A & B). exists x, cs. tauto.
           ++ intros (x & cs & [A| ->] & B & C & D' & E'); [exists x, cs; auto|]. rewrite Ec in C. injection C as <-. simpl in D'; lia.
        -- intros e. rewrite H8. setoid_rewrite Hdone. split.
           ++ intros (x & c & A & B). exists x, c. tauto.
           ++ intros (x & c & [A| ->] & B & C & E'); [exists x, c; auto|]. rewrite Ec in C. discriminate.
      * (* conditional effect *)
        unfold conditional_effect_data, extract_safe_antecedents. rewrite (dict_lookup_Some' _ _ _ Ec). cbn [bind].
        eexists; exists (Some (c, [l])). split; [reflexivity|]. constructor; auto.
        -- intros Hl s sg. rewrite (H5 Hl s sg). split; intros [A B]; split; auto.
           ++ intros x cs Hx Ex. apply Hdone in Hx. destruct Hx as [Hx| ->]; [auto|]. rewrite Ec in Ex. injection Ex as <-. simpl; lia.
           ++ intros x cs Hx. apply B, Hdone; auto.
        -- intros x. rewrite H6, Hdone. split.
           ++ intros (A & B & C); auto.
           ++ intros ([A| ->] & B & C); auto. rewrite Ec in C; discriminate.
        -- intros e. rewrite H7. setoid_rewrite Hdone. split.
           ++ intros (x & cs & A & B). exists x, cs. tauto.
           ++ intros (x & cs & [A| ->] & B & C & D' & E'); [exists x, cs; auto|]. rewrite Ec in C. injection C as <-. simpl in D'; lia.
        -- intros e. rewrite in_app_iff, H8. setoid_rewrite Hdone. simpl. split.
           ++ intros [(x & c' & A & B)|[<-|[]]]; [exists x, c'; tauto|exists l, c; auto 6].
           ++ intros (x & c' & [A| ->] & B & C & E'); [left; exists x, c'; auto|]. rewrite Ec in C. injection C as <-. right; left; auto.
    + (* not observed *)
      apply memb_nIn in Eo. eexists; exists None. split; [reflexivity|]. constructor; auto.
      * intros Hl s sg. rewrite (H5 Hl s sg). split; intros [A B]; split; auto.
        -- intros x cs Hx Ex. apply Hdone in Hx. destruct Hx as [Hx| ->]; [auto|]. rewrite Ec in Ex. injection Ex as <-. lia.
        -- intros x cs Hx. apply B, Hdone; auto.
      * intros x. rewrite H6, Hdone. split; [tauto|]. intros ([A| ->] & B & C); [auto|contradiction].
      * intros e. rewrite H7. setoid_rewrite Hdone. split.
        -- intros (x & cs & A & B). exists x, cs. tauto.
        -- intros (x & cs & [A| ->] & B & C); [exists x, cs; auto|contradiction].
      * intros e. rewrite H8. setoid_rewrite Hdone. split.
        -- intros (x & cs & A & B). exists x, cs. tauto.
        -- intros (x & cs & [A| ->] & B & C); [exists x, cs; auto|contradiction].
  - apply Nat.leb_gt in El. unfold cond_restrictive_preconditions.
    set (pl := precondition_literals lb k).
    destruct (restrictive_spec any_lit literal_lawful (lib_flatten lb) D pl l (memb l obs) cands) as (r & Er & Hr).
    { exact Ec. }
    { intros c Hc. destruct (pd_sound _ PD l cands c Ec Hc) as ((_ & _ & Hlen) & _). split; [|intros x _; exact I].
      destruct c; [simpl in Hlen; lia|discriminate]. }
    { exact I. } { intros x _; exact I. }
    rewrite Er. cbn [bind].
    set (k1 := match r with None => k | Some f => mkCact _ _ _ _ _ _ end).
    assert (Hroot1 : forall s sg, (forall f, In f (k_root k1) -> f_holds (lit_at s sg) f) <->
        (forall f, In f (k_root k) -> f_holds (lit_at s sg) f) /\ cond_holds (lit_at s sg) r).
    { intros s sg. unfold k1. destruct r as [f|]; [|simpl; tauto]. cbn [k_root cond_holds].
      rewrite <- !f_and_iff. apply add_and. }
    assert (Hsame : k_name k1 = k_name k /\ k_sig k1 = k_sig k /\ k_ineq k1 = k_ineq k /\ k_eff k1 = k_eff k /\ k_cond k1 = k_cond k).
    { unfold k1; destruct r; repeat split; reflexivity. }
    destruct Hsame as (S1 & S2 & S3 & S4 & S5).
    assert (Hp1 : forall s sg, (forall f, In f (k_root k1) -> f_holds (lit_at s sg) f) -> (forall f, In f (k_root k0) -> f_holds (lit_at s sg) f)).
    { intros s sg Hh. apply H4. apply Hroot1; assumption. }
    assert (Hr1 : lib_nested lb = false -> forall s sg,
       (forall f, In f (k_root k1) -> f_holds (lit_at s sg) f) <->
       (forall f, In f (k_root k0) -> f_holds (lit_at s sg) f) /\
       (forall x cs, In x (done ++ [l]) -> dict_get (possible D) x = Some cs -> 2 <= length cs ->
          restriction (lit_at s sg) x cs (memb x obs))).
    { intros Hl s sg. rewrite Hroot1.
      assert (Hiff : (forall f, In f (k_root k) -> f_holds (lit_at s sg) f) ->
                     (cond_holds (lit_at s sg) r <-> restriction (lit_at s sg) l cands (memb l obs))).
      { intros Hh. apply Hr; [apply literal_truth|]. unfold pl, precondition_literals. rewrite Hl.
        intros x Hx. apply (proj1 (to_set_In _ _)) in Hx. exact (same_level_root s sg _ Hh x Hx). }
      split.
      - intros [A B]. assert (A' := A). apply (H5 Hl s sg) in A'. destruct A' as [A1 A2]. split; [assumption|].
        intros x cs Hx Ex. apply Hdone in Hx. destruct Hx as [Hx| ->]; [auto|]. rewrite Ec in Ex. injection Ex as <-.
        intros _. apply Hiff; assumption.
      - intros [A B]. assert (A' : forall f, In f (k_root k) -> f_holds (lit_at s sg) f).
        { apply (H5 Hl s sg). split; [assumption|]. intros x cs Hx. apply B, Hdone; auto. }
        split; [assumption|]. apply Hiff; [assumption|]. apply B; auto. apply Hdone; auto. }
    destruct (memb l obs) eqn:Eo; cbn [negb].
    + apply memb_In in Eo. unfold restrictive_effect. rewrite (dict_lookup_Some' _ _ _ Ec). cbn [bind]. cbv zeta.
      fold (all_antecedents cands). unfold conditional_effect_data, extract_safe_antecedents, dict_lookup. cbn [possible dict_get].
      destruct (eq_dec l l) as [_|]; [|congruence]. cbn [bind].
      eexists; exists None. split; [reflexivity|]. constructor; cbn [k_name k_sig k_ineq k_root k_eff k_cond]; try congruence; auto.
      * intros x. rewrite S4, H6, Hdone. split; [tauto|]. intros ([A| ->] & B & C); [auto|]. rewrite Ec in C. injection C as ->. simpl in El; lia.
      * intros e. rewrite in_app_iff, S5, H7. setoid_rewrite Hdone. simpl. split.
        -- intros [(x & cs & A & B)|[<-|[]]]; [exists x, cs; tauto|exists l, cands; auto 8].
        -- intros (x & cs & [A| ->] & B & C & D' & E'); [left; exists x, cs; auto|]. rewrite Ec in C. injection C as <-. right; left; auto.
      * intros e. rewrite H8. setoid_rewrite Hdone. split.
        -- intros (x & cs & A & B). exists x, cs. tauto.
        -- intros (x & cs & [A| ->] & B & C & E'); [exists x, cs; auto|]. rewrite Ec in C. injection C as ->. simpl in El; lia.
    + apply memb_nIn in Eo. eexists; exists None. split; [reflexivity|]. constructor; try congruence; auto.
      * intros x. rewrite S4, H6, Hdone. split; [tauto|]. intros ([A| ->] & B & C); [auto|contradiction].
      * intros e. rewrite S5, H7. setoid_rewrite Hdone. split.
        -- intros (x & cs & A & B). exists x, cs. tauto.
        -- intros (x & cs & [A| ->] & B & C); [exists x, cs; auto|contradiction].
      * intros e. rewrite H8. setoid_rewrite Hdone. split.
        -- intros (x & cs & A & B). exists x, cs. tauto.
        -- intros (x & cs & [A| ->] & B & C); [exists x, cs; auto|contradiction].
Qed.

Lemma verify_loop D k0 : pruned D -> forall rest done k effs,
  loop_inv D k0 done k effs -> (forall l, In l rest -> In l (dict_keys (possible D))) -> NoDup rest -> (forall l, In l rest -> ~ In l done) ->
  exists k' effs', fold_res (fun acc l =>
        let '(k, effs) := acc in
        let* (k', e) := verify_single lb [] D obs k l in
        Ok (k', match e with Some e => effs ++ [e] | None => effs end)) rest (k, effs) = Ok (k', effs') /\
     loop_inv D k0 (done ++ rest) k' effs'.
Proof.
  intros PD. induction rest as [|l rest IH]; intros done k effs HI Hk Hn Hd.
  - exists k, effs. rewrite app_nil_r. split; [reflexivity|assumption].
  - destruct (verify_step D k0 done k effs l PD HI) as (k1 & e & E1 & HI1); [apply Hk; left; reflexivity|apply Hd; left; reflexivity|].
    inversion Hn as [|? ? Hl Hr]; subst.
    destruct (IH (done ++ [l]) k1 (match e with Some e => effs ++ [e] | None => effs end)) as (k2 & effs2 & E2 & HI2).
    + assumption.
    + intros x Hx; apply Hk; right; assumption.
    + assumption.
    + intros x Hx Hi. apply in_app_iff in Hi. destruct Hi as [Hi|[<-|[]]]; [|contradiction]. apply (Hd x); [right; assumption|assumption].
    + exists k2, effs2. cbn [fold_res]. rewrite E1. cbn [bind]. rewrite <- app_assoc in HI2. split; [exact E2|exact HI2].
Qed.

End Pruned.

(** ** Merging of equal antecedents *)
Definition eff_fires (holds : literal -> Prop) (effs : list (list literal * list literal)) (l : literal) : Prop :=
  exists e, In e effs /\ In l (snd e) /\ conj_holds holds (fst e).

Lemma compress_fires holds l : forall fuel effs, length effs <= fuel ->
  (eff_fires holds (compress_loop fuel effs) l <-> eff_fires holds effs l).
Proof.
  induction fuel as [|fuel IH]; intros effs Hle.
  - destruct effs; [reflexivity|simpl in Hle; lia].
  - destruct effs as [|e rest]; [reflexivity|]. cbn [compress_loop].
    set (f := fun o : list literal * list literal => set_eqb (fst e) (fst o)).
    change (fun o : list literal * list literal => negb (set_eqb (fst e) (fst o))) with (fun o => negb (f o)).
    assert (Hlen : length (filter (fun o => negb (f o)) rest) <= fuel).
    { transitivity (length rest); [|simpl in Hle; lia]. clear. induction rest as [|o rest IHr]; [simpl; lia|].
      cbn [filter]. destruct (negb (f o)); simpl; lia. }
    assert (Hsnd : In l (fold_left (fun r o => set_union r (snd o)) (filter f rest) (snd e)) <->
                   In l (snd e) \/ exists o, In o rest /\ f o = true /\ In l (snd o)).
    { assert (G : forall os acc, In l (fold_left (fun r (o : list literal * list literal) => set_union r (snd o)) os acc) <->
                   In l acc \/ exists o, In o os /\ In l (snd o)).
      { induction os as [|o os IHo]; intros acc; cbn [fold_left]; [split; [auto|intros [?|(o & [] & _)]; assumption]|].
        rewrite IHo, set_union_In. split.
        - intros [[?|?]|(o' & H1 & H2)]; [auto|right; exists o; simpl; auto|right; exists o'; simpl; auto].
        - intros [?|(o' & [<-|H1] & H2)]; [auto|auto|right; exists o'; auto]. }
      rewrite G. split.
      - intros [?|(o & Ho & H2)]; [auto|]. apply filter_In in Ho. right; exists o; tauto.
      - intros [?|(o & H1 & H2 & H3)]; [auto|]. right; exists o; split; [apply filter_In; auto|assumption]. }
    specialize (IH _ Hlen). unfold eff_fires in *. split.
    + intros (x & [<-|Hx] & H1 & H2).
      * cbn [fst snd] in *. apply Hsnd in H1. destruct H1 as [H1|(o & Ho & Hf & H1)].
        -- exists e; simpl; auto.
        -- exists o. split; [right; assumption|]. split; [assumption|]. intros y Hy. apply H2.
           apply (proj1 (set_eqb_iff _ _) Hf); assumption.
      * destruct (proj1 IH) as (o & Ho & H3 & H4); [exists x; auto|]. apply filter_In in Ho. exists o. split; [right; tauto|auto].
    + intros (x & [<-|Hx] & H1 & H2).
      * eexists; split; [left; reflexivity|]. cbn [fst snd]. split; [apply Hsnd; auto|assumption].
      * destruct (f x) eqn:Ef.
        -- eexists; split; [left; reflexivity|]. cbn [fst snd]. split; [apply Hsnd; right; exists x; auto|].
           intros y Hy. apply H2. apply (proj1 (set_eqb_iff _ _) Ef); assumption.
        -- destruct (proj2 IH) as (o & Ho & H3 & H4).
           { exists x. split; [apply filter_In; split; [assumption|rewrite Ef; reflexivity]|auto]. }
           exists o. split; [right; assumption|auto].
Qed.

(** ** The learned action *)
Lemma fires_k k s sg l : fires (k_rules k) s sg l <-> In l (k_eff k) \/ eff_fires (lit_at s sg) (k_cond k) l.
Proof.
  unfold fires, k_rules, eff_fires. split.
  - intros (r & Hr & <- & Hw). apply in_app_iff in Hr. destruct Hr as [Hr|Hr].
    + apply in_map_iff in Hr. destruct Hr as (x & <- & Hx). left; assumption.
    + apply in_flat_map in Hr. destruct Hr as (e & He & Hr). apply in_map_iff in Hr. destruct Hr as (x & <- & Hx).
      right. exists e; auto.
  - intros [Hl|(e & He & Hl & Hw)].
    + exists (mkRule [] l). split; [apply in_app_iff; left; apply in_map; assumption|]. split; [reflexivity|intros x []].
    + exists (mkRule (fst e) l). split; [|split; [reflexivity|exact Hw]]. apply in_app_iff; right. apply in_flat_map. exists e. split; [assumption|].
      apply in_map; assumption.
Qed.

Theorem construct_spec lb dom inj max cps C n a0 :
  wf_domain dom -> cond_inv dom inj max cps C -> dict_get (d_actions dom) n = Some a0 -> (exists cp, about cps n cp) ->
  exists k, construct_safe_action lb C n = Ok (n, k) /\ learned_conditional lb dom inj max cps n a0 k.
Proof.
  intros W I G Hex. destruct (cv_act _ _ _ _ _ I n a0 G) as (a & Ga & Ia). destruct (cv_deps _ _ _ _ _ I n a0 G Hex) as (D & ED & HD).
  destruct (cv_obs _ _ _ _ _ I n a0 G) as (obs & EO & HO).
  assert (Ecbe : dict_get (s_cbe (c_sam C)) n = Some []) by (apply (cv_cbe _ _ _ _ _ I); apply dict_get_Some_iff; eauto).
  unfold construct_safe_action. rewrite (dict_lookup_Some _ _ _ Ga). cbn [bind]. rewrite (ci_name _ _ _ _ _ _ Ia).
  rewrite (dict_lookup_Some _ _ _ ED). cbn [bind]. rewrite (dict_lookup_Some _ _ _ EO). cbn [bind].
  rewrite (dict_lookup_Some _ _ _ Ecbe). cbn [bind]. cbv zeta.
  assert (Epl : precondition_literals lb (cact_of a) = to_set (a_pre a)).
  { unfold precondition_literals, cact_of; cbn [k_root]. f_equal. destruct (lib_nested lb).
    - induction (a_pre a) as [|x l IH]; simpl; [reflexivity|]. f_equal; exact IH.
    - induction (a_pre a) as [|x l IH]; simpl; [reflexivity|]. f_equal; exact IH. }
  assert (Hpre : forall l, In l (to_set (a_pre a)) <-> always_before dom (a_sig a0) cps n l).
  { intros l. rewrite to_set_In, (ci_pre _ _ _ _ _ _ Ia). tauto. }
  rewrite Epl. set (D1 := remove_preconditions_literals D (to_set (a_pre a))).
  assert (Hnames := sig_names dom n a0 W G).
  assert (PD : pruned dom (a_sig a0) max cps n D1) by (apply prune; [exact Hnames|exact HD|apply to_set_NoDup|exact Hpre]).
  unfold verify_and_construct.
  assert (L0 : loop_inv lb obs D1 (cact_of a) [] (cact_of a) []).
  { constructor; auto.
    - intros _ s sg. split; [intros H; split; [assumption|intros l cands []]|tauto].
    - intros l. unfold cact_of; cbn [k_eff]. rewrite (ci_eff _ _ _ _ _ _ Ia). simpl; tauto.
    - intros e. unfold cact_of; cbn [k_cond]. split; [intros []|intros (l & cs & [] & _)].
    - intros e. split; [intros []|intros (l & cs & [] & _)]. }
  destruct (verify_loop dom (a_sig a0) max cps n lb obs D1 (cact_of a) PD (dict_keys (possible D1)) [] (cact_of a) [] L0)
    as (k1 & effs & E1 & L1); auto; [apply (pd_nodup _ _ _ _ _ _ PD)|].
  cbn [app] in L1. rewrite E1. cbn [bind].
  set (k := match effs with [] => k1 | _ => _ end). exists k. split; [reflexivity|].
  assert (Hsame : k_name k = k_name k1 /\ k_sig k = k_sig k1 /\ k_ineq k = k_ineq k1 /\ k_root k = k_root k1 /\ k_eff k = k_eff k1).
  { unfold k; destruct effs; repeat split; reflexivity. }
  destruct Hsame as (S1 & S2 & S3 & S4 & S5).
  assert (Hcond : forall h l, eff_fires h (k_cond k) l <->
     (effs = [] /\ eff_fires h (k_cond k1) l) \/ eff_fires h effs l).
  { intros h l. unfold k. destruct effs as [|e es].
    - split; [auto|]. intros [[_ ?]|(x & [] & _)]; assumption.
    - cbn [k_cond]. unfold compress_conditional_effects. rewrite compress_fires by lia. split; [auto|]. intros [[? _]|?]; [discriminate|assumption]. }
  destruct L1 as [Q1 Q2 Q3 Q4 Q5 Q6 Q7 Q8].
  assert (Hroot0 : forall s sg, (forall f, In f (k_root (cact_of a)) -> f_holds (lit_at s sg) f) <->
                     (forall l, always_before dom (a_sig a0) cps n l -> lit_at s sg l)).
  { intros s sg. unfold cact_of; cbn [k_root]. split.
    - intros H l Hl. apply Hpre, (proj1 (to_set_In _ _)) in Hl. apply (H (f_lit l)). apply in_map; assumption.
    - intros H f Hf. apply in_map_iff in Hf. destruct Hf as (l & <- & Hl). apply H, Hpre. apply (proj2 (to_set_In _ _)). assumption. }
  assert (Hkey : forall l, mentionable dom (a_sig a0) l -> ~ always_before dom (a_sig a0) cps n l ->
            In l (dict_keys (possible D1)) /\ exists cands, dict_get (possible D1) l = Some cands).
  { intros l Hm Hn. assert (Hin : In l (dict_keys (possible D1))) by (apply (pd_keys _ _ _ _ _ _ PD); auto).
    split; [assumption|]. apply dict_get_Some_iff; assumption. }
  assert (Hall : forall s sg l cands, dict_get (possible D1) l = Some cands ->
            ((forall c, candidate dom (a_sig a0) max cps n l c -> conj_holds (lit_at s sg) c) <-> conj_holds (lit_at s sg) (all_antecedents cands))).
  { intros s sg l cands E. split.
    - intros H x Hx. apply all_antecedents_In in Hx. destruct Hx as (c & Hc & Hx). apply (H c); [|assumption].
      eapply pd_sound; eassumption.
    - intros H c Hc x Hx. destruct (pd_complete _ _ _ _ _ _ PD l cands c E Hc) as (d & Hd & Hs). apply H, all_antecedents_In.
      exists d; split; [assumption|apply Hs; assumption]. }
  assert (Hdnf : forall s sg l cands, dict_get (possible D1) l = Some cands ->
            ((forall c, candidate dom (a_sig a0) max cps n l c -> ~ conj_holds (lit_at s sg) c) <-> ~ dnf_holds (lit_at s sg) cands)).
  { intros s sg l cands E. split.
    - intros H (c & Hc & Ht). apply (H c); [|assumption]. eapply pd_sound; eassumption.
    - intros H c Hc Ht. destruct (pd_complete _ _ _ _ _ _ PD l cands c E Hc) as (d & Hd & Hs). apply H. exists d; split; [assumption|].
      intros x Hx. apply Ht, Hs; assumption. }
  constructor.
  - rewrite S1, Q1. apply (ci_name _ _ _ _ _ _ Ia).
  - rewrite S2, Q2. apply (ci_sig _ _ _ _ _ _ Ia).
  - rewrite S3, Q3. apply (ci_ineq _ _ _ _ _ _ Ia).
  - intros l. rewrite <- Hpre. destruct (memb l (to_set (a_pre a))) eqn:Em; [left; apply memb_In|right; apply memb_nIn]; assumption.
  - intros l. rewrite <- HO. destruct (memb l obs) eqn:Em; [left; apply memb_In|right; apply memb_nIn]; assumption.
  - intros l Hm Hn. destruct (Hkey l Hm Hn) as (Hk & cands & E).
    destruct (cand_cases dom (a_sig a0) max cps n D1 l cands PD E) as [[_ H0]|[(c & _ & H0)|[_ H0]]]; eauto.
  - intros s sg l [Hr _] Hl. rewrite S4 in Hr. apply (proj1 (Hroot0 s sg)); [|assumption]. apply Q4; assumption.
  - intros Hl s sg. unfold k_applicable. rewrite S4, (Q5 Hl s sg), Hroot0. split.
    + intros [[A B] Hi]. split; [assumption|]. split; [assumption|]. intros l Hm Hn Hs.
      destruct (Hkey l Hm Hn) as (Hk & cands & E).
      destruct (cand_cases dom (a_sig a0) max cps n D1 l cands PD E) as [[_ H0]|[(c & _ & H0)|[Hlen _]]].
      * exfalso; eapply none_not_several; eassumption.
      * exfalso; eapply only_unique; eassumption.
      * specialize (B l cands Hk E Hlen). unfold restriction in B. rewrite <- (Hdnf s sg l cands E), <- (Hall s sg l cands E) in B.
        destruct B as [B|[B|[Bo B]]]; [auto|auto|]. apply memb_In, HO in Bo. auto.
    + intros (Hi & A & B). split; [|assumption]. split; [assumption|]. intros l cands Hk E Hlen.
      destruct (proj1 (pd_keys _ _ _ _ _ _ PD l) Hk) as [Hm Hn].
      destruct (cand_cases dom (a_sig a0) max cps n D1 l cands PD E) as [[-> _]|[(c & -> & _)|[_ Hs]]]; [simpl in Hlen; lia|simpl in Hlen; lia|].
      unfold restriction. rewrite <- (Hdnf s sg l cands E), <- (Hall s sg l cands E).
      destruct (B l Hm Hn Hs) as [B1|[B1|[B1 B2]]]; [auto|auto|]. right; right. split; [|assumption]. apply memb_In, HO; assumption.
  - intros s sg l. rewrite fires_k, S5, Hcond, Q6. split.
    + intros [(Hk & Ho & E)|[[Ee Hf]|Hf]].
      * apply HO in Ho. split; [assumption|]. split; [apply (pd_keys _ _ _ _ _ _ PD l); assumption|]. left.
        destruct (cand_cases dom (a_sig a0) max cps n D1 l [] PD E) as [[_ ?]|[(c & Ec & _)|[Hlen _]]]; [assumption|discriminate|simpl in Hlen; lia].
      * destruct Hf as (e & He & Hin & Hh). apply Q7 in He. destruct He as (l' & cands & Hk & Ho & E & Hlen & ->). cbn [fst snd] in *.
        destruct Hin as [->|[]]. apply HO in Ho. split; [assumption|]. split; [apply (pd_keys _ _ _ _ _ _ PD l); assumption|].
        right; right. destruct (cand_cases dom (a_sig a0) max cps n D1 l cands PD E) as [[-> _]|[(c & -> & _)|[_ Hs]]]; [simpl in Hlen; lia|simpl in Hlen; lia|].
        split; [assumption|]. split; [apply (Hall s sg l cands E); assumption|].
        intros (l2 & c2 & O2 & N2 & U2). destruct O2 as [M2 O2]. destruct (Hkey l2 M2 N2) as (K2 & cs2 & E2).
        destruct (cand_cases dom (a_sig a0) max cps n D1 l2 cs2 PD E2) as [[_ H0]|[(c & -> & _)|[_ H0]]].
        -- eapply none_not_only; eassumption.
        -- assert (In (c, [l2]) effs) by (apply Q8; exists l2, c; repeat split; auto; apply HO; split; assumption). rewrite Ee in *; contradiction.
        -- eapply only_unique; eassumption.
      * destruct Hf as (e & He & Hin & Hh). apply Q8 in He. destruct He as (l' & c & Hk & Ho & E & ->). cbn [fst snd] in *.
        destruct Hin as [->|[]]. apply HO in Ho. split; [assumption|]. split; [apply (pd_keys _ _ _ _ _ _ PD l); assumption|].
        right; left. destruct (cand_cases dom (a_sig a0) max cps n D1 l [c] PD E) as [[? _]|[(c' & Ec & Hoc)|[Hlen _]]]; [discriminate| |simpl in Hlen; lia].
        injection Ec as <-. exists c; auto.
    + intros (Ho & Hn & Hcase). destruct (Hkey l (proj1 Ho) Hn) as (Hk & cands & E). apply HO in Ho.
      destruct (cand_cases dom (a_sig a0) max cps n D1 l cands PD E) as [[-> H0]|[(c & -> & H0)|[Hlen H0]]].
      * left; auto.
      * right; right. destruct Hcase as [Hc|[(c' & Hc & Hh)|[Hc _]]].
        -- exfalso; eapply none_not_only; eassumption.
        -- exists (c, [l]). split; [apply Q8; exists l, c; auto|]. split; [left; reflexivity|]. cbn [fst].
           intros x Hx. apply Hh. apply (proj2 Hc c (proj1 H0)); assumption.
        -- exfalso; eapply only_unique; eassumption.
      * right; left. destruct Hcase as [Hc|[(c' & Hc & Hh)|(_ & Hh & Hno)]].
        -- exfalso; eapply none_not_several; eassumption.
        -- exfalso; eapply only_unique; eassumption.
        -- split.
           ++ destruct effs as [|e es] eqn:Ee; [reflexivity|]. exfalso. apply Hno.
              destruct (proj1 (Q8 e) (or_introl eq_refl)) as (l2 & c2 & K2 & O2 & E2 & _). exists l2, c2.
              split; [apply HO; assumption|]. split; [apply (pd_keys _ _ _ _ _ _ PD l2); assumption|].
              destruct (cand_cases dom (a_sig a0) max cps n D1 l2 [c2] PD E2) as [[? _]|[(c' & Ec & Hoc)|[Hl2 _]]]; [discriminate|congruence|simpl in Hl2; lia].
           ++ exists (all_antecedents cands, [l]). split; [apply Q7; exists l, cands; auto 8|]. split; [left; reflexivity|].
              cbn [fst]. exact (proj1 (Hall s sg l cands E) Hh).
Qed.

Theorem cond_learn_spec lb dom inj max policy cps :
  wf_domain dom -> blank_domain dom -> good_history dom cps ->
  exists ks, cond_learn lb dom max policy inj cps = Ok ks /\ NoDup (map fst ks) /\
    (forall n, In n (map fst ks) <-> exists cp, about cps n cp) /\
    (forall n k a0, In (n, k) ks -> dict_get (d_actions dom) n = Some a0 -> learned_conditional lb dom inj max cps n a0 k).
Proof.
  intros W B GH. destruct (observe_inv dom inj max policy cps W B GH) as (C & E & I).
  unfold cond_learn. rewrite E. cbn [bind].
  assert (Hgo : forall ns, (forall n, In n ns -> exists cp, about cps n cp) ->
     exists ks, map_res (construct_safe_action lb C) ns = Ok ks /\ map fst ks = ns /\
       (forall n k a0, In (n, k) ks -> dict_get (d_actions dom) n = Some a0 -> learned_conditional lb dom inj max cps n a0 k)).
  { induction ns as [|n ns IH]; intros Hns.
    - exists []. split; [reflexivity|]. split; [reflexivity|]. intros n k a0 [].
    - destruct IH as (ks & E1 & E2 & H); [intros m Hm; apply Hns; right; assumption|].
      destruct (Hns n (or_introl eq_refl)) as (cp & Hcp). destruct (GH cp (proj1 Hcp)) as ((a0 & G & _) & _). rewrite (proj2 Hcp) in G.
      destruct (construct_spec lb dom inj max cps C n a0 W I G) as (k & Ek & Hk); [eauto|].
      exists ((n, k) :: ks). cbn [map_res]. rewrite Ek. cbn [bind]. rewrite E1. cbn [bind]. split; [reflexivity|].
      split; [simpl; congruence|]. intros m k' b0 [Em|Hm] Gb; [|eauto]. injection Em as <- <-. replace b0 with a0 by congruence. assumption. }
  destruct (Hgo (s_observed (c_sam C))) as (ks & E1 & E2 & H); [intros n; apply (cv_obsd _ _ _ _ _ I)|].
  exists ks. split; [exact E1|]. rewrite E2. split; [apply (cv_obsd_nodup _ _ _ _ _ I)|]. split; [apply (cv_obsd _ _ _ _ _ I)|exact H].
Qed.
