(** * The macro learner: whole runs *)
From Verif Require Import VocabProofs SamProofs SamFinal SamResults MaSpec CnfProofs MaMatch MaCnf MaProofs MaFinal MaSafety
  MacroSpec GroupProofs TextProofs MacroText MacroMapping MacroShape MacroGroups MacroSafety PreludeProofs.
Open Scope nat_scope.

Lemma start_shape dom0 policy : table_shape dom0 (m_cnfs (initialize_cnfs (init_ma dom0 policy))).
Proof.
  intros key k Hin. pose proof (initialize_table dom0 (d_preds dom0) []) as Ht. cbv zeta in Ht. destruct Ht as (H1 & _); [intros ? ? []|].
  assert (E := H1 key k Hin). subst k. split; cbn [init_cnf n_not n_clauses].
  - intros x Hx. rewrite dict_of_keys, map_map in Hx. cbn [fst] in Hx. rewrite map_id in Hx. assumption.
  - intros cl [].
Qed.

Lemma map_res_exists {A B} (f : A -> res B) l : (forall x, In x l -> exists y, f x = Ok y) -> exists ys, map_res f l = Ok ys.
Proof.
  induction l as [|x l IH]; intros Hf; [exists []; reflexivity|]. destruct (Hf x) as [y Ey]; [left; reflexivity|].
  destruct IH as [ys Eys]; [intros z Hz; apply Hf; right; assumption|]. exists (y :: ys). cbn [map_res]. rewrite Ey. cbn [bind]. rewrite Eys. reflexivity.
Qed.

Section Whole.
Variables (dom0 : domain) (real : string -> option action) (obs : list (list joint)).
Hypothesis W : wf_domain dom0.
Hypothesis B : blank_domain dom0.
Hypothesis RD : real_domain dom0 real.
Hypothesis MD : macro_domain dom0.
Hypothesis GJ : good_joints dom0 (concat obs).
Hypothesis RJ : real_joints real (concat obs).
Hypothesis Hjs : forall j, In j (concat obs) -> joint_learnable j -> seen_by_last dom0 real j /\ different_actions j.
Notation js := (concat obs).
Notation names0 := (dict_keys (d_actions dom0)).

Lemma no_const_joints : no_constant_joints dom0 js.
Proof. intros j c _ _ _ o _. rewrite (md_consts _ MD). intros []. Qed.

(** The state before the macro actions are built. *)
Lemma before_macros : exists M2 M3,
  learn_joints (with_sam (initialize_cnfs (init_ma dom0 no_remove)) (deduce_initial_inequality_preconditions (m_sam (initialize_cnfs (init_ma dom0 no_remove))))) obs = Ok M2 /\
  construct_safe_actions false M2 = Ok M3 /\ ma_inv dom0 real no_remove js M2 /\ table_shape dom0 (m_cnfs M2) /\ m_cnfs M3 = m_cnfs M2 /\
  s_policy (m_sam M3) = no_remove /\ s_dom (m_sam M3) = set_actions dom0 (d_actions (s_dom (m_sam M3))) /\
  dict_keys (d_actions (s_dom (m_sam M3))) = names0 /\ NoDup (m_unsafe M3) /\ incl (m_unsafe M3) names0 /\
  forall n a0, dict_get (d_actions dom0) n = Some a0 ->
    exists a, dict_get (d_actions (s_dom (m_sam M3))) n = Some a /\ a_name a = n /\ learned_action dom0 js a0 a /\
      (~ In n (m_unsafe M3) -> kept_action dom0 js (m_cnfs M2) n a0 a).
Proof.
  assert (Hone : length (d_consts dom0) <= 1) by (rewrite (md_consts _ MD); simpl; lia).
  destruct (joints_loop dom0 real no_remove W Hone RD [] _ js (start_ma dom0 real no_remove W B) GJ RJ no_const_joints) as (M2 & E2 & I2).
  rewrite <- learn_joints_concat in E2. cbn [app] in I2.
  destruct (keep_step dom0 real no_remove W js M2 I2) as (M3 & E3 & C3 & P3 & D3 & K3 & N3 & U3 & A3).
  exists M2, M3. split; [exact E2|]. split; [exact E3|]. split; [assumption|]. split; [|auto 10].
  assert (Hs : ma_shape dom0 M2); [|apply Hs]. eapply joints_shape; [apply (md_consts _ MD)| | |exact E2].
  - intros n a G. eapply wf_sigs; [exact W|]. apply dict_get_In; eassumption.
  - split.
    + split; [reflexivity|]. cbn [m_sam with_sam]. unfold deduce_initial_inequality_preconditions. cbn [initialize_cnfs with_cnfs init_ma m_sam init_learner s_injective s_dom with_dom set_actions d_actions].
      intros n a G. rewrite (dict_get_map_vals (fun na => initial_inequalities (snd na))) in G.
      destruct (dict_get (d_actions dom0) n) as [a0|]; [|discriminate]. injection G as <-. exists a0. split; reflexivity.
    + apply start_shape.
Qed.

(** What is known about a macro action. *)
Definition macro_facts (mp : binding) (ps : list string) (m : action) : Prop :=
  exists group grouping, actions_of dom0 group /\ action_set group /\ group <> [] /\ groups_over grouping group /\ NoDup (concat grouping) /\
    mp = generate_macro_mappings grouping group /\ ps = dict_keys (a_sig m) /\ a_sig m = generate_macro_action_signature group mp /\
    macro_safe real mp group m.

Section After.
Variables (M2 M3 : ma_learner).
Hypothesis I2 : ma_inv dom0 real no_remove js M2.
Hypothesis SH : table_shape dom0 (m_cnfs M2).
Hypothesis C3 : m_cnfs M3 = m_cnfs M2.
Hypothesis K3 : dict_keys (d_actions (s_dom (m_sam M3))) = names0.
Hypothesis A3 : forall n a0, dict_get (d_actions dom0) n = Some a0 ->
    exists a, dict_get (d_actions (s_dom (m_sam M3))) n = Some a /\ a_name a = n /\ learned_action dom0 js a0 a.
Notation acts3 := (d_actions (s_dom (m_sam M3))).
Notation cs := (m_cnfs M3).

Lemma act3 n a : dict_get acts3 n = Some a -> exists a0, dict_get (d_actions dom0) n = Some a0 /\ a_name a = n /\ learned_action dom0 js a0 a.
Proof.
  intros G. assert (Hk : In n names0) by (rewrite <- K3; eapply dict_get_key; eassumption). apply dict_get_Some_iff in Hk. destruct Hk as [a0 G0].
  destruct (A3 n a0 G0) as (a' & Ga & H1 & H2). rewrite G in Ga. injection Ga as <-. eauto.
Qed.

Lemma group_facts groups group : extract_relevant_action_groups (s_dom (m_sam M3)) cs (m_unsafe M3) = Ok groups -> In group groups ->
  (forall a, In a group -> exists a0, dict_get (d_actions dom0) (a_name a) = Some a0 /\ learned_action dom0 js a0 a) /\ NoDup (map a_name group) /\
  exists ns, In ns (generate_supersets (relevant_action_groups (s_dom (m_sam M3)) cs (m_unsafe M3))) /\ map a_name group = ns.
Proof.
  unfold extract_relevant_action_groups. intros E Hin. apply map_res_Ok in E.
  assert (Hg : exists ns, In ns (generate_supersets (relevant_action_groups (s_dom (m_sam M3)) cs (m_unsafe M3))) /\ map_res (dict_lookup acts3) ns = Ok group).
  { clear -E Hin. induction E as [|ns g nss gs E _ IH]; [destruct Hin|]. destruct Hin as [->|Hin]; [exists ns; simpl; auto|].
    destruct (IH Hin) as (x & H1 & H2). exists x; simpl; auto. }
  destruct Hg as (ns & Hns & Eg). apply map_res_Ok in Eg.
  assert (Hf : map a_name group = ns /\ forall a, In a group -> exists a0, dict_get (d_actions dom0) (a_name a) = Some a0 /\ learned_action dom0 js a0 a).
  { clear -Eg A3 K3. induction Eg as [|n a ns group E _ [IH1 IH2]]; [split; [reflexivity|intros a []]|]. apply lookup_get in E.
    destruct (act3 n a E) as (a0 & G0 & Hn & Hl). split; [cbn [map]; congruence|]. intros b [<-|Hb]; [|auto]. exists a0. rewrite Hn. auto. }
  destruct Hf as [Hf1 Hf2]. split; [assumption|]. split; [|exists ns; auto]. rewrite Hf1.
  unfold generate_supersets in Hns. apply in_flat_map in Hns. destruct Hns as (r & _ & Hns). apply in_map_iff in Hns. destruct Hns as (c & <- & _). apply to_set_NoDup.
Qed.

Lemma macro_step uuid P group P' :
  (forall a, In a group -> exists a0, dict_get (d_actions dom0) (a_name a) = Some a0 /\ learned_action dom0 js a0 a) -> NoDup (map a_name group) -> group <> [] ->
  construct_macro uuid cs P group = Ok P' ->
  exists n m mp, p_mapping P' = dict_set (p_mapping P) n (dict_keys (a_sig m), mp) /\ d_actions (p_dom P') = dict_set (d_actions (p_dom P)) n m /\
    n = generate_macro_action_name uuid (sort_text (fun n => n) (map a_name group)) (p_names P) /\
    macro_facts mp (dict_keys (a_sig m)) m.
Proof.
  intros Hgrp Hnd Hne E. unfold construct_macro in E. apply bind_Ok in E. destruct E as (grouping & Eg & E). apply bind_Ok in E. destruct E as (pre & Epre & E).
  apply bind_Ok in E. destruct E as (eff & Eeff & E). injection E as <-. cbn [p_mapping p_dom set_actions d_actions].
  set (names := sort_text (fun n => n) (map a_name group)) in *. set (mp := generate_macro_mappings grouping group) in *.
  set (n := generate_macro_action_name uuid names (p_names P)). set (m := mkAct n (generate_macro_action_signature group mp) pre [] eff).
  exists n, m, mp. split; [reflexivity|]. split; [reflexivity|]. split; [reflexivity|].
  assert (Hn : forall x, In x names <-> In x (map a_name group)) by (intros x; apply sort_In).
  rewrite C3 in *.
  assert (Hs : action_set group) by (eapply group_set; eassumption).
  assert (Ho : groups_over grouping group) by (eapply group_over; eassumption).
  assert (Hlast : forall j, In j js -> joint_learnable j -> seen_by_last dom0 real j) by (intros j H1 H2; apply Hjs; assumption).
  exists group, grouping. split.
  - intros a Ha. destruct (Hgrp a Ha) as (a0 & G0 & Es & _). eauto.
  - split; [assumption|]. split; [assumption|]. split; [assumption|]. split.
    { eapply (grouping_spec (m_cnfs M2) names grouping) in Eg; [destruct Eg as (gg & _ & _ & G & _); exact G|]. intros cl Hcl. eapply clause_readable; eassumption. }
    split; [reflexivity|]. split; [reflexivity|]. split; [reflexivity|].
    intros sg s. cbv zeta. intros Hinj Hfree [Happ _]. cbn [m a_pre] in Happ. split.
    + intros c Hc. apply in_map_iff in Hc. destruct Hc as (a & <- & Ha). destruct (group_real dom0 real js RD group Hgrp a Ha) as (r & Er & Es).
      exists r. split; [assumption|]. intros l Hl. eapply (real_pre_true dom0 real no_remove js M2); eassumption.
    + intros p args. eapply (macro_outcome dom0 real no_remove js M2); try eassumption. reflexivity.
Qed.

Definition plus_inv (P : plus) : Prop :=
  (forall n ps mp, dict_get (p_mapping P) n = Some (ps, mp) -> exists m, dict_get (d_actions (p_dom P)) n = Some m /\ macro_facts mp ps m) /\
  forall n, dict_get (p_mapping P) n = None -> dict_get (d_actions (p_dom P)) n = dict_get acts3 n.

Lemma supersets_nonempty dom unsafe ns : In ns (generate_supersets (relevant_action_groups dom cs unsafe)) ->
  (forall g, In g (relevant_action_groups dom cs unsafe) -> g <> []) -> ns <> [].
Proof.
  intros Hin Hg. apply supersets_sound in Hin. destruct Hin as (sub & Hne & Hi & Hu). destruct sub as [|g sub]; [contradiction|].
  assert (Hgn : g <> []) by (apply Hg, Hi; left; reflexivity). destruct g as [|x g]; [contradiction|].
  assert (Hx : In x ns) by (apply Hu; exists (x :: g); split; left; reflexivity). intros ->. destruct Hx.
Qed.

(** The groups of clauses that mention an unsafe action. *)
Lemma relevant_groups_facts g : In g (relevant_action_groups (s_dom (m_sam M3)) cs (m_unsafe M3)) ->
  exists cl, In cl (flat_map (fun kc : (string * bool) * cnf => n_clauses (snd kc)) cs) /\ 1 < length cl /\
    forall n, In n g <-> In n names0 /\ In n (map fst cl).
Proof.
  unfold relevant_action_groups. intros Hg.
  assert (Hkeys : map (fun na : string * action => a_name (snd na)) acts3 = names0).
  { rewrite <- K3. unfold dict_keys. apply map_ext_in. intros [n a] Hin. cbn [fst snd]. apply dict_In_get in Hin; [|rewrite K3; apply (wf_acts _ W)].
    destruct (act3 n a Hin) as (_ & _ & H & _). assumption. }
  rewrite Hkeys in Hg. revert Hg.
  assert (G : forall cls groups, incl cls (flat_map (fun kc : (string * bool) * cnf => n_clauses (snd kc)) cs) ->
    (forall g, In g groups -> exists cl, In cl (flat_map (fun kc : (string * bool) * cnf => n_clauses (snd kc)) cs) /\ 1 < length cl /\ forall n, In n g <-> In n names0 /\ In n (map fst cl)) ->
    In g (fold_left (fun groups clause =>
               let clause_actions := map fst clause in
               if (1 <? length clause) && existsb (fun n => memb n clause_actions) (m_unsafe M3) then
                 let group := filter (fun n => memb n clause_actions) names0 in
                 if existsb (set_eqb group) groups then groups else groups ++ [group]
               else groups) cls groups) ->
    exists cl, In cl (flat_map (fun kc : (string * bool) * cnf => n_clauses (snd kc)) cs) /\ 1 < length cl /\ forall n, In n g <-> In n names0 /\ In n (map fst cl)).
  { induction cls as [|cl cls IH]; intros groups Hi Hgs; cbn [fold_left]; [auto|]. apply IH; [intros x Hx; apply Hi; right; assumption|]. cbv zeta.
    match goal with |- forall g0, In g0 (if ?c then if ?d then _ else _ else _) -> _ => destruct c eqn:E; [|assumption]; destruct d; [assumption|] end.
    intros g' Hg'. apply in_app_iff in Hg'. destruct Hg' as [Hg'|[<-|[]]]; [auto|]. exists cl. split; [apply Hi; left; reflexivity|].
    apply andb_true_iff in E. destruct E as [E _]. apply Nat.ltb_lt in E. split; [assumption|]. intros n. rewrite filter_In, memb_In. reflexivity. }
  apply (G _ []); [apply incl_refl|intros g' []].
Qed.

Lemma relevant_group_two g : In g (relevant_action_groups (s_dom (m_sam M3)) cs (m_unsafe M3)) -> exists x y, x <> y /\ In x g /\ In y g.
Proof.
  intros Hg. destruct (relevant_groups_facts g Hg) as (cl & Hcl & Hl & Hi). rewrite C3 in Hcl. apply in_flat_map in Hcl. destruct Hcl as ([key k] & Hk & Hcl). cbn [snd] in Hcl.
  assert (Hd : distinct js) by (intros j H1 H2; apply Hjs; assumption).
  assert (Hnd := tk_once _ _ _ _ _ (mi_table _ _ _ _ _ I2) Hd key k cl Hk Hcl).
  assert (Hkn := proj2 (proj2 (SH key k Hk) cl Hcl)).
  destruct cl as [|[x l] [|[y l'] cl]]; simpl in Hl; try lia. exists x, y. cbn [map fst] in *. apply NoDup_cons_iff in Hnd. destruct Hnd as [Hnd _].
  split; [intros ->; apply Hnd; left; reflexivity|]. split; apply Hi; (split; [|simpl; auto]).
  - apply (Hkn x l); left; reflexivity.
  - apply (Hkn y l'); right; left; reflexivity.
Qed.
Lemma superset_names ns : In ns (generate_supersets (relevant_action_groups (s_dom (m_sam M3)) cs (m_unsafe M3))) ->
  incl ns names0 /\ NoDup ns /\ 2 <= length ns.
Proof.
  intros Hin. assert (Hnd : NoDup ns).
  { unfold generate_supersets in Hin. apply in_flat_map in Hin. destruct Hin as (r & _ & Hin). apply in_map_iff in Hin. destruct Hin as (c & <- & _). apply to_set_NoDup. }
  apply supersets_sound in Hin. destruct Hin as (sub & Hne & Hi & Hu). split; [|split; [assumption|]].
  - intros n Hn. apply Hu in Hn. destruct Hn as (g & Hg & Hx). destruct (relevant_groups_facts g (Hi g Hg)) as (cl & _ & _ & H). apply H; assumption.
  - destruct sub as [|g sub]; [contradiction|]. destruct (relevant_group_two g (Hi g (or_introl eq_refl))) as (x & y & Hxy & Hx & Hy).
    assert (Hx' : In x ns) by (apply Hu; exists g; split; [left; reflexivity|assumption]). assert (Hy' : In y ns) by (apply Hu; exists g; split; [left; reflexivity|assumption]).
    destruct ns as [|u [|v ns]]; [destruct Hx'| |simpl; lia]. destruct Hx' as [<-|[]], Hy' as [<-|[]]. contradiction.
Qed.

Lemma macros_fold uuids groups P :
  extract_relevant_action_groups (s_dom (m_sam M3)) cs (m_unsafe M3) = Ok groups ->
  fold_res (fun P (ig : nat * list action) => construct_macro (uuids (fst ig)) cs P (snd ig)) (combine (seq 0 (length groups)) groups)
    (mkPlus (s_dom (m_sam M3)) (s_safe (m_sam M3)) (s_observed (m_sam M3)) [] []) = Ok P -> plus_inv P.
Proof.
  intros Eg. apply (fold_res_ind plus_inv).
  - intros P1 [i group] P2 Hin [Inv1 Inv2] E. cbn [fst snd] in E. apply in_combine_r in Hin.
    destruct (group_facts groups group Eg Hin) as (F1 & F2 & ns & F3 & F4).
    assert (Hne : group <> []) by (intros ->; destruct (superset_names ns F3) as (_ & _ & Hl); subst ns; simpl in Hl; lia).
    destruct (macro_step _ P1 group P2 F1 F2 Hne E) as (n & m & mp & Em & Ea & _ & Hf). split.
    + intros n' ps mp'. rewrite Em, Ea, !dict_get_set. destruct (eq_dec n' n) as [->|]; [|apply Inv1]. intros Eq. injection Eq as <- <-. eauto.
    + intros n'. rewrite Em, Ea, !dict_get_set. destruct (eq_dec n' n); [discriminate|apply Inv2].
  - split; [discriminate|reflexivity].
Qed.

(** Nothing fails when macro names are new. *)
Lemma macro_total uuid P group : (forall n, In n names0 -> dict_get (d_actions (p_dom P)) n = dict_get acts3 n) ->
  (forall a, In a group -> exists a0, dict_get (d_actions dom0) (a_name a) = Some a0 /\ learned_action dom0 js a0 a) -> NoDup (map a_name group) ->
  exists P', construct_macro uuid cs P group = Ok P'.
Proof.
  intros HP Hgrp Hnd. unfold construct_macro. rewrite C3. set (names := sort_text (fun n => n) (map a_name group)).
  assert (Hn : forall x, In x names <-> In x (map a_name group)) by (intros x; apply sort_In).
  assert (Hread : forall cl, In cl (flat_map (fun kc : (string * bool) * cnf => n_clauses (snd kc)) (m_cnfs M2)) -> cl <> [] /\ exists len, readable len cl).
  { intros cl Hcl. eapply clause_readable; eassumption. }
  assert (Eg : exists grouping, extract_relevant_parameter_groupings (m_cnfs M2) names = Ok grouping).
  { unfold extract_relevant_parameter_groupings. match goal with |- context [map_res ?f ?l] => destruct (map_res_exists f l) as [gg Egg] end.
    - intros cl Hcl. apply filter_In in Hcl. destruct Hcl as [Hcl _]. destruct (Hread cl Hcl) as [Hne [len Hr]].
      destruct (group_params_spec len cl Hne Hr) as (gs & E & _). eauto.
    - rewrite Egg. cbn [bind]. destruct (combine_spec (concat gg)) as (classes & E & _); [|eauto]. intros g Hg.
      apply in_concat in Hg. destruct Hg as (gs & Hgs & Hg). apply map_res_Ok in Egg.
      assert (Hcl : exists cl, In cl (flat_map (fun kc : (string * bool) * cnf => n_clauses (snd kc)) (m_cnfs M2)) /\ group_params_from_clause cl = Ok gs).
      { assert (Hx : exists cl, In cl (filter (fun clause => forallb (fun p : cpair => memb (fst p) names) clause) (flat_map (fun kc : (string * bool) * cnf => n_clauses (snd kc)) (m_cnfs M2))) /\ group_params_from_clause cl = Ok gs).
        { clear -Egg Hgs. induction Egg as [|cl g0 cls gg E _ IH]; [destruct Hgs|]. destruct Hgs as [->|Hgs]; [exists cl; simpl; auto|].
          destruct (IH Hgs) as (c & H1 & H2). exists c; simpl; auto. }
        destruct Hx as (cl & H1 & H2). apply filter_In in H1. exists cl. split; [apply H1|assumption]. }
      destruct Hcl as (cl & Hcl & E). destruct (Hread cl Hcl) as [Hne [len Hr]]. destruct (group_params_spec len cl Hne Hr) as (gs' & E' & L & N & I').
      assert (gs' = gs) by congruence. subst gs'. split; [auto|]. apply (In_nth _ _ []) in Hg. destruct Hg as (j & Hj & <-).
      destruct cl as [|[n l] cl]; [contradiction|]. destruct (Hr n l) as [_ Hlen]; [left; reflexivity|].
      destruct (nth_error (l_args l) j) as [p|] eqn:Ep; [|apply nth_error_None in Ep; lia].
      assert (Hin : In (n, p) (nth j gs [])) by (apply I'; exists l; simpl; auto). intros E0. rewrite E0 in Hin. destruct Hin. }
  destruct Eg as [grouping Eg]. rewrite Eg. cbn [bind]. set (mp := generate_macro_mappings grouping group).
  assert (Hs : action_set group) by (eapply group_set; eassumption).
  assert (Ho : groups_over grouping group) by (eapply group_over; eassumption).
  assert (Hadapt : forall n l, In n (map a_name group) -> text_literal l -> (forall x, In x (l_args l) -> exists a0, dict_get (d_actions dom0) n = Some a0 /\ In x (dict_keys (a_sig a0))) ->
    exists l', adapt_from_text (p_dom P) n l mp = Ok l').
  { intros n l Hin Ht Ha. apply in_map_iff in Hin. destruct Hin as (a & <- & Hin). destruct (Hgrp a Hin) as (a0 & G0 & Es & _).
    assert (Hk : In (a_name a) names0) by (eapply dict_get_key; eassumption).
    destruct (A3 (a_name a) a0 G0) as (a3 & Ga3 & _ & Es3 & _). apply (adapt_total (p_dom P) (a_name a) l mp a3).
    - rewrite HP by assumption. assumption.
    - assumption.
    - intros x Hx. destruct (Ha x Hx) as (a0' & G0' & Hx'). rewrite G0 in G0'. injection G0' as <-. rewrite Es3. assumption.
    - intros x Hx. destruct (Ha x Hx) as (a0' & G0' & Hx'). rewrite G0 in G0'. injection G0' as <-.
      apply dict_get_Some_iff. apply (proj2 (mapping_maps_all grouping group Hs Ho)). exists a. rewrite Es. auto. }
  assert (Hpair : forall cl n l, In cl (flat_map (fun kc : (string * bool) * cnf => n_clauses (snd kc)) (m_cnfs M2)) -> In (n, l) cl ->
    text_literal l /\ forall x, In x (l_args l) -> exists a0, dict_get (d_actions dom0) n = Some a0 /\ In x (dict_keys (a_sig a0))).
  { intros cl n l Hcl Hin. assert (C := clause_literals dom0 real no_remove js M2 RD MD I2 SH cl Hcl). destruct C as (p & b & len & Hc).
    destruct (Hc n l Hin) as (_ & _ & _ & H4 & _ & H6). auto. }
  assert (Hincl : forall key k, In (key, k) (m_cnfs M2) -> incl (n_clauses k) (flat_map (fun kc : (string * bool) * cnf => n_clauses (snd kc)) (m_cnfs M2))).
  { intros key k Hk cl Hcl. apply in_flat_map. exists (key, k). auto. }
  assert (Hn' : forall x, In x (map a_name group) <-> In x names) by (intros x; symmetry; apply Hn).
  assert (Epre : exists pre, extract_preconditions_for_macro (p_dom P) (m_cnfs M2) group grouping mp = Ok pre).
  { unfold extract_preconditions_for_macro.
    destruct (map_res_exists (fun kc : (string * bool) * cnf => extract_macro_action_preconditions (snd kc) (map a_name group) grouping) (m_cnfs M2)) as [vague Ev].
    - intros [key k] Hk. cbn [snd]. unfold extract_macro_action_preconditions. assert (Hi := Hincl key k Hk). revert Hi. generalize (n_clauses k), (@nil cpair).
      induction l as [|cl cls IH]; intros acc Hi; cbn [fold_res]; [eauto|].
      destruct (consistent_iff (m_cnfs M2) names grouping Hread Eg cl (map a_name group) Hn') as (b & Eb & _); [apply Hi; left; reflexivity|]. rewrite Eb. cbn [bind].
      apply IH. intros x Hx. apply Hi; right; assumption.
    - rewrite Ev. cbn [bind].
      destruct (map_res_exists (fun p : cpair => adapt_from_text (p_dom P) (fst p) (snd p) mp) (concat vague)) as [p1 E1].
      + intros [n l] Hin. cbn [fst snd]. apply in_concat in Hin. destruct Hin as (out & Hout & Hin). apply map_res_Ok in Ev.
        assert (Hk : exists kc, In kc (m_cnfs M2) /\ extract_macro_action_preconditions (snd kc) (map a_name group) grouping = Ok out).
        { clear -Ev Hout. induction Ev as [|kc o l1 l2 E _ IH]; [destruct Hout|]. destruct Hout as [->|Hout]; [exists kc; simpl; auto|].
          destruct (IH Hout) as (x & H1 & H2). exists x; simpl; auto. }
        destruct Hk as ([key k] & Hk & Eo). cbn [snd] in Eo.
        apply (macro_pre_In (m_cnfs M2) names grouping Hread Eg k (map a_name group) out Hn' (Hincl key k Hk) Eo) in Hin.
        destruct Hin as (cl & H1 & _ & H3 & H4). destruct (Hpair cl n l (Hincl key k Hk cl H1) H3) as [T1 T2]. apply Hadapt; [apply Hn'; exact H4|assumption|assumption].
      + rewrite E1. cbn [bind].
        destruct (map_res_exists (fun p : cpair => adapt_from_text (p_dom P) (fst p) (snd p) mp) (flat_map (fun a => map (fun l => (a_name a, l)) (a_pre a)) group)) as [p2 E2].
        * intros [n l] Hin. cbn [fst snd]. apply in_flat_map in Hin. destruct Hin as (a & Ha & Hin). apply in_map_iff in Hin. destruct Hin as (l0 & Eq & Hl). injection Eq as <- <-.
          destruct (Hgrp a Ha) as (a0 & G0 & Es & Hp). apply Hp in Hl. destruct Hl as [Hm _].
          destruct (no_consts_mention dom0 MD _ _ Hm) as (N1 & N2 & psig & N3). assert (Hpn := md_preds _ MD _ _ N3). apply Hadapt.
          -- apply in_map; assumption.
          -- constructor; [apply Hpn|apply Hpn| |assumption]. apply Forall_forall. intros x Hx. apply parameter_word. eapply md_params; [exact MD|exact G0|]. apply N2; assumption.
          -- intros x Hx. exists a0. split; [assumption|]. apply N2; assumption.
        * rewrite E2. cbn [bind]. eauto. }
  destruct Epre as [pre Epre]. rewrite Epre. cbn [bind].
  assert (Eeff : exists eff, extract_effects_for_macro (p_dom P) (m_cnfs M2) group grouping mp = Ok eff).
  { unfold extract_effects_for_macro.
    destruct (map_res_exists (fun kc : (string * bool) * cnf => extract_macro_action_effects (snd kc) (map a_name group) (flat_map a_pre group) grouping) (m_cnfs M2)) as [effs Ev].
    - intros [key k] Hk. cbn [snd]. unfold extract_macro_action_effects. assert (Hi := Hincl key k Hk). revert Hi. generalize (n_clauses k), (@nil cpair).
      induction l as [|cl cls IH]; intros acc Hi; cbn [fold_res]; [eauto|].
      destruct (consistent_iff (m_cnfs M2) names grouping Hread Eg cl (map a_name group) Hn') as (b & Eb & _); [apply Hi; left; reflexivity|]. rewrite Eb. cbn [bind].
      apply IH. intros x Hx. apply Hi; right; assumption.
    - rewrite Ev. cbn [bind].
      destruct (map_res_exists (fun p : cpair => adapt_from_text (p_dom P) (fst p) (snd p) mp) (concat effs)) as [p1 E1].
      + intros [n l] Hin. cbn [fst snd]. apply in_concat in Hin. destruct Hin as (out & Hout & Hin). apply map_res_Ok in Ev.
        assert (Hk : exists kc, In kc (m_cnfs M2) /\ extract_macro_action_effects (snd kc) (map a_name group) (flat_map a_pre group) grouping = Ok out).
        { clear -Ev Hout. induction Ev as [|kc o l1 l2 E _ IH]; [destruct Hout|]. destruct Hout as [->|Hout]; [exists kc; simpl; auto|].
          destruct (IH Hout) as (x & H1 & H2). exists x; simpl; auto. }
        destruct Hk as ([key k] & Hk & Eo). cbn [snd] in Eo.
        apply (macro_effects_In (m_cnfs M2) names grouping Hread Eg k (map a_name group) (flat_map a_pre group) out Hn' (Hincl key k Hk) Eo) in Hin.
        destruct Hin as (cl & H1 & H2 & H3 & _). destruct (Hpair cl n l (Hincl key k Hk cl H1) H3) as [T1 T2]. apply Hadapt; [apply Hn'; apply (H2 (n, l) H3)|assumption|assumption].
      + rewrite E1. cbn [bind]. eauto. }
  destruct Eeff as [eff Eeff]. rewrite Eeff. cbn [bind]. eauto.
Qed.

Lemma macros_total uuids : no_name_clash dom0 uuids -> NoDup (m_unsafe M3) -> incl (m_unsafe M3) names0 -> exists r, construct_safe_macro_actions uuids M3 = Ok r.
Proof.
  intros Hnc Hnd Hin. unfold construct_safe_macro_actions.
  assert (Eg : exists groups, extract_relevant_action_groups (s_dom (m_sam M3)) cs (m_unsafe M3) = Ok groups).
  { unfold extract_relevant_action_groups. apply map_res_exists. intros ns Hns. destruct (superset_names ns Hns) as (Hi & _ & _). apply map_res_exists.
    intros n Hn. assert (Hk : In n (dict_keys acts3)) by (rewrite K3; apply Hi; assumption). apply dict_get_Some_iff in Hk. destruct Hk as [a Ga].
    unfold dict_lookup. rewrite Ga. eauto. }
  destruct Eg as [groups Eg]. rewrite Eg. cbn [bind].
  assert (Hf : forall igs P, (forall ig, In ig igs -> In (snd ig) groups) -> (forall n, In n names0 -> dict_get (d_actions (p_dom P)) n = dict_get acts3 n) ->
    exists P', fold_res (fun P (ig : nat * list action) => construct_macro (uuids (fst ig)) cs P (snd ig)) igs P = Ok P' /\
      forall n, In n names0 -> dict_get (d_actions (p_dom P')) n = dict_get acts3 n).
  { induction igs as [|[i group] igs IH]; intros P Hi HP; cbn [fold_res fst snd]; [eauto|].
    destruct (group_facts groups group Eg (Hi (i, group) (or_introl eq_refl))) as (F1 & F2 & ns & F3 & F4).
    destruct (superset_names ns F3) as (S1 & S2 & S3).
    assert (Hne : group <> []) by (intros ->; subst ns; simpl in S3; lia).
    destruct (macro_total (uuids i) P group HP F1 F2) as [P1 E1]. rewrite E1. cbn [bind].
    destruct (macro_step _ P group P1 F1 F2 Hne E1) as (n & m & mp & _ & Ea & En & _).
    apply IH; [intros ig Hig; apply Hi; right; assumption|]. intros n' Hn'. rewrite Ea, dict_get_set. destruct (eq_dec n' n) as [->|]; [|auto]. exfalso.
    set (sorted := sort_text (fun n => n) (map a_name group)) in *.
    assert (Hp : Permutation sorted ns) by (unfold sorted; rewrite F4; apply sort_perm).
    destruct (Hnc sorted) as [N1 N2].
    - intros x Hx. apply S1. eapply Permutation_in; eassumption.
    - eapply Permutation_NoDup; [apply Permutation_sym; exact Hp|assumption].
    - rewrite (Permutation_length Hp). assumption.
    - unfold generate_macro_action_name in En. destruct (memb (String.concat "-" sorted) (p_names P)).
      + apply (N2 i). rewrite <- En. assumption.
      + apply N1. rewrite <- En. assumption. }
  destruct (Hf (combine (seq 0 (length groups)) groups) (mkPlus (s_dom (m_sam M3)) (s_safe (m_sam M3)) (s_observed (m_sam M3)) [] [])) as (P & EP & HP).
  - intros [i g] Hig. apply in_combine_r in Hig. assumption.
  - reflexivity.
  - rewrite EP. cbn [bind]. destruct (pop_all (m_unsafe M3) (d_actions (p_dom P)) Hnd) as (d' & Ed & _).
    + intros n Hn. apply dict_get_Some_iff. rewrite HP by (apply Hin; assumption). apply dict_get_Some_iff. rewrite K3. apply Hin; assumption.
    + rewrite Ed. cbn [bind]. eauto.
Qed.
(** Every group of a clause that mentions an unsafe action is a candidate. *)
Lemma relevant_group_found cl u : In cl (flat_map (fun kc : (string * bool) * cnf => n_clauses (snd kc)) cs) -> 1 < length cl ->
  In u (m_unsafe M3) -> In u (map fst cl) ->
  exists g, In g (relevant_action_groups (s_dom (m_sam M3)) cs (m_unsafe M3)) /\ forall n, In n g <-> In n names0 /\ In n (map fst cl).
Proof.
  intros Hcl Hl Hu Huc. unfold relevant_action_groups.
  assert (Hkeys : map (fun na : string * action => a_name (snd na)) acts3 = names0).
  { rewrite <- K3. unfold dict_keys. apply map_ext_in. intros [n a] Hin. cbn [fst snd]. apply dict_In_get in Hin; [|rewrite K3; apply (wf_acts _ W)].
    destruct (act3 n a Hin) as (_ & _ & H & _). assumption. }
  rewrite Hkeys. match goal with |- context [fold_left ?f _ _] => set (step := f) end.
  assert (Mono : forall cls groups g, In g groups -> In g (fold_left step cls groups)).
  { induction cls as [|c cls IH]; intros groups g Hg; cbn [fold_left]; [assumption|]. apply IH. unfold step. cbv zeta.
    match goal with |- In _ (if ?c then if ?d then _ else _ else _) => destruct c; [|assumption]; destruct d; [assumption|] end. apply in_app_iff; left; assumption. }
  assert (Found : forall cls groups, In cl cls -> exists g, In g (fold_left step cls groups) /\ forall n, In n g <-> In n names0 /\ In n (map fst cl)).
  { induction cls as [|c cls IH]; intros groups Hin; [destruct Hin|]. cbn [fold_left]. destruct Hin as [->|Hin]; [|apply IH; assumption].
    assert (Hstep : exists g, In g (step groups cl) /\ forall n, In n g <-> In n names0 /\ In n (map fst cl)).
    { unfold step. cbv zeta. set (group := filter (fun n => memb n (map fst cl)) names0).
      assert (Hg : forall n, In n group <-> In n names0 /\ In n (map fst cl)) by (intros n; unfold group; rewrite filter_In, memb_In; reflexivity).
      match goal with |- context [if ?c then if ?d then _ else _ else _] => destruct c eqn:E; [destruct d eqn:E'|] end.
      - apply existsb_exists in E'. destruct E' as (g & Hin & E'). exists g. split; [assumption|]. intros n. rewrite <- Hg.
        apply andb_true_iff in E'. destruct E' as [E1 E2]. apply subsetb_incl in E1, E2. split; [apply E2|apply E1].
      - exists group. split; [apply in_app_iff; right; left; reflexivity|assumption].
      - exfalso. apply andb_false_iff in E. destruct E as [E|E]; [apply Nat.ltb_ge in E; exact (Nat.lt_irrefl _ (Nat.lt_le_trans _ _ _ Hl E))|].
        assert (Ht : existsb (fun n => memb n (map fst cl)) (m_unsafe M3) = true) by (apply existsb_exists; exists u; split; [assumption|apply memb_In; assumption]).
        rewrite Ht in E. discriminate. }
    destruct Hstep as (g & Hg & Hi). exists g. split; [apply Mono; assumption|assumption]. }
  apply Found; assumption.
Qed.

Lemma macros_named uuids groups P : extract_relevant_action_groups (s_dom (m_sam M3)) cs (m_unsafe M3) = Ok groups ->
  fold_res (fun P (ig : nat * list action) => construct_macro (uuids (fst ig)) cs P (snd ig)) (combine (seq 0 (length groups)) groups)
    (mkPlus (s_dom (m_sam M3)) (s_safe (m_sam M3)) (s_observed (m_sam M3)) [] []) = Ok P ->
  forall group, In group groups -> In (String.concat "-" (sort_text (fun n => n) (map a_name group))) (dict_keys (p_mapping P)).
Proof.
  intros Eg E.
  assert (G : forall igs P0 P', fold_res (fun P (ig : nat * list action) => construct_macro (uuids (fst ig)) cs P (snd ig)) igs P0 = Ok P' ->
    incl (p_names P0) (dict_keys (p_mapping P0)) ->
    incl (dict_keys (p_mapping P0)) (dict_keys (p_mapping P')) /\
    forall i group, In (i, group) igs -> In (String.concat "-" (sort_text (fun n => n) (map a_name group))) (dict_keys (p_mapping P'))).
  { induction igs as [|[i group] igs IH]; intros P0 P' E0 Hi; cbn [fold_res] in E0; [injection E0 as <-; split; [apply incl_refl|intros i g []]|].
    cbn [fst snd] in E0. apply bind_Ok in E0. destruct E0 as (P1 & E1 & E0). unfold construct_macro in E1. apply bind_Ok in E1. destruct E1 as (gr & _ & E1).
    apply bind_Ok in E1. destruct E1 as (pre & _ & E1). apply bind_Ok in E1. destruct E1 as (eff & _ & E1).
    set (name := generate_macro_action_name (uuids i) (sort_text (fun n => n) (map a_name group)) (p_names P0)) in *.
    assert (Hk : forall k, In k (dict_keys (p_mapping P1)) <-> k = name \/ In k (dict_keys (p_mapping P0))).
    { intros k. injection E1 as <-. cbn [p_mapping]. rewrite dict_set_keys_In. tauto. }
    destruct (IH P1 P' E0) as [H1 H2].
    { intros k Hin. apply Hk. injection E1 as <-. cbn [p_names] in Hin. apply in_app_iff in Hin. destruct Hin as [Hin|[<-|[]]]; [right; apply Hi; assumption|left; reflexivity]. }
    split; [intros k Hin; apply H1, Hk; right; assumption|]. intros i' g [Eq|Hin]; [|eapply H2; eassumption]. injection Eq as <- <-. apply H1, Hk.
    unfold name, generate_macro_action_name. destruct (memb (String.concat "-" (sort_text (fun n => n) (map a_name group))) (p_names P0)) eqn:Em; [|left; reflexivity].
    right. apply Hi, memb_In; assumption. }
  intros group Hin. destruct (G _ _ _ E) as [_ H2]; [intros k []|]. destruct (In_nth _ _ [] Hin) as (i & Hi & En).
  apply (H2 i). rewrite <- En. replace (i, nth i groups []) with (nth i (combine (seq 0 (length groups)) groups) (0, [])).
  - apply nth_In. rewrite combine_length, seq_length. lia.
  - rewrite combine_nth by apply seq_length. rewrite seq_nth by assumption. reflexivity.
Qed.
End After.

Section Result.
Variables (uuids : nat -> string).

Theorem macros_succeed : no_name_clash dom0 uuids -> exists r, learn_with_macros uuids (init_ma dom0 no_remove) obs = Ok r.
Proof.
  intros Hnc. destruct before_macros as (M2 & M3 & E2 & E3 & I2 & S2 & C3 & P3 & D3 & K3 & N3 & U3 & A3).
  unfold learn_with_macros. cbv zeta. rewrite E2. cbn [bind]. rewrite E3. cbn [bind].
  destruct (macros_total M2 M3 I2 S2 C3 K3 (fun n a0 G => match A3 n a0 G with ex_intro _ a (conj H1 (conj H2 (conj H3 _))) => ex_intro _ a (conj H1 (conj H2 H3)) end) uuids Hnc N3 U3) as [[M4 mp] E4].
  rewrite E4. cbn [bind]. eauto.
Qed.

Variables (M : ma_learner) (rep : list (string * verdict)) (mapping : list (string * mapping_element)).
Hypothesis HM : learn_with_macros uuids (init_ma dom0 no_remove) obs = Ok (M, rep, mapping).

Lemma result_actions n m : dict_get (d_actions (s_dom (m_sam M))) n = Some m ->
  (forall ps mp, dict_get mapping n = Some (ps, mp) -> macro_facts mp ps m) /\
  (dict_get mapping n = None -> exists M2 a0, ma_inv dom0 real no_remove js M2 /\ dict_get (d_actions dom0) n = Some a0 /\ kept_action dom0 js (m_cnfs M2) n a0 m).
Proof.
  intros G. destruct before_macros as (M2 & M3 & E2 & E3 & I2 & S2 & C3 & P3 & D3 & K3 & N3 & U3 & A3).
  unfold learn_with_macros in HM. cbv zeta in HM. rewrite E2 in HM. cbn [bind] in HM. rewrite E3 in HM. cbn [bind] in HM.
  apply bind_Ok in HM. destruct HM as ([M4 mp4] & E4 & E). injection E as <- _ <-.
  unfold construct_safe_macro_actions in E4. apply bind_Ok in E4. destruct E4 as (groups & Eg & E4). apply bind_Ok in E4. destruct E4 as (P & EP & E4).
  apply bind_Ok in E4. destruct E4 as (acts & Ea & E4). injection E4 as <- <-. cbn [m_sam with_sam] in G.
  unfold handle_negative_preconditions_policy in G. cbn [s_policy] in G. rewrite P3 in G. cbn [s_dom set_actions d_actions] in G.
  assert (A3' : forall n a0, dict_get (d_actions dom0) n = Some a0 ->
    exists a, dict_get (d_actions (s_dom (m_sam M3))) n = Some a /\ a_name a = n /\ learned_action dom0 js a0 a).
  { intros n' a0 G0. destruct (A3 n' a0 G0) as (a & H1 & H2 & H3 & _). eauto. }
  destruct (macros_fold M2 M3 I2 S2 C3 K3 A3' uuids groups P Eg EP) as [Inv1 Inv2].
  assert (Hpop : dict_get (d_actions (p_dom P)) n = Some m /\ ~ In n (m_unsafe M3)).
  { clear -Ea G. revert Ea G. generalize (d_actions (p_dom P)). induction (m_unsafe M3) as [|u us IH]; intros d E G; cbn [fold_res] in E.
    - injection E as <-. split; [assumption|intros []].
    - apply bind_Ok in E. destruct E as (d1 & E1 & E). apply bind_Ok in E1. destruct E1 as (x & _ & E1). injection E1 as <-.
      destruct (IH _ E G) as [H1 H2]. rewrite dict_pop_get in H1. destruct (eq_dec n u) as [->|Hne]; [discriminate|]. split; [assumption|]. intros [->|Hin]; [contradiction|auto]. }
  destruct Hpop as [Gp Hu]. split.
  - intros ps mp Gm. destruct (Inv1 n ps mp Gm) as (m' & Gm' & Hf). rewrite Gp in Gm'. injection Gm' as <-. assumption.
  - intros Gm. rewrite (Inv2 n Gm) in Gp. assert (Hk : In n names0) by (rewrite <- K3; eapply dict_get_key; eassumption).
    apply dict_get_Some_iff in Hk. destruct Hk as [a0 G0]. destruct (A3 n a0 G0) as (a & Ga & _ & _ & Hkept). rewrite Gp in Ga. injection Ga as <-.
    exists M2, a0. auto.
Qed.

(** Actions that are not macro actions are safe. *)
Lemma ordinary_safe n m r : dict_get (d_actions (s_dom (m_sam M))) n = Some m -> dict_get mapping n = None -> real n = Some r -> safe_for dom0 m r.
Proof.
  intros G Gm Er. destruct (proj2 (result_actions n m G) Gm) as (M2 & a0 & I2 & G0 & Ka).
  eapply (ma_safety dom0 real no_remove RD js M2 n a0 m r); eauto.
  - intros j H1 H2. apply Hjs; assumption.
  - intros j H1 H2. apply Hjs; assumption.
Qed.

Lemma macro_result n m ps mp : dict_get (d_actions (s_dom (m_sam M))) n = Some m -> dict_get mapping n = Some (ps, mp) ->
  exists group, actions_of dom0 group /\ NoDup (map a_name group) /\ group <> [] /\ maps_all mp group /\ ps = dict_keys (a_sig m) /\
    (forall v, In v ps <-> exists k, dict_get mp k = Some v) /\ macro_safe real mp group m.
Proof.
  intros G Gm. destruct (proj1 (result_actions n m G) ps mp Gm) as (group & grouping & H1 & H2 & H3 & H4 & H5 & -> & -> & H8 & H9).
  exists group. split; [assumption|]. split; [apply H2|]. split; [assumption|]. split; [apply mapping_maps_all; assumption|]. split; [reflexivity|].
  split; [|assumption]. intros v. rewrite H8, signature_keys by assumption. split.
  - intros (act & p & _ & _ & E). eauto.
  - intros ([a p] & E). assert (Hk : In (a, p) (dict_keys (generate_macro_mappings grouping group))) by (eapply dict_get_key; eassumption).
    apply (mapping_maps_all grouping group H2 H4) in Hk. destruct Hk as (act & K1 & <- & K3). eauto.
Qed.

(** Expansion of a line of a plan over the learned actions. *)
Lemma macro_plan n m ps mp objs : dict_get (d_actions (s_dom (m_sam M))) n = Some m -> dict_get mapping n = Some (ps, mp) ->
  token n -> Forall token objs -> length objs = length (a_sig m) ->
  exists group lines, actions_of dom0 group /\ NoDup (map a_name group) /\ macro_safe real mp group m /\
    extract_actions_from_macro_action (call_line (mkCall n objs)) mapping = Ok lines /\ NoDup lines /\
    forall line, In line lines <-> exists c, In c (map (micro_call mp (bind_objects ps objs)) group) /\ line = call_line c.
Proof.
  intros G Gm Hn Ho Hl. destruct (proj1 (result_actions n m G) ps mp Gm) as (group & grouping & H1 & H2 & H3 & H4 & H5 & -> & -> & H8 & H9).
  destruct (macro_expansion grouping group mapping n objs H2 H4) as (lines & E & Hnd & Hlines).
  - rewrite Gm, H8. reflexivity.
  - assumption.
  - assumption.
  - rewrite Hl, H8. unfold dict_keys. rewrite map_length. reflexivity.
  - exists group, lines. split; [assumption|]. split; [apply H2|]. split; [assumption|]. split; [assumption|]. split; [assumption|].
    intros line. rewrite Hlines, <- H8. split.
    + intros (act & Ha & _ & ->). exists (micro_call (generate_macro_mappings grouping group) (bind_objects (dict_keys (a_sig m)) objs) act).
      split; [apply in_map; assumption|reflexivity].
    + intros (c & Hc & ->). apply in_map_iff in Hc. destruct Hc as (act & <- & Ha). exists act. split; [assumption|]. split; [|reflexivity].
      destruct (H1 act Ha) as (a0 & G0 & Es). rewrite Es. eapply md_some; eassumption.
Qed.
(** Every clause that leaves an action unsafe gives a macro action of the actions of the clause. *)
Lemma macros_built key k cl u : no_name_clash dom0 uuids -> In (key, k) (m_cnfs M) -> In cl (n_clauses k) -> 1 < length cl -> In u (m_unsafe M) -> In u (map fst cl) ->
  exists ns m ps mp, (forall x, In x ns <-> In x (map fst cl)) /\ dict_get mapping (String.concat "-" ns) = Some (ps, mp) /\
    dict_get (d_actions (s_dom (m_sam M))) (String.concat "-" ns) = Some m.
Proof.
  intros Hnc Hk Hcl Hl Hu Huc. destruct before_macros as (M2 & M3 & E2 & E3 & I2 & S2 & C3 & P3 & D3 & K3 & N3 & U3 & A3).
  unfold learn_with_macros in HM. cbv zeta in HM. rewrite E2 in HM. cbn [bind] in HM. rewrite E3 in HM. cbn [bind] in HM.
  apply bind_Ok in HM. destruct HM as ([M4 mp4] & E4 & E). injection E as <- _ <-.
  unfold construct_safe_macro_actions in E4. apply bind_Ok in E4. destruct E4 as (groups & Eg & E4). apply bind_Ok in E4. destruct E4 as (P & EP & E4).
  apply bind_Ok in E4. destruct E4 as (acts & Ea & E4). injection E4 as <- <-. cbn [m_sam with_sam m_cnfs m_unsafe] in *.
  unfold handle_negative_preconditions_policy. cbn [s_policy]. rewrite P3. cbn [s_dom set_actions d_actions].
  assert (A3' : forall n a0, dict_get (d_actions dom0) n = Some a0 ->
    exists a, dict_get (d_actions (s_dom (m_sam M3))) n = Some a /\ a_name a = n /\ learned_action dom0 js a0 a).
  { intros n' a0 G0. destruct (A3 n' a0 G0) as (a & H1 & H2 & H3 & _). eauto. }
  destruct (macros_fold M2 M3 I2 S2 C3 K3 A3' uuids groups P Eg EP) as [Inv1 _].
  assert (Hcl' : In cl (flat_map (fun kc : (string * bool) * cnf => n_clauses (snd kc)) (m_cnfs M3))) by (apply in_flat_map; exists (key, k); auto).
  destruct (relevant_group_found M3 K3 A3' cl u Hcl' Hl Hu Huc) as (g & Hg & Hgi).
  destruct (supersets_complete _ [g] (ltac:(discriminate)) (incl_cons Hg (incl_nil_l _))) as (ns & Hns & Hnsi).
  destruct (superset_names M2 M3 I2 S2 C3 K3 A3' ns Hns) as (S1' & S2' & S3').
  assert (Hgroup : exists group, In group groups /\ map a_name group = ns).
  { unfold extract_relevant_action_groups in Eg. apply map_res_Ok in Eg. clear -Eg Hns A3' K3. 
    induction Eg as [|ns0 g0 nss gs E _ IH]; [destruct Hns|]. destruct Hns as [->|Hns]; [|destruct (IH Hns) as (x & H1 & H2); exists x; simpl; auto].
    exists g0. split; [left; reflexivity|]. apply map_res_Ok in E. clear IH. induction E as [|n a ns group E _ IH]; [reflexivity|]. apply lookup_get in E.
    destruct (act3 M3 K3 A3' n a E) as (_ & _ & Hn & _). cbn [map]. congruence. }
  destruct Hgroup as (group & Hin & En). assert (Hkey := macros_named M3 uuids groups P Eg EP group Hin).
  set (sorted := sort_text (fun n => n) (map a_name group)) in *.
  assert (Hp : Permutation sorted ns) by (unfold sorted; rewrite En; apply sort_perm).
  apply dict_get_Some_iff in Hkey. destruct Hkey as [[ps mp] Gm]. destruct (Inv1 _ _ _ Gm) as (m & Gp & _).
  exists sorted, m, ps, mp. split; [|split; [assumption|]].
  - intros x. split; intros Hx.
    + apply (Permutation_in _ Hp) in Hx. apply Hnsi in Hx. destruct Hx as (g' & [<-|[]] & Hx). apply Hgi; assumption.
    + apply (Permutation_in _ (Permutation_sym Hp)). apply Hnsi. exists g. split; [left; reflexivity|]. apply Hgi. split; [|assumption].
      rewrite C3 in Hk. apply in_map_iff in Hx. destruct Hx as ([n l] & <- & Hx). apply (proj2 (proj2 (S2 key k Hk) cl Hcl) n l Hx).
  - destruct (pop_all (m_unsafe M3) (d_actions (p_dom P)) N3) as (d' & Ed & Hd).
    + intros n Hn. clear -Ea N3 Hn. revert Ea N3. generalize (d_actions (p_dom P)). induction (m_unsafe M3) as [|v us IH]; intros d E Nd; [destruct Hn|]. cbn [fold_res] in E.
      apply bind_Ok in E. destruct E as (d1 & E1 & E). apply bind_Ok in E1. destruct E1 as (x & Ex & E1). apply lookup_get in Ex. injection E1 as <-.
      destruct Hn as [->|Hn]; [eapply dict_get_key; eassumption|]. apply NoDup_cons_iff in Nd. destruct Nd as [_ Nd]. specialize (IH Hn _ E Nd).
      apply dict_get_Some_iff in IH. destruct IH as [y Ey]. rewrite dict_pop_get in Ey. destruct (eq_dec n v); [discriminate|]. eapply dict_get_key; eassumption.
    + rewrite Ed in Ea. injection Ea as <-. rewrite Hd. destruct (memb (String.concat "-" sorted) (m_unsafe M3)) eqn:Em; [|assumption]. exfalso.
      apply memb_In, U3 in Em. destruct (Hnc sorted) as [N1 _]; [| | |apply N1; assumption].
      * intros x Hx. apply S1'. eapply Permutation_in; eassumption.
      * eapply Permutation_NoDup; [apply Permutation_sym; exact Hp|assumption].
      * rewrite (Permutation_length Hp). assumption.
Qed.
End Result.
End Whole.
