(** * Executable checks for actions with conditional effects (used by the examples) *)
From Verif Require Import PreludeProofs SamModel SamSpec SamProofs StripsExec VocabProofs Checks SamFinal LogicProofs DepProofs CondModel CondSpec CondProofs CondFinal.

Definition lit_atb (s : state) (sg : assignment) (l : literal) : bool := lit_trueb s (ground sg l).
Lemma lit_atb_true s sg l : lit_atb s sg l = true <-> lit_at s sg l.
Proof. apply lit_trueb_true. Qed.

Definition fired (rs : list crule) (s : state) (sg : assignment) : list literal :=
  map r_then (filter (fun r => forallb (lit_atb s sg) (r_when r)) rs).
Lemma fired_In rs s sg l : In l (fired rs s sg) <-> fires rs s sg l.
Proof.
  unfold fired, fires. rewrite in_map_iff. setoid_rewrite filter_In. setoid_rewrite forallb_forall. setoid_rewrite lit_atb_true.
  split; intros (r & H); exists r; tauto.
Qed.
Definition c_exec (rs : list crule) (sg : assignment) (s : state) : state :=
  exec (mkAct EmptyString [] [] [] (fired rs s sg)) sg s.
Lemma c_exec_after rs sg s n args : holds (c_exec rs sg s) n args <-> c_after rs s sg n args.
Proof.
  unfold c_exec. rewrite (exec_result (mkAct EmptyString [] [] [] (fired rs s sg)) sg s n args).
  assert (E : forall b, (exists l, In l (fired rs s sg) /\ l_pos l = b /\ ground sg l = mkLit n args b) <->
                        exists l, fires rs s sg l /\ ground sg l = mkLit n args b).
  { intros b. split; intros (l & H).
    - exists l. rewrite fired_In in H. tauto.
    - exists l. rewrite fired_In. destruct H as [H1 H2]. split; [assumption|]. split; [|assumption].
      change (l_pos l) with (l_pos (ground sg l)). rewrite H2. reflexivity. }
  unfold after, c_after. cbn [a_eff]. pose proof (E true) as E1. pose proof (E false) as E2. tauto.
Qed.

Fixpoint f_holdsb (v : literal -> bool) (f : form literal) : bool :=
  match f with
  | f_lit l => v l
  | f_and fs => (fix all (fs : list (form literal)) : bool := match fs with [] => true | g :: gs => f_holdsb v g && all gs end) fs
  | f_or fs => (fix any (fs : list (form literal)) : bool := match fs with [] => false | g :: gs => f_holdsb v g || any gs end) fs
  end.
Lemma f_holdsb_true (v : literal -> bool) (P : literal -> Prop) : (forall l, v l = true <-> P l) ->
  forall f, f_holdsb v f = true <-> f_holds P f.
Proof.
  intros H. fix IH 1. intros [l|fs|fs]; cbn [f_holdsb f_holds]; [apply H| |].
  - induction fs as [|g gs IHg]; [tauto|]. rewrite andb_true_iff, IH, IHg. reflexivity.
  - induction fs as [|g gs IHg]; [split; [discriminate|tauto]|]. rewrite orb_true_iff, IH, IHg. reflexivity.
Qed.
Definition k_applicableb (k : cact) (s : state) (sg : assignment) : bool :=
  forallb (f_holdsb (lit_atb s sg)) (k_root k) && forallb (fun p => negb (eqb (sg (fst p)) (sg (snd p)))) (k_ineq k).
Lemma k_applicableb_true k s sg : k_applicableb k s sg = true <-> k_applicable k s sg.
Proof.
  unfold k_applicableb, k_applicable. rewrite andb_true_iff, !forallb_forall.
  setoid_rewrite (f_holdsb_true (lit_atb s sg) (lit_at s sg) (lit_atb_true s sg)). split.
  - intros [H1 H2]. split; [assumption|]. intros x y Hxy. specialize (H2 _ Hxy). cbn [fst snd] in H2.
    apply negb_true_iff, eqb_false in H2. assumption.
  - intros [H1 H2]. split; [assumption|]. intros [x y] Hxy. cbn [fst snd].
    apply negb_true_iff, (PreludeProofs.eqb_neq (sg x) (sg y)); auto.
Qed.

(** A real domain given as a list of actions; opposite effects of an action need contradictory conditions. *)
Definition creal_check (dom : domain) (max : nat) (reals : list (string * caction)) : bool :=
  forallb (fun na => match dict_get reals (fst na) with Some q => eqb (q_sig q) (a_sig (snd na)) | None => false end) (d_actions dom) &&
  forallb (fun nq => let q := snd nq in
     nodupb (map fst (q_sig q ++ d_consts dom)) &&
     forallb (fun l => memb l (lifted_vocabulary dom (q_sig q) None)) (q_pre q ++ flat_map (fun r => r_then r :: r_when r) (q_rules q)) &&
     forallb (fun r => nodupb (r_when r) && (length (r_when r) <=? max) &&
        forallb (fun r' => (negb (eqb (r_then r) (r_then r')) || set_eqb (r_when r) (r_when r')) &&
                           (negb (eqb (neg_lit (r_then r)) (r_then r')) ||
                            existsb (fun x => memb (neg_lit x) (q_pre q ++ r_when r')) (q_pre q ++ r_when r))) (q_rules q)) (q_rules q)) reals.
Lemma creal_check_ok dom max reals : creal_check dom max reals = true -> real_conditional dom max (dict_get reals).
Proof.
  unfold creal_check. rewrite andb_true_iff, !forallb_forall. intros [H1 H2].
  assert (H3 : forall n q, dict_get reals n = Some q ->
     (forall l, In l (q_pre q ++ flat_map (fun r => r_then r :: r_when r) (q_rules q)) -> mentionable dom (q_sig q) l) /\
     (forall r, In r (q_rules q) -> NoDup (r_when r) /\ length (r_when r) <= max /\
        forall r', In r' (q_rules q) -> (r_then r = r_then r' -> same_sets (r_when r) (r_when r')) /\
           (neg_lit (r_then r) = r_then r' -> exists x, In x (q_pre q ++ r_when r) /\ In (neg_lit x) (q_pre q ++ r_when r')))).
  { intros n q G. apply dict_get_In in G. specialize (H2 _ G). cbn [snd] in H2. cbv zeta in H2. rewrite !andb_true_iff, !forallb_forall in H2.
    destruct H2 as [[E1 E2] E3]. apply nodupb_true in E1. split.
    - intros l Hl. specialize (E2 _ Hl). apply memb_In in E2. apply (lifted_vocabulary_exact dom (q_sig q) None l E1) in E2. apply E2.
    - intros r Hr. specialize (E3 _ Hr). rewrite !andb_true_iff, forallb_forall in E3. destruct E3 as [[F1 F2] F3].
      split; [apply nodupb_true; assumption|]. split; [apply Nat.leb_le; assumption|].
      intros r' Hr'. specialize (F3 _ Hr'). rewrite andb_true_iff, !orb_true_iff, !negb_true_iff in F3. destruct F3 as [F3 F4]. split.
      + intros E. destruct F3 as [F3|F3]; [apply eqb_false in F3; contradiction|]. exact (proj1 (set_eqb_iff _ _) F3).
      + intros E. destruct F4 as [F4|F4]; [apply eqb_false in F4; contradiction|]. apply existsb_exists in F4.
        destruct F4 as (x & Hx & Hm). apply memb_In in Hm. eauto. }
  assert (Hm : forall n q r, dict_get reals n = Some q -> In r (q_rules q) ->
     mentionable dom (q_sig q) (r_then r) /\ forall x, In x (r_when r) -> mentionable dom (q_sig q) x).
  { intros n q r G Hr. destruct (H3 n q G) as [E1 _]. split; [|intros x Hx]; apply E1, in_app_iff; right; apply in_flat_map; exists r; simpl; auto. }
  constructor.
  - intros n a G. apply dict_get_In in G. specialize (H1 _ G). simpl in H1. destruct (dict_get reals n) as [q|]; [|discriminate].
    apply eqb_true in H1. eauto.
  - intros n q l G Hl. apply (H3 n q G), in_app_iff; auto.
  - intros n q r G Hr. exact (proj1 (Hm n q r G Hr)).
  - intros n q r x G Hr Hx. apply (Hm n q r G Hr); assumption.
  - intros n q r G Hr. destruct (H3 n q G) as [_ E]. destruct (E r Hr) as (A & B & _). auto.
  - intros n q r r' G Hr Hr' E. destruct (H3 n q G) as [_ E']. apply (E' r Hr); assumption.
  - intros n q sg s l G _ Hpre (r & Hr & <- & Hw) (r' & Hr' & E & Hw'). destruct (H3 n q G) as [_ E'].
    destruct (E' r Hr) as (_ & _ & F). destruct (F r' Hr') as [_ F2]. destruct (F2 (eq_sym E)) as (x & Hx & Hx').
    assert (A : lit_at s sg x) by (apply in_app_iff in Hx; destruct Hx; auto).
    assert (B : lit_at s sg (neg_lit x)) by (apply in_app_iff in Hx'; destruct Hx'; auto).
    unfold lit_at in *. rewrite ground_neg, lit_true_neg in B. contradiction.
Qed.

(** Executing a call in the real domain. *)
Definition c_comp (reals : list (string * caction)) (sc : state * call) : component :=
  match dict_get reals (c_name (snd sc)) with
  | Some q => mkComp (fst sc) (snd sc) (c_exec (q_rules q) (call_assignment (q_sig q) (snd sc)) (fst sc)) true
  | None => mkComp (fst sc) (snd sc) (fst sc) false
  end.
Definition cdata_check (dom : domain) (reals : list (string * caction)) (data : list (state * call)) : bool :=
  forallb (fun sc => match dict_get reals (c_name (snd sc)) with
                     | Some q => forallb (lit_atb (fst sc) (call_assignment (q_sig q) (snd sc))) (q_pre q)
                     | None => false
                     end &&
                     match dict_get (d_actions dom) (c_name (snd sc)) with
                     | Some a => Nat.eqb (length (c_params (snd sc))) (length (a_sig a))
                     | None => false
                     end && nodupb (c_params (snd sc)) &&
                     forallb (fun o => negb (memb o (dict_keys (d_consts dom)))) (c_params (snd sc))) data.
Lemma c_comp_call reals sc : cp_call (c_comp reals sc) = snd sc.
Proof. unfold c_comp. destruct (dict_get _ _); reflexivity. Qed.
Lemma cdata_check_ok dom reals data : cdata_check dom reals data = true ->
  (forall cp, In cp (map (c_comp reals) data) -> real_step (dict_get reals) cp) /\ good_history dom (map (c_comp reals) data).
Proof.
  unfold cdata_check. rewrite forallb_forall. intros H. split; intros cp Hin; apply in_map_iff in Hin; destruct Hin as (sc & <- & Hin);
    specialize (H _ Hin); rewrite !andb_true_iff in H; destruct H as [[[H1 H2] H3] H4].
  - unfold c_comp, real_step. destruct (dict_get reals (c_name (snd sc))) as [q|] eqn:E; [|discriminate].
    exists q. cbn [cp_call cp_prev cp_next]. split; [assumption|]. cbv zeta. rewrite forallb_forall in H1. split.
    + intros x Hx. apply lit_atb_true. auto.
    + intros n args. apply c_exec_after.
  - rewrite c_comp_call. split; [|split].
    + destruct (dict_get (d_actions dom) (c_name (snd sc))) as [a|] eqn:E; [|discriminate].
      exists a. split; [assumption|]. apply Nat.eqb_eq; assumption.
    + apply nodupb_true; assumption.
    + intros o Ho. rewrite forallb_forall in H4. apply memb_nIn, negb_true_iff, H4; assumption.
Qed.

(** The two situations excluded by the safety theorem, checked on the learner's own data. *)
Definition pruned_of (C : clearner) (n : string) : list literal * list literal * list (literal * list (list literal)) :=
  match dict_get (d_actions (s_dom (c_sam C))) n, dict_get (c_deps C) n, dict_get (c_obs C) n with
  | Some a, Some D, Some obs => (to_set (a_pre a), obs, possible (remove_preconditions_literals D (to_set (a_pre a))))
  | _, _, _ => ([], [], [])
  end.
Definition guess_check (C : clearner) (n : string) : bool :=
  let '(pre, obs, ps) := pruned_of C n in
  forallb (fun lc => match snd lc with
                     | [c] => memb (fst lc) obs || memb (fst lc) c || existsb (fun x => memb (neg_lit x) pre) c
                     | _ => true
                     end) ps.
Definition lost_check (C : clearner) (n : string) : bool :=
  let '(pre, obs, ps) := pruned_of C n in
  forallb (fun lc => negb (memb (fst lc) obs && (2 <=? length (snd lc)))) ps ||
  forallb (fun lc => negb (memb (fst lc) obs && (length (snd lc) =? 1))) ps.

Lemma pruned_facts dom inj max policy cps n a0 C :
  wf_domain dom -> blank_domain dom -> good_history dom cps -> dict_get (d_actions dom) n = Some a0 -> (exists cp, about cps n cp) ->
  cond_observe dom max policy inj cps = Ok C ->
  exists D1, snd (pruned_of C n) = possible D1 /\ pruned dom (a_sig a0) max cps n D1 /\
    (forall l, In l (snd (fst (pruned_of C n))) <-> observed_effect dom (a_sig a0) cps n l) /\
    (forall l, In l (fst (fst (pruned_of C n))) <-> always_before dom (a_sig a0) cps n l).
Proof.
  intros W B GH G Hex E. destruct (observe_inv dom inj max policy cps W B GH) as (C' & E' & I). rewrite E in E'. injection E' as <-.
  destruct (cv_act _ _ _ _ _ I n a0 G) as (a & Ga & Ia). destruct (cv_deps _ _ _ _ _ I n a0 G Hex) as (D & ED & HD).
  destruct (cv_obs _ _ _ _ _ I n a0 G) as (obs & EO & HO).
  unfold pruned_of. rewrite Ga, ED, EO. cbn [fst snd]. exists (remove_preconditions_literals D (to_set (a_pre a))).
  assert (Hpre : forall l, In l (to_set (a_pre a)) <-> always_before dom (a_sig a0) cps n l).
  { intros l. rewrite to_set_In, (ci_pre _ _ _ _ _ _ Ia). tauto. }
  split; [reflexivity|]. split; [|split; [exact HO|exact Hpre]].
  apply prune; [exact (sig_names dom n a0 W G)|exact HD|apply to_set_NoDup|exact Hpre].
Qed.
Lemma guess_check_ok dom inj max policy cps n a0 C :
  wf_domain dom -> blank_domain dom -> good_history dom cps -> dict_get (d_actions dom) n = Some a0 -> (exists cp, about cps n cp) ->
  cond_observe dom max policy inj cps = Ok C -> guess_check C n = true ->
  forall l, ~ unseen_guess dom (a_sig a0) max cps n l.
Proof.
  intros W B GH G Hex E Hc l (Hm & Hna & Hno & c & Ho & Hl & Hn).
  destruct (pruned_facts dom inj max policy cps n a0 C W B GH G Hex E) as (D1 & ED & PD & HO & HP).
  unfold guess_check in Hc. destruct (pruned_of C n) as [[pre obs] ps]. cbn [fst snd] in *. subst ps. rewrite forallb_forall in Hc.
  assert (Hk : In l (dict_keys (possible D1))) by (apply (pd_keys _ _ _ _ _ _ PD); auto).
  apply dict_get_Some_iff in Hk. destruct Hk as (cands & Ec). specialize (Hc _ (dict_get_In _ _ _ Ec)). cbn [fst snd] in Hc.
  destruct (cand_cases dom (a_sig a0) max cps n D1 l cands PD Ec) as [[_ H0]|[(d & -> & H0)|[_ H0]]].
  - eapply none_not_only; eassumption.
  - rewrite !orb_true_iff, !memb_In, existsb_exists in Hc. assert (Hs := proj2 Ho d (proj1 H0)).
    destruct Hc as [[H|H]|(x & Hx & H)].
    + apply Hno, HO; assumption.
    + apply Hl, Hs; assumption.
    + apply (Hn x); [apply Hs; assumption|]. apply HP, memb_In; assumption.
  - eapply only_unique; eassumption.
Qed.
Lemma lost_check_ok dom inj max policy cps n a0 C :
  wf_domain dom -> blank_domain dom -> good_history dom cps -> dict_get (d_actions dom) n = Some a0 -> (exists cp, about cps n cp) ->
  cond_observe dom max policy inj cps = Ok C -> lost_check C n = true ->
  forall l, ~ lost_restriction dom (a_sig a0) max cps n l.
Proof.
  intros W B GH G Hex E Hc l (Hm & Hna & Ho & Hs & l' & c & Ho' & Hna' & Hoc).
  destruct (pruned_facts dom inj max policy cps n a0 C W B GH G Hex E) as (D1 & ED & PD & HO & HP).
  unfold lost_check in Hc. destruct (pruned_of C n) as [[pre obs] ps]. cbn [fst snd] in *. subst ps. rewrite orb_true_iff, !forallb_forall in Hc.
  assert (Hk : In l (dict_keys (possible D1))) by (apply (pd_keys _ _ _ _ _ _ PD); auto).
  assert (Hk' : In l' (dict_keys (possible D1))) by (apply (pd_keys _ _ _ _ _ _ PD); destruct Ho'; auto).
  apply dict_get_Some_iff in Hk. destruct Hk as (cands & Ec). apply dict_get_Some_iff in Hk'. destruct Hk' as (cands' & Ec').
  destruct Hc as [Hc|Hc].
  - specialize (Hc _ (dict_get_In _ _ _ Ec)). cbn [fst snd] in Hc. rewrite (proj2 (memb_In _ _)) in Hc by (apply HO; assumption).
    destruct (cand_cases dom (a_sig a0) max cps n D1 l cands PD Ec) as [[_ H0]|[(d & -> & H0)|[H0 _]]].
    + eapply none_not_several; eassumption.
    + eapply only_unique; eassumption.
    + apply Nat.leb_le in H0. rewrite H0 in Hc. discriminate.
  - specialize (Hc _ (dict_get_In _ _ _ Ec')). cbn [fst snd] in Hc. rewrite (proj2 (memb_In _ _)) in Hc by (apply HO; assumption).
    destruct (cand_cases dom (a_sig a0) max cps n D1 l' cands' PD Ec') as [[_ H0]|[(d & -> & H0)|[_ H0]]].
    + eapply none_not_only; eassumption.
    + discriminate.
    + eapply only_unique; eassumption.
Qed.
