(** * Proofs: what Numeric SAM learns for an action depends on the observations of that action only *)
From Coq Require Import Lia ListDec.
From Verif Require Import NsamSpec VocabProofs SamProofs SamFinal SamResults NsamMatch NsamStore NsamHull NsamSafe NsamLoop NsamProofs Prelude PreludeProofs.
Open Scope string_scope. Open Scope list_scope. Open Scope nat_scope.

Lemma fold_res_ext {A B} (f g : A -> B -> res A) l : forall a, (forall a b, f a b = g a b) -> fold_res f l a = fold_res g l a.
Proof. induction l as [|b l IH]; intros a H; [reflexivity|]. cbn. rewrite H. destruct (g a b); [apply IH; exact H|reflexivity]. Qed.
Lemma match_same d1 d2 c fl a1 a2 : d_funcs d1 = d_funcs d2 -> d_consts d1 = d_consts d2 -> dict_get (d_actions d1) (c_name c) = Some a1 -> dict_get (d_actions d2) (c_name c) = Some a2 ->
  a_sig a1 = a_sig a2 -> match_state_functions d1 c fl = match_state_functions d2 c fl.
Proof.
  intros EF EC G1 G2 ES. unfold match_state_functions. rewrite EF. apply fold_res_ext. intros m (f & s). unfold match_function. rewrite EC. destruct (_ && _); [reflexivity|]. destruct s as [|x s]; [reflexivity|].
  apply fold_res_ext. intros m' t. destruct (dict_get fl t) as [v|]; [|reflexivity]. unfold dict_lookup. rewrite G1, G2. cbn [bind]. unfold lift_matched_parameters. rewrite ES, EC. reflexivity.
Qed.

Section Own.
Variable le : text -> text -> bool.
Variable dom : domain.
Variables (relevant : option (list (string * list text))) (unsafe : bool) (degree : nat) (policy : neg_policy).
Hypothesis WF : wf_domain dom.
Hypothesis PF : proper_functions dom.

Definition own_step (a0 : action) (s : option storage) (cp : ncomponent) : res (option storage) :=
  let c := cp_call (nc_comp cp) in
  let objs := combine (c_params c) (map snd (a_sig a0)) ++ d_consts dom in
  let s0 := match s with Some s => s | None => init_storage le (lifted_functions_vocabulary dom (a_sig a0) None) degree end in
  let* s' := store dom c s0 (numeric_state_snapshot (nc_prev cp) objs) (numeric_state_snapshot (nc_next cp) objs) in Ok (Some s').
Definition own (cps : list ncomponent) (N : nlearner) : Prop :=
  forall n a0, dict_get (d_actions dom) n = Some a0 -> fold_res (own_step a0) (evid n cps) None = Ok (dict_get (n_storage N) n).

Lemma own_nstep cps N cp N' : ninv le dom relevant unsafe degree policy cps N -> own cps N -> (cp_ok (nc_comp cp) = true -> good_arity dom (cp_call (nc_comp cp))) -> (learnable (nc_comp cp) -> no_constant_args dom (cp_call (nc_comp cp))) ->
  ncomp_step le N cp = Ok N' -> own (cps ++ [cp]) N'.
Proof.
  intros [I R0 U0 D0 SN SS] O Har Hnc E n a0 G. rewrite evid_snoc. unfold ncomp_step in E.
  destruct (cp_ok (nc_comp cp)) eqn:OK; [|injection E as <-; unfold tells; rewrite OK; apply O, G].
  destruct (sam_step dom true policy (map nc_comp cps) (n_sam N) (nc_comp cp) WF I ltac:(intros _; exact (Har eq_refl)) Hnc) as (L' & EL & I'). rewrite OK in EL. cbn iota in EL.
  destruct (Har eq_refl) as (b0 & G0 & LEN). set (c := cp_call (nc_comp cp)) in *. destruct (si_act _ _ _ _ _ I _ _ G0) as (a & Ga & Ia). pose proof (ai_sig _ _ _ _ _ _ Ia) as SG.
  unfold handle_ncomponent in E. unfold handle_component in EL. fold c in E, EL. destruct (verify_parameter_duplication (n_sam N) c) as [(L1 & dup)|] eqn:EV; [|discriminate]. cbn [bind] in E, EL.
  unfold verify_parameter_duplication in EV. destruct (contains_duplicates (c_params c)) eqn:DP.
  { assert (dup = true) as -> by (destruct (dict_lookup _ _); [|discriminate]; cbn [bind] in EV; injection EV as _ <-; reflexivity). injection E as <-. unfold tells. fold c. rewrite DP, andb_false_r. apply O, G. }
  injection EV as <- <-. rewrite (dict_lookup_Some _ _ _ Ga) in E. cbn [bind] in E. destruct (triplet_snapshot (s_dom (n_sam N)) (cp_prev (nc_comp cp)) (cp_next (nc_comp cp)) c) as [(prev & next)|]; [|discriminate]. cbn [bind] in E, EL.
  assert (OB : parameterized_objects (s_dom (n_sam N)) a c = combine (c_params c) (map snd (a_sig b0)) ++ d_consts dom) by (unfold parameterized_objects; rewrite SG, (si_dom _ _ _ _ _ I); reflexivity).
  rewrite OB in E. assert (TELL : tells n cp = Prelude.eqb (c_name c) n) by (unfold tells; fold c; rewrite OK, DP; reflexivity). rewrite TELL.
  assert (OBS : memb (c_name c) (s_observed (n_sam N)) = true <-> evid (c_name c) cps <> []) by (rewrite memb_In, (si_obs _ _ _ _ _ I), evid_evidence; reflexivity).
  destruct (si_act _ _ _ _ _ I' _ _ G0) as (a' & Ga' & Ia'). pose proof (ai_sig _ _ _ _ _ _ Ia') as SG'.
  assert (MS : forall fl, match_state_functions (s_dom L') c fl = match_state_functions dom c fl).
  { intros fl. eapply match_same; [rewrite (si_dom _ _ _ _ _ I'); reflexivity|rewrite (si_dom _ _ _ _ _ I'); reflexivity|exact Ga'|exact G0|exact SG']. }
  assert (DONE : forall s s', (if evid (c_name c) cps then s = init_storage le (lifted_functions_vocabulary dom (a_sig b0) None) degree else dict_get (n_storage N) (c_name c) = Some s) ->
    store (s_dom L') c s (numeric_state_snapshot (nc_prev cp) (combine (c_params c) (map snd (a_sig b0)) ++ d_consts dom)) (numeric_state_snapshot (nc_next cp) (combine (c_params c) (map snd (a_sig b0)) ++ d_consts dom)) = Ok s' ->
    fold_res (own_step a0) (if Prelude.eqb (c_name c) n then evid n cps ++ [cp] else evid n cps) None = Ok (dict_get (dict_set (n_storage N) (c_name c) s') n)).
  { intros s s' HS ST. rewrite dict_get_set. destruct (eq_dec n (c_name c)) as [->|NE].
    - rewrite PreludeProofs.eqb_refl. rewrite fold_res_app. rewrite (O _ _ G). cbn [fold_res bind]. assert (b0 = a0) by congruence. subst b0. unfold own_step. fold c.
      unfold store in ST |- *. rewrite !MS in ST.
      replace (match dict_get (n_storage N) (c_name c) with Some s0 => s0 | None => _ end) with s.
      2:{ destruct (evid (c_name c) cps) eqn:EE; [|rewrite HS; reflexivity]. rewrite (SN _ (dict_get_key _ _ _ G0) EE). exact HS. }
      destruct (match_state_functions dom c _) as [m1|]; [|discriminate]. cbn [bind] in ST |- *. destruct (match_state_functions dom c _) as [m2|]; [|discriminate]. cbn [bind] in ST |- *. injection ST as <-. reflexivity.
    - replace (Prelude.eqb (c_name c) n) with false by (symmetry; apply PreludeProofs.eqb_neq; congruence). apply O, G. }
  destruct (memb (c_name c) (s_observed (n_sam N))) eqn:MB.
  - rewrite EL in E. cbn [bind] in E. unfold dict_lookup in E. destruct (dict_get (n_storage N) (c_name c)) as [s|] eqn:GS; [|discriminate]. cbn [bind] in E. destruct (store _ _ _ _ _) as [s'|] eqn:ST; [|discriminate]. cbn [bind] in E. injection E as <-.
    cbn [n_storage with_storage with_sam]. apply (DONE s s'); [|exact ST]. destruct (evid (c_name c) cps); [destruct (proj1 OBS eq_refl); reflexivity|first [exact GS|reflexivity]].
  - rewrite EL in E. cbn [bind] in E. destruct (store _ _ _ _ _) as [s'|] eqn:ST; [|discriminate]. cbn [bind] in E. injection E as <-. cbn [n_storage with_storage with_sam]. eapply DONE; [|exact ST].
    destruct (evid (c_name c) cps) eqn:X; [|assert (false = true); [apply OBS; discriminate|discriminate]]. rewrite SG, D0. rewrite (si_dom _ _ _ _ _ I'). reflexivity.
Qed.
Lemma own_loop cps0 N cps N' : loop_inputs dom cps -> ninv le dom relevant unsafe degree policy cps0 N -> own cps0 N -> fold_res (ncomp_step le) cps N = Ok N' -> own (cps0 ++ cps) N'.
Proof.
  revert cps0 N. induction cps as [|cp cps IH]; intros cps0 N (Hg & Hn & CF) I O E; [injection E as <-; rewrite app_nil_r; exact O|].
  cbn [fold_res] in E. destruct (ncomp_step le N cp) as [N1|] eqn:E1; [|discriminate]. cbn [bind] in E.
  destruct (nstep le dom relevant unsafe degree policy WF PF cps0 N cp I) as (N1' & E1' & I1); [apply Hg; left; reflexivity|apply Hn; left; reflexivity|intros a0; apply CF; left; reflexivity|].
  unfold ncomp_step in E1. rewrite E1' in E1. injection E1 as ->.
  replace (cps0 ++ cp :: cps) with ((cps0 ++ [cp]) ++ cps) by (rewrite <- app_assoc; reflexivity).
  apply (IH (cps0 ++ [cp]) N1); [split; [intros c C; apply Hg; right; exact C|split; [intros c C; apply Hn; right; exact C|intros c a0 C; apply CF; right; exact C]]|exact I1| |exact E].
  apply (own_nstep cps0 N cp N1 I O); [apply Hg; left; reflexivity|apply Hn; left; reflexivity|unfold ncomp_step; exact E1'].
Qed.
End Own.

Lemma of_action_evid n obs : of_action n obs = evid n (concat obs).
Proof.
  unfold of_action, evid. apply filter_ext. intros cp. unfold tells. f_equal; [f_equal|].
  - destruct (NoDup_dec string_dec (c_params (cp_call (nc_comp cp)))) as [H|H]; symmetry; [apply negb_true_iff, contains_duplicates_spec; exact H|apply negb_false_iff].
    destruct (contains_duplicates (c_params (cp_call (nc_comp cp)))) eqn:X; [reflexivity|]. apply contains_duplicates_spec in X. contradiction.
  - destruct (String.eqb_spec (c_name (cp_call (nc_comp cp))) n) as [->|NE]; symmetry; [apply PreludeProofs.eqb_refl|apply PreludeProofs.eqb_neq; exact NE].
Qed.

Section Result.
Variable le : text -> text -> bool.
Variables unit fine : positive.
Variable fit : list (list Q) -> list Q -> list Q * Q * bool.
Variable hull : list (list Q) -> option (list (list Q) * list Q).
Variable gram : list (list Q) -> list (list Q).
Variable complement : nat -> list (list Q) -> list (list Q).
Variable rank : list (list Q) -> nat.
Variables (dom : domain) (relevant : option (list (string * list text))) (unsafe : bool) (degree : nat).
Notation learn := (learn_numeric_model le unit fine fit hull gram complement rank).
Notation construct_pre := (construct_safe_numeric_preconditions unit fit hull gram complement).
Notation effects_of := (effects_of unit fine fit rank).

(** One run: a learner with the storage of each action, and what it gives. *)
Lemma run_told policy obs N report : nsam_input dom obs -> learn (init_nlearner dom relevant unsafe degree policy) obs = Ok (N, report) ->
  exists N3, n_relevant N3 = relevant /\ n_unsafe N3 = unsafe /\ own le dom degree (concat obs) N3 /\
    map fst report = filter (fun n => dict_mem n (n_storage N3)) (dict_keys (d_actions dom)) /\
    (forall n x, dict_get (n_numeric N) n = Some x -> dict_get report n = Some nv_ok) /\
    (forall n v, dict_get report n = Some v ->
      (v = nv_ok /\ exists conds effs, dict_get (n_numeric N) n = Some (conds, effs) /\ construct_pre N3 n = Ok conds /\ effects_of N3 n = Ok effs) \/
      (v = nv_not_safe /\ (construct_pre N3 n = Err NotSafeError \/ effects_of N3 n = Err NotSafeError))).
Proof.
  intros IN E. unfold learn_numeric_model in E. cbn [n_sam init_nlearner s_dom init_learner] in E. pose proof (in_numeric _ _ IN) as NF. destruct (d_funcs dom) eqn:DF; [congruence|].
  fold (start dom policy true) in E. destruct (learn_ncomponents le _ obs) as [N2|] eqn:E2; [|discriminate]. cbn [bind] in E. unfold create_safe_action_model in E. cbn [n_sam with_sam] in E.
  destruct (loop_done le dom relevant unsafe degree policy obs IN) as (N2' & E2' & I & _). unfold init_nlearner in E2, E2'. rewrite E2 in E2'. injection E2' as <-.
  rewrite learn_ncomponents_concat in E2. fold (init_nlearner dom relevant unsafe degree policy) in E2.
  assert (O : own le dom degree (concat obs) N2).
  { apply (own_loop le dom relevant unsafe degree policy (in_wf _ _ IN) (in_functions _ _ IN) [] (with_sam (init_nlearner dom relevant unsafe degree policy) (start dom policy true)) (concat obs) N2).
    - apply input_loop. exact IN.
    - apply start_ninv; apply IN.
    - intros k a0 G. reflexivity.
    - exact E2. }
  pose proof (ni_sam _ _ _ _ _ _ _ _ I) as SI.
  assert (KE : dict_keys (d_actions (s_dom (handle_negative_preconditions_policy (n_sam N2)))) = dict_keys (d_actions dom)) by (rewrite policy_keys; apply (si_keys _ _ _ _ _ SI)).
  destruct (create_safe_actions _ _ _ _ _ _ _ _ _) as [(((al & nm) & st) & rp)|] eqn:EM; [|discriminate]. cbn [bind] in E. injection E as <- <-. cbn [n_numeric].
  destruct (make_actions_spec unit fine fit hull gram complement rank (with_sam N2 (handle_negative_preconditions_policy (n_sam N2))) _ _ _ _ _ _ ltac:(rewrite KE; apply (wf_acts _ (in_wf _ _ IN))) ltac:(intros k _; repeat split) EM) as (R1 & R2 & R3 & R4 & R5).
  exists (with_sam N2 (handle_negative_preconditions_policy (n_sam N2))). cbn [n_relevant n_unsafe n_storage with_sam] in *.
  split; [apply I|]. split; [apply I|]. split; [exact O|]. split; [rewrite R1, KE; reflexivity|].
  assert (ND : NoDup (map fst rp)) by (rewrite R1, KE; apply NoDup_filter, (wf_acts _ (in_wf _ _ IN))).
  assert (OKIFF : forall n, In n (dict_keys al) <-> dict_get rp n = Some nv_ok).
  { intros n. rewrite R2. split.
    - intros K. apply in_map_iff in K. destruct K as ((n' & v) & <- & K). apply filter_In in K. destruct K as (K & V). destruct v; try discriminate. apply dict_In_get; assumption.
    - intros K. apply dict_get_In in K. apply (in_map fst _ (n, nv_ok)). apply filter_In. split; [exact K|reflexivity]. }
  split.
  - intros n x GX. apply OKIFF. rewrite <- R3. eapply dict_get_key. exact GX.
  - intros n v V. destruct (R5 n v (dict_get_In _ _ _ V)) as [-> |(-> & H)]; [left|right; split; [reflexivity|exact H]]. split; [reflexivity|].
    apply OKIFF in V. apply dict_get_Some_iff in V. destruct V as (a & GA). destruct (R4 n a GA) as (b & conds & effs & _ & _ & G & P1 & P2). eauto.
Qed.
Theorem run_own policy1 policy2 obs1 obs2 N1 N2 report1 report2 n : nsam_input dom obs1 -> nsam_input dom obs2 ->
  learn (init_nlearner dom relevant unsafe degree policy1) obs1 = Ok (N1, report1) -> learn (init_nlearner dom relevant unsafe degree policy2) obs2 = Ok (N2, report2) ->
  of_action n obs1 = of_action n obs2 -> dict_get report1 n = dict_get report2 n /\ dict_get (n_numeric N1) n = dict_get (n_numeric N2) n.
Proof.
  intros IN1 IN2 E1 E2 EQ. rewrite !of_action_evid in EQ.
  destruct (run_told policy1 obs1 N1 report1 IN1 E1) as (M1 & RL1 & UN1 & O1 & K1 & X1 & S1). destruct (run_told policy2 obs2 N2 report2 IN2 E2) as (M2 & RL2 & UN2 & O2 & K2 & X2 & S2).
  assert (SG : In n (dict_keys (d_actions dom)) -> dict_get (n_storage M1) n = dict_get (n_storage M2) n).
  { intros K. apply dict_get_Some_iff in K. destruct K as (a0 & G). pose proof (O1 n a0 G) as H1. pose proof (O2 n a0 G) as H2. rewrite EQ, H2 in H1. congruence. }
  assert (IR : forall obs N report M, map fst report = filter (fun n => dict_mem n (n_storage M)) (dict_keys (d_actions dom)) -> learn (init_nlearner dom relevant unsafe degree policy1) obs = Ok (N, report) \/ True ->
     (dict_get report n <> None <-> In n (dict_keys (d_actions dom)) /\ dict_get (n_storage M) n <> None)).
  { intros obs N report M K _. split.
    - intros H. destruct (dict_get report n) as [v|] eqn:V; [|congruence]. apply dict_get_key in V. unfold dict_keys in V. rewrite K in V. apply filter_In in V. destruct V as (V1 & V2). split; [exact V1|]. apply memb_In, dict_get_Some_iff in V2. destruct V2 as (s & ->). discriminate.
    - intros (H1 & H2) V. apply dict_get_None in V. apply V. unfold dict_keys. rewrite K. apply filter_In. split; [exact H1|]. apply memb_In, dict_get_Some_iff. destruct (dict_get (n_storage M) n) as [s|]; [eauto|congruence]. }
  pose proof (IR obs1 N1 report1 M1 K1 (or_intror Logic.I)) as A1. pose proof (IR obs2 N2 report2 M2 K2 (or_intror Logic.I)) as A2.
  destruct (dict_get report1 n) as [v1|] eqn:V1.
  - destruct (proj1 A1 ltac:(discriminate)) as (KD & ST1). destruct (dict_get report2 n) as [v2|] eqn:V2.
    2:{ exfalso. apply (proj2 A2); [|reflexivity]. split; [exact KD|]. rewrite <- (SG KD). exact ST1. }
    assert (SF : same_for M2 M1 n) by (split; [apply SG; exact KD|split; congruence]). pose proof (pre_same unit fit hull gram complement _ _ _ SF) as EP. pose proof (eff_same unit fine fit rank _ _ _ SF) as EE.
    destruct (S1 n v1 V1) as [(-> & c1 & e1 & G1 & P1 & F1)|(-> & B1)], (S2 n v2 V2) as [(-> & c2 & e2 & G2 & P2 & F2)|(-> & B2)].
    + split; [reflexivity|]. rewrite G1, G2. congruence.
    + exfalso. destruct B2 as [B2|B2]; congruence.
    + exfalso. destruct B1 as [B1|B1]; congruence.
    + split; [reflexivity|]. destruct (dict_get (n_numeric N1) n) eqn:Y1; [apply X1 in Y1; congruence|]. destruct (dict_get (n_numeric N2) n) eqn:Y2; [apply X2 in Y2; congruence|]. reflexivity.
  - destruct (dict_get report2 n) as [v2|] eqn:V2.
    { exfalso. destruct (proj1 A2 ltac:(discriminate)) as (KD & ST2). apply (proj2 A1); [|reflexivity]. split; [exact KD|]. rewrite (SG KD). exact ST2. }
    split; [reflexivity|]. destruct (dict_get (n_numeric N1) n) eqn:Y1; [apply X1 in Y1; congruence|]. destruct (dict_get (n_numeric N2) n) eqn:Y2; [apply X2 in Y2; congruence|]. reflexivity.
Qed.
End Result.
