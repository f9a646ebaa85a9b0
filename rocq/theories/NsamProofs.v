(** * Proofs: results of Numeric SAM *)
From Coq Require Import Lia.
From Verif Require Import NsamSpec VocabProofs SamProofs SamFinal SamResults NsamMatch NsamStore NsamHull NsamSafe NsamLoop Prelude PreludeProofs.
Open Scope string_scope. Open Scope list_scope. Open Scope nat_scope.

Section Run.
Variable le : text -> text -> bool.
Variables unit fine : positive.
Variable fit : list (list Q) -> list Q -> list Q * Q * bool.
Variable hull : list (list Q) -> option (list (list Q) * list Q).
Variable gram : list (list Q) -> list (list Q).
Variable complement : nat -> list (list Q) -> list (list Q).
Variable rank : list (list Q) -> nat.
Notation construct_pre := (construct_safe_numeric_preconditions unit fit hull gram complement).
Notation construct_eff := (construct_safe_numeric_effects unit fine fit rank).
Notation make_action := (create_safe_action unit fine fit hull gram complement rank).
Notation make_actions := (create_safe_actions unit fine fit hull gram complement rank).
Notation learn := (learn_numeric_model le unit fine fit hull gram complement rank).

(** ** One action depends on its own storage only *)
Definition same_for (N0 N : nlearner) (n : string) : Prop := dict_get (n_storage N) n = dict_get (n_storage N0) n /\ n_relevant N = n_relevant N0 /\ n_unsafe N = n_unsafe N0.
Lemma relevant_same N0 N n : same_for N0 N n -> relevant_of N n = relevant_of N0 n.
Proof. intros (_ & R & _). unfold relevant_of. rewrite R. reflexivity. Qed.
Lemma pre_same N0 N n : same_for N0 N n -> construct_pre N n = construct_pre N0 n.
Proof. intros H. unfold construct_safe_numeric_preconditions. rewrite (relevant_same _ _ _ H). destruct H as (S0 & _). unfold dict_lookup. rewrite S0. reflexivity. Qed.
Definition effects_of (N : nlearner) (n : string) : res (list text) := let* (effects, _) := construct_eff N n in Ok effects.
Lemma eff_same N0 N n : same_for N0 N n -> effects_of N n = effects_of N0 n.
Proof.
  intros H. unfold effects_of, construct_safe_numeric_effects. rewrite (relevant_same _ _ _ H). destruct H as (S0 & _ & U). unfold dict_lookup. rewrite S0, U.
  destruct (relevant_of N0 n) as [[[|f fs]|]|e]; cbn [bind]; try reflexivity; (destruct (dict_get (n_storage N0) n) as [s|]; cbn [bind]; [|reflexivity]); (destruct (construct_assignment_equations unit fine fit rank (st_effects s) (n_unsafe N0) _) as [(((l & ef) & cs) & sf)|e]; reflexivity).
Qed.
Lemma eff_storage N n effects st : construct_eff N n = Ok (effects, st) -> forall k, k <> n -> dict_get st k = dict_get (n_storage N) k.
Proof.
  unfold construct_safe_numeric_effects. intros E k K. destruct (relevant_of N n) as [[[|f fs]|]|e]; cbn [bind] in E; try discriminate; [injection E as _ <-; reflexivity| |];
  (destruct (dict_lookup (n_storage N) n) as [s|]; cbn [bind] in E; [|discriminate]); (destruct (construct_assignment_equations unit fine fit rank (st_effects s) (n_unsafe N) _) as [(((l & ef) & cs) & sf)|e]; cbn [bind] in E; [|discriminate]);
  injection E as _ <-; rewrite dict_get_set; destruct (eq_dec k n); [contradiction|reflexivity|contradiction|reflexivity].
Qed.

Definition is_ok (v : nverdict) : bool := match v with nv_ok => true | _ => false end.
Definition reported (v : string * nverdict) : bool := is_ok (snd v).
Lemma make_actions_spec N0 : forall acts N allowed nums st report, NoDup (dict_keys acts) -> (forall n, In n (dict_keys acts) -> same_for N0 N n) ->
  make_actions N acts = Ok (allowed, nums, st, report) ->
  map fst report = filter (fun n => dict_mem n (n_storage N0)) (dict_keys acts) /\
  dict_keys allowed = map fst (filter reported report) /\ dict_keys nums = dict_keys allowed /\
  (forall n a', dict_get allowed n = Some a' -> exists a conds effs, dict_get acts n = Some a /\ a' = with_ineq a [] /\ dict_get nums n = Some (conds, effs) /\ construct_pre N0 n = Ok conds /\ effects_of N0 n = Ok effs) /\
  (forall n v, In (n, v) report -> v = nv_ok \/ (v = nv_not_safe /\ (construct_pre N0 n = Err NotSafeError \/ effects_of N0 n = Err NotSafeError))).
Proof.
  induction acts as [|(n & a) acts IH]; intros N allowed nums st report ND SF E; cbn [create_safe_actions] in E.
  - injection E as <- <- <- <-. repeat split; try reflexivity; [intros ? ? X; discriminate|intros ? ? []].
  - inversion ND as [|? ? NI ND']; subst. cbn [dict_keys map fst] in SF. pose proof (SF n (or_introl eq_refl)) as SN.
    assert (MEM : dict_mem n (n_storage N) = dict_mem n (n_storage N0)).
    { destruct SN as (S0 & _). unfold dict_mem. destruct (memb n (dict_keys (n_storage N))) eqn:M1, (memb n (dict_keys (n_storage N0))) eqn:M2; try reflexivity; exfalso.
      - apply memb_In in M1. apply memb_nIn in M2. apply dict_get_Some_iff in M1. destruct M1 as (v & M1). rewrite S0 in M1. apply M2, dict_get_Some_iff. eauto.
      - apply memb_nIn in M1. apply memb_In in M2. apply dict_get_Some_iff in M2. destruct M2 as (v & M2). rewrite <- S0 in M2. apply M1, dict_get_Some_iff. eauto. }
    rewrite MEM in E. cbn [dict_keys map fst filter]. destruct (dict_mem n (n_storage N0)) eqn:DM; cbn [negb] in E.
    + destruct (make_action N n a) as [((a' & (conds & effs)) & st1)|e] eqn:EA.
      * unfold create_safe_action in EA. rewrite (pre_same _ _ _ SN) in EA. destruct (construct_pre N0 n) as [cs|] eqn:EP; [|discriminate]. cbn [bind] in EA.
        destruct (construct_eff N n) as [(ef & st2)|] eqn:EE; [|discriminate]. cbn [bind] in EA. injection EA as <- <- <- <-.
        assert (EF : effects_of N0 n = Ok ef) by (rewrite <- (eff_same _ _ _ SN); unfold effects_of; rewrite EE; reflexivity).
        destruct (make_actions (with_storage N st2) acts) as [(((al & nm) & st3) & rp)|] eqn:ER; [|discriminate]. cbn [bind] in E. injection E as <- <- <- <-.
        destruct (IH (with_storage N st2) al nm st3 rp ND') as (I1 & I2 & I3 & I4 & I5); [|exact ER|].
        { intros k K. destruct (SF k (or_intror K)) as (A1 & A2 & A3). split; [|split; [exact A2|exact A3]]. cbn [n_storage with_storage]. rewrite (eff_storage _ _ _ _ EE k); [exact A1|]. intros ->. apply NI. exact K. }
        cbn [map fst filter reported snd is_ok]. rewrite I1. split; [reflexivity|]. split; [cbn; f_equal; exact I2|]. split; [cbn; f_equal; exact I3|]. split.
        -- intros k b. cbn [dict_get]. destruct (eq_dec k n) as [->|NE]; [intros X; injection X as <-; exists a, cs, ef; auto|]. apply I4.
        -- intros k v [X|X]; [injection X as <- <-; left; reflexivity|apply I5; exact X].
      * assert (EX : e = NotSafeError) by (destruct e; congruence || reflexivity). subst e.
        destruct (make_actions N acts) as [(((al & nm) & st3) & rp)|] eqn:ER; [|discriminate]. cbn [bind] in E. injection E as <- <- <- <-.
        destruct (IH N al nm st3 rp ND') as (I1 & I2 & I3 & I4 & I5); [intros k K; apply SF; right; exact K|exact ER|].
        cbn [map fst filter reported snd is_ok]. rewrite I1. split; [reflexivity|]. split; [exact I2|]. split; [exact I3|]. split.
        -- intros k b G. destruct (I4 k b G) as (a1 & c1 & e1 & B1 & B). exists a1, c1, e1. split; [|exact B]. cbn [dict_get]. destruct (eq_dec k n) as [->|NE]; [|exact B1]. exfalso. apply NI. eapply dict_get_key. exact B1.
        -- intros k v [X|X]; [|apply I5; exact X]. injection X as <- <-. right. split; [reflexivity|]. unfold create_safe_action in EA. rewrite (pre_same _ _ _ SN) in EA. destruct (construct_pre N0 n) as [cs|]; [right|left; cbn [bind] in EA; congruence]. cbn [bind] in EA.
           rewrite <- (eff_same _ _ _ SN). unfold effects_of. destruct (construct_eff N n) as [(ef & st2)|]; cbn [bind] in EA |- *; congruence.
    + destruct (IH N allowed nums st report ND') as (I1 & I2 & I3 & I4 & I5); [intros k K; apply SF; right; exact K|exact E|].
      split; [exact I1|]. split; [exact I2|]. split; [exact I3|]. split; [|exact I5]. intros k b G. destruct (I4 k b G) as (a1 & c1 & e1 & B1 & B). exists a1, c1, e1. split; [|exact B].
      cbn [dict_get]. destruct (eq_dec k n) as [->|NE]; [|exact B1]. exfalso. apply NI. eapply dict_get_key. exact B1.
Qed.

(** ** Numeric SAM runs SAM *)
Lemma handle_simulates N cp N' : handle_ncomponent le N cp = Ok N' -> handle_component (n_sam N) (nc_comp cp) = Ok (n_sam N').
Proof.
  unfold handle_ncomponent, handle_component. set (c := cp_call (nc_comp cp)). destruct (verify_parameter_duplication (n_sam N) c) as [(L1 & dup)|]; [|discriminate]. cbn [bind]. destruct dup; [intros E; injection E as <-; reflexivity|].
  destruct (dict_lookup (d_actions (s_dom L1)) (c_name c)) as [a|]; [|discriminate]. cbn [bind]. destruct (triplet_snapshot (s_dom L1) (cp_prev (nc_comp cp)) (cp_next (nc_comp cp)) c) as [(prev & next)|]; [|discriminate]. cbn [bind].
  destruct (memb (c_name c) (s_observed L1)).
  - destruct (update_action L1 c prev next) as [L2|]; [|discriminate]. cbn [bind]. destruct (dict_lookup (n_storage N) (c_name c)) as [s|]; [|discriminate]. cbn [bind]. destruct (store (s_dom L2) c s _ _); [|discriminate]. cbn [bind]. intros E. injection E as <-. reflexivity.
  - destruct (add_new_action L1 c prev next) as [L2|]; [|discriminate]. cbn [bind]. destruct (store (s_dom L2) c _ _ _); [|discriminate]. cbn [bind]. intros E. injection E as <-. reflexivity.
Qed.
Lemma loop_simulates cps : forall N N', fold_res (ncomp_step le) cps N = Ok N' -> fold_res comp_step (map nc_comp cps) (n_sam N) = Ok (n_sam N').
Proof.
  induction cps as [|cp cps IH]; intros N N' E; [injection E as <-; reflexivity|]. cbn [fold_res map] in *. unfold ncomp_step at 1 in E. unfold comp_step at 1. destruct (cp_ok (nc_comp cp)).
  - destruct (handle_ncomponent le N cp) as [N1|] eqn:E1; [|discriminate]. cbn [bind] in E. rewrite (handle_simulates _ _ _ E1). cbn [bind]. apply IH, E.
  - cbn [bind] in *. apply IH, E.
Qed.
Lemma comps_concat obs : concat (comps obs) = map nc_comp (concat obs).
Proof. unfold comps. apply eq_sym, concat_map. Qed.
Lemma learn_components_concat_comps L obs : learn_components L (comps obs) = fold_res comp_step (map nc_comp (concat obs)) L.
Proof. rewrite learn_components_concat, comps_concat. reflexivity. Qed.

Variables (dom : domain) (relevant : option (list (string * list text))) (unsafe : bool) (degree : nat) (policy : neg_policy) (obs : list (list ncomponent)).
Hypothesis IN : nsam_input dom obs.
Lemma input_loop : loop_inputs dom (concat obs).
Proof.
  split; [rewrite <- comps_concat; apply IN|]. split; [rewrite <- comps_concat; apply IN|]. intros cp a0 I L G. eapply (in_complete _ _ IN); [exact G|]. split; [exact I|]. split; [exact L|reflexivity].
Qed.
Lemma loop_done : exists N2, learn_ncomponents le (with_sam (init_nlearner dom relevant unsafe degree policy) (start dom policy true)) obs = Ok N2 /\ ninv le dom relevant unsafe degree policy (concat obs) N2 /\
  learn_components (start dom policy true) (comps obs) = Ok (n_sam N2).
Proof.
  destruct (nloop le dom relevant unsafe degree policy (in_wf _ _ IN) (in_functions _ _ IN) [] _ (concat obs) input_loop (start_ninv le dom relevant unsafe degree policy (in_wf _ _ IN) (in_blank _ _ IN))) as (N2 & E & I).
  exists N2. split; [rewrite learn_ncomponents_concat; exact E|]. split; [exact I|]. rewrite learn_components_concat_comps. apply (loop_simulates _ _ _ E).
Qed.

(** The action in the domain after the negative-precondition policy, for observed actions. *)
Lemma policy_get L n : In n (s_observed L) -> dict_get (d_actions (s_dom (handle_negative_preconditions_policy (handle_unobserved_actions L)))) n = dict_get (d_actions (s_dom (handle_negative_preconditions_policy L))) n.
Proof.
  intros O.
  assert (U : dict_get (d_actions (s_dom (handle_unobserved_actions L))) n = dict_get (d_actions (s_dom L)) n).
  { unfold handle_unobserved_actions. cbn [s_dom with_dom d_actions set_actions]. generalize (d_actions (s_dom L)). induction l as [|(k & b) l IH]; [reflexivity|]. cbn [map]. destruct (memb (fst (k, b)) (s_observed L)) eqn:M; cbn [dict_get fst] in *; destruct (eq_dec n k) as [->|NE]; try reflexivity; try exact IH.
    apply memb_nIn in M. contradiction. }
  assert (P : s_policy (handle_unobserved_actions L) = s_policy L) by reflexivity.
  unfold handle_negative_preconditions_policy. rewrite P. destruct (s_policy L) eqn:SP; [exact U| |]; unfold remove_negative_preconditions; cbn [s_dom with_dom d_actions set_actions]; rewrite P, ?SP, !(dict_get_map_vals (fun na => drop_negative _ (snd na))), U; reflexivity.
Qed.
Lemma policy_keys L : dict_keys (d_actions (s_dom (handle_negative_preconditions_policy L))) = dict_keys (d_actions (s_dom L)).
Proof. unfold handle_negative_preconditions_policy. destruct (s_policy L); [reflexivity| |]; unfold remove_negative_preconditions; cbn; apply (dict_keys_map_vals (fun na => drop_negative _ (snd na))). Qed.
Lemma policy_obs L : s_observed (handle_negative_preconditions_policy L) = s_observed L.
Proof. unfold handle_negative_preconditions_policy. destruct (s_policy L); reflexivity. Qed.

Variables (N : nlearner) (report : list (string * nverdict)).
Hypothesis E : learn (init_nlearner dom relevant unsafe degree policy) obs = Ok (N, report).
Lemma run_unfold : exists N2 allowed nums st, ninv le dom relevant unsafe degree policy (concat obs) N2 /\ learn_components (start dom policy true) (comps obs) = Ok (n_sam N2) /\
  make_actions (with_sam N2 (handle_negative_preconditions_policy (n_sam N2))) (d_actions (s_dom (handle_negative_preconditions_policy (n_sam N2)))) = Ok (allowed, nums, st, report) /\
  d_actions (s_dom (n_sam N)) = allowed /\ n_numeric N = nums.
Proof.
  destruct loop_done as (N2 & E2 & I & ES). unfold learn_numeric_model in E. cbn [n_sam init_nlearner s_dom init_learner] in E. pose proof (in_numeric _ _ IN) as NF. destruct (d_funcs dom) eqn:DF; [congruence|].
  fold (start dom policy true) in E. rewrite E2 in E. cbn [bind] in E. unfold create_safe_action_model in E. cbn [n_sam with_sam] in E.
  destruct (make_actions _ _) as [(((al & nm) & st) & rp)|] eqn:EM; [|discriminate]. cbn [bind] in E. injection E as <- <-. exists N2, al, nm, st. split; [exact I|]. split; [exact ES|]. split; [exact EM|]. split; reflexivity.
Qed.

(** ** C67 *)
Lemma run_evidence n : evid n (concat obs) <> [] <-> exists cp, nevidence obs n cp.
Proof.
  split.
  - intros NE. destruct (evid n (concat obs)) as [|cp l] eqn:X; [congruence|]. exists cp. apply (evid_In n). rewrite X. left. reflexivity.
  - intros (cp & H). apply (evid_In n) in H. intros X. rewrite X in H. exact H.
Qed.
Theorem run_report : map fst report = filter (fun n => match evid n (concat obs) with [] => false | _ => true end) (dict_keys (d_actions dom)) /\
  dict_keys (d_actions (s_dom (n_sam N))) = map fst (filter reported report) /\ dict_keys (n_numeric N) = map fst (filter reported report) /\
  (forall n v, In (n, v) report -> v = nv_ok \/ v = nv_not_safe).
Proof.
  destruct run_unfold as (N2 & allowed & nums & st & I & ES & EM & <- & <-). pose proof (ni_sam _ _ _ _ _ _ _ _ I) as SI.
  assert (KE : dict_keys (d_actions (s_dom (handle_negative_preconditions_policy (n_sam N2)))) = dict_keys (d_actions dom)) by (rewrite policy_keys; apply (si_keys _ _ _ _ _ SI)).
  destruct (make_actions_spec (with_sam N2 (handle_negative_preconditions_policy (n_sam N2))) _ _ _ _ _ _ ltac:(rewrite KE; apply (wf_acts _ (in_wf _ _ IN))) ltac:(intros n _; repeat split) EM) as (R1 & R2 & R3 & R4 & R5).
  split; [|split; [exact R2|split; [rewrite R3; exact R2|intros n v V; destruct (R5 n v V) as [->|(-> & _)]; auto]]].
  rewrite R1, KE. apply filter_ext_in. intros n K. cbn [n_storage with_sam]. unfold dict_mem. destruct (evid n (concat obs)) eqn:EV.
  - apply memb_nIn. apply dict_get_None. apply (ni_none _ _ _ _ _ _ _ _ I); assumption.
  - apply memb_In. apply dict_get_Some_iff in K. destruct K as (a0 & G). destruct (ni_some _ _ _ _ _ _ _ _ I n a0 G) as (s & es & GS & _); [rewrite EV; discriminate|]. apply dict_get_Some_iff. eauto.
Qed.
(** The discrete part is SAM's, without its inequalities. *)
Theorem run_discrete : exists L rep, learn_action_model (init_learner dom policy true) (comps obs) = Ok (L, rep) /\
  forall n a, dict_get (d_actions (s_dom (n_sam N))) n = Some a -> (exists cp, nevidence obs n cp) /\ exists b, dict_get (d_actions (s_dom L)) n = Some b /\ a = with_ineq b [].
Proof.
  destruct run_unfold as (N2 & allowed & nums & st & I & ES & EM & <- & <-). pose proof (ni_sam _ _ _ _ _ _ _ _ I) as SI.
  assert (KE : dict_keys (d_actions (s_dom (handle_negative_preconditions_policy (n_sam N2)))) = dict_keys (d_actions dom)) by (rewrite policy_keys; apply (si_keys _ _ _ _ _ SI)).
  destruct (make_actions_spec (with_sam N2 (handle_negative_preconditions_policy (n_sam N2))) _ _ _ _ _ _ ltac:(rewrite KE; apply (wf_acts _ (in_wf _ _ IN))) ltac:(intros n _; repeat split) EM) as (R1 & R2 & R3 & R4 & R5).
  unfold learn_action_model. fold (start dom policy true). rewrite ES. cbn [bind]. eexists _, _. split; [reflexivity|]. intros n a G. destruct (R4 n a G) as (b & conds & effs & GB & -> & _).
  assert (EV : evid n (concat obs) <> []).
  { intros X. assert (K : In n (dict_keys (d_actions dom))) by (rewrite <- KE; eapply dict_get_key; exact GB). pose proof (ni_none _ _ _ _ _ _ _ _ I n K X) as GN.
    assert (IR : In n (map fst report)) by (apply dict_get_key in G; rewrite R2 in G; apply in_map_iff in G; destruct G as (z & <- & G); apply filter_In in G; apply in_map, G).
    rewrite R1 in IR. apply filter_In in IR. destruct IR as (_ & IR). apply memb_In, dict_get_Some_iff in IR. destruct IR as (v & IR). cbn [n_storage with_sam] in IR. rewrite GN in IR. discriminate. }
  split; [apply run_evidence; exact EV|]. exists b. split; [|reflexivity]. rewrite policy_get; [exact GB|]. apply (si_obs _ _ _ _ _ SI). apply evid_evidence. exact EV.
Qed.

(** ** C65, C66 *)
Variables (n : string) (a0 : action) (conds effs : list text) (np : numeric_part).
Hypothesis EO : exact_oracles unit fine fit hull gram complement.
Hypothesis G0 : dict_get (d_actions dom) n = Some a0.
Hypothesis GN : dict_get (n_numeric N) n = Some (conds, effs).
Hypothesis XP : expressible_part dom (a_sig a0) degree relevant n np.
Hypothesis RO : real_observations unit dom (a_sig a0) degree np obs n.
Theorem run_numeric st : (forall t, In t conds -> satisfied st t) -> num_applicable np st /\ (unsafe = false -> forall f args, gives st effs f args (num_after np st (f, args))).
Proof.
  intros SAT. destruct run_unfold as (N2 & allowed & nums & st' & I & ES & EM & EA & EN). pose proof (ni_sam _ _ _ _ _ _ _ _ I) as SI.
  assert (KE : dict_keys (d_actions (s_dom (handle_negative_preconditions_policy (n_sam N2)))) = dict_keys (d_actions dom)) by (rewrite policy_keys; apply (si_keys _ _ _ _ _ SI)).
  destruct (make_actions_spec (with_sam N2 (handle_negative_preconditions_policy (n_sam N2))) _ _ _ _ _ _ ltac:(rewrite KE; apply (wf_acts _ (in_wf _ _ IN))) ltac:(intros k _; repeat split) EM) as (R1 & R2 & R3 & R4 & R5).
  set (N3 := with_sam N2 (handle_negative_preconditions_policy (n_sam N2))) in *.
  assert (GA : exists a, dict_get allowed n = Some a) by (apply dict_get_Some_iff; rewrite <- R3; rewrite EN in GN; eapply dict_get_key; exact GN).
  destruct GA as (a & GA). destruct run_discrete as (L & rep & _ & RD). rewrite EA in RD. destruct (RD n a GA) as (EV & _). apply run_evidence in EV.
  destruct (R4 n a GA) as (b & conds' & effs' & GB & _ & GN' & CP & CE). rewrite EN, GN' in GN. injection GN as -> ->.
  destruct (ni_some _ _ _ _ _ _ _ _ I n a0 G0 EV) as (s & es & GS & F & SO).
  assert (CPS : forall cp, In cp (evid n (concat obs)) -> complete_fluents dom (a_sig a0) cp) by (intros cp C; apply evid_In in C; eapply (in_complete _ _ IN); [exact G0|exact C]).
  assert (CLS : forall cp, In cp (evid n (concat obs)) -> clean_values unit dom (a_sig a0) degree cp) by (intros cp C; apply evid_In in C; apply (RO cp C)).
  assert (RNS : forall cp, In cp (evid n (concat obs)) -> real_numeric dom (a_sig a0) np cp) by (intros cp C; apply evid_In in C; apply (RO cp C)).
  assert (NE : es <> []) by (intros ->; inversion F as [X|]; congruence).
  assert (RL : exists rel, relevant_of N3 n = Ok rel /\ match relevant with None => rel = None | Some m => exists fs, dict_get m n = Some fs /\ rel = Some fs end).
  { unfold construct_safe_numeric_preconditions in CP. unfold relevant_of in CP |- *. change (n_relevant N3) with (n_relevant N2) in *. rewrite (ni_relevant _ _ _ _ _ _ _ _ I) in CP |- *. destruct relevant as [m|]; [|exists None; auto].
    unfold dict_lookup in CP |- *. destruct (dict_get m n) as [fs|]; [|discriminate]. exists (Some fs). split; [reflexivity|]. exists fs. auto. }
  destruct RL as (rel & RL & REL). unfold construct_safe_numeric_preconditions in CP. unfold effects_of, construct_safe_numeric_effects in CE. rewrite RL in CP, CE. cbn [bind] in CP, CE.
  assert (DR : rel = Some [] \/ rel <> Some []) by (destruct rel as [[|]|]; [left; reflexivity|right; discriminate|right; discriminate]). destruct DR as [DR|DR].
  - rewrite DR in CP, CE. cbn [bind] in CE. injection CP as <-. injection CE as <-.
    destruct (trivial_means unit le dom (a_sig a0) degree relevant n rel REL st (evid n (concat obs)) es F NE CPS CLS s SO DR) as (qcs & ws & W & IQ & M).
    split; [apply (means_applicable dom (a_sig a0) degree relevant n np XP st qcs ws W M); intros cp C; apply RNS, IQ, C|]. intros _ f args. split; [intros t []|right].
    rewrite (unnamed_after dom (a_sig a0) degree relevant n np XP st f args); [reflexivity|]. intros _ K. apply (counts_wanted relevant n rel REL) in K. rewrite DR in K. exact K.
  - unfold dict_lookup in CP, CE. change (n_storage N3) with (n_storage N2) in *. rewrite GS in CP, CE. cbn [bind] in CP, CE.
    assert (CP' : exists learned, construct_safe_linear_inequalities unit fit hull gram complement (st_hull s) rel = Ok learned /\ all_satisfied st learned).
    { destruct rel as [[|f fs]|]; [congruence| |]; (destruct (construct_safe_linear_inequalities unit fit hull gram complement (st_hull s) _) as [[cs|]|]; cbn [bind] in CP; try discriminate; [injection CP as <-; exists (Some cs); split; [reflexivity|exact SAT]|..]).
      exists None. split; [reflexivity|exact Logic.I]. }
    destruct CP' as (learned & CP' & SL).
    destruct (condition_means unit fine fit hull gram complement EO le dom (a_sig a0) degree relevant n rel (in_functions _ _ IN) REL st (evid n (concat obs)) es F NE CPS CLS s SO learned CP' SL) as (qcs & qs & ws & W & WQ & IQ & IE & FQ & M & MQ).
    split; [apply (means_applicable dom (a_sig a0) degree relevant n np XP st qcs ws W M); intros cp C; apply RNS, IQ, C|]. intros UF f args.
    assert (CE' : exists l' cc sf, construct_assignment_equations unit fine fit rank (st_effects s) false rel = Ok (l', effs, cc, sf)).
    { change (n_unsafe N3) with (n_unsafe N2) in CE. rewrite (ni_unsafe _ _ _ _ _ _ _ _ I), UF in CE. destruct rel as [[|g gs]|]; [congruence| |]; (destruct (construct_assignment_equations unit fine fit rank (st_effects s) false _) as [(((l' & ef) & cc) & sf)|]; [|discriminate]; cbn [bind] in CE; injection CE as <-; eauto). }
    destruct CE' as (l' & cc & sf & CE').
    eapply (effects_exact unit fine fit rank le dom (a_sig a0) degree relevant n rel (in_functions _ _ IN) REL np XP st (evid n (concat obs)) es F NE CPS s SO); try eassumption; apply EO.
Qed.
(** Observed states satisfy the learned conditions. *)
Theorem run_observed cp : nevidence obs n cp -> (forall cp, nevidence obs n cp -> clean_values unit dom (a_sig a0) degree cp) -> forall t, In t conds -> satisfied (num_before (a_sig a0) cp) t.
Proof.
  intros NV CLV. destruct run_unfold as (N2 & allowed & nums & st' & I & ES & EM & EA & EN). pose proof (ni_sam _ _ _ _ _ _ _ _ I) as SI.
  assert (KE : dict_keys (d_actions (s_dom (handle_negative_preconditions_policy (n_sam N2)))) = dict_keys (d_actions dom)) by (rewrite policy_keys; apply (si_keys _ _ _ _ _ SI)).
  destruct (make_actions_spec (with_sam N2 (handle_negative_preconditions_policy (n_sam N2))) _ _ _ _ _ _ ltac:(rewrite KE; apply (wf_acts _ (in_wf _ _ IN))) ltac:(intros k _; repeat split) EM) as (R1 & R2 & R3 & R4 & R5).
  set (N3 := with_sam N2 (handle_negative_preconditions_policy (n_sam N2))) in *.
  assert (GA : exists a, dict_get allowed n = Some a) by (apply dict_get_Some_iff; rewrite <- R3; rewrite EN in GN; eapply dict_get_key; exact GN).
  destruct GA as (a & GA). assert (EV : evid n (concat obs) <> []) by (apply run_evidence; exists cp; exact NV).
  destruct (R4 n a GA) as (b & conds' & effs' & GB & _ & GN' & CP & CE). rewrite EN, GN' in GN. injection GN as -> ->.
  destruct (ni_some _ _ _ _ _ _ _ _ I n a0 G0 EV) as (s & es & GS & F & SO).
  assert (CPS : forall cp, In cp (evid n (concat obs)) -> complete_fluents dom (a_sig a0) cp) by (intros c C; apply evid_In in C; eapply (in_complete _ _ IN); [exact G0|exact C]).
  assert (CLS : forall cp, In cp (evid n (concat obs)) -> clean_values unit dom (a_sig a0) degree cp) by (intros c C; apply evid_In in C; apply CLV; exact C).
  unfold construct_safe_numeric_preconditions in CP. destruct (relevant_of N3 n) as [rel|]; [|discriminate]. cbn [bind] in CP.
  assert (DR : rel = Some [] \/ rel <> Some []) by (destruct rel as [[|]|]; [left; reflexivity|right; discriminate|right; discriminate]). destruct DR as [->|DR]; [injection CP as <-; intros t []|].
  unfold dict_lookup in CP. change (n_storage N3) with (n_storage N2) in *. rewrite GS in CP. cbn [bind] in CP.
  assert (CP' : exists learned, construct_safe_linear_inequalities unit fit hull gram complement (st_hull s) rel = Ok learned /\ (learned = Some conds \/ conds = [])).
  { destruct rel as [[|f fs]|]; [congruence| |]; (destruct (construct_safe_linear_inequalities unit fit hull gram complement (st_hull s) _) as [[cs|]|]; cbn [bind] in CP; try discriminate; [injection CP as <-; exists (Some cs); auto|..]).
    injection CP as <-. exists None. auto. }
  destruct CP' as (learned & CP' & [->| ->]); [|intros t []].
  apply (conditions_observed unit fine fit hull gram complement EO le dom (a_sig a0) degree rel (in_functions _ _ IN) (evid n (concat obs)) es F CPS CLS s SO (Some conds) cp); [apply evid_In; exact NV|exact CP'].
Qed.
(** The discrete part. *)
Theorem run_safe_discrete real a r : real_domain dom real -> real_components real (concat (comps obs)) -> policy_ok policy (concat (comps obs)) n r ->
  dict_get (d_actions (s_dom (n_sam N))) n = Some a -> real n = Some r -> safe_for dom a r.
Proof.
  intros RD RC PO G R. destruct run_discrete as (L & rep & EL & H). destruct (H n a G) as (_ & b & GB & ->).
  assert (SF : safe_for dom b r) by (eapply (run_safe dom policy true (comps obs) L rep); try apply IN; eassumption).
  destruct (run_action dom policy true (comps obs) L rep (in_wf _ _ IN) (in_blank _ _ IN) (in_calls _ _ IN) (in_constants _ _ IN) EL n b GB) as (b0 & GB0 & LA).
  assert (b0 = a0) by congruence. subst b0. assert (SE : a_sig r = a_sig a0) by (destruct (real_sig _ _ RD n a0 G0) as (r' & E' & Es); congruence).
  intros sg s0 IB (A1 & _). apply SF; [exact IB|]. split; [exact A1|]. intros x y XY. apply (la_ineq _ _ _ _ _ _ _ LA) in XY. destruct XY as (_ & BI & _ & _). rewrite SE in IB.
  destruct (before_in_In _ _ _ BI) as (IX & IY). intros EQ. apply (ib_inj _ _ _ IB) in EQ; [|apply in_app_iff; left; exact IX|apply in_app_iff; left; exact IY].
  revert EQ. apply (before_in_neq (a_sig a0)); [|exact BI]. eapply wf_sigs; [apply IN|apply dict_get_In; exact G0].
Qed.
End Run.
