(** * Proofs: the loop of Numeric SAM over the observations *)
From Coq Require Import Lia.
From Verif Require Import NsamSpec VocabProofs SamProofs SamFinal SamResults NsamMatch NsamStore NsamSafe Prelude PreludeProofs.
Open Scope string_scope. Open Scope list_scope. Open Scope nat_scope.

Section Loop.
Variable le : text -> text -> bool.
Variable dom : domain.
Variables (relevant : option (list (string * list text))) (unsafe : bool) (degree : nat) (policy : neg_policy).
Hypothesis WF : wf_domain dom.
Hypothesis PF : proper_functions dom.

Definition tells (n : string) (cp : ncomponent) : bool :=
  cp_ok (nc_comp cp) && negb (contains_duplicates (c_params (cp_call (nc_comp cp)))) && Prelude.eqb (c_name (cp_call (nc_comp cp))) n.
Lemma tells_spec n cp : tells n cp = true <-> learnable (nc_comp cp) /\ c_name (cp_call (nc_comp cp)) = n.
Proof.
  unfold tells, learnable. rewrite !andb_true_iff, negb_true_iff, contains_duplicates_spec. split.
  - intros (H & E). apply PreludeProofs.eqb_true in E. auto.
  - intros (H & <-). split; [exact H|apply PreludeProofs.eqb_refl].
Qed.
Definition evid (n : string) (cps : list ncomponent) : list ncomponent := filter (tells n) cps.
Lemma evid_In n cps cp : In cp (evid n cps) <-> In cp cps /\ learnable (nc_comp cp) /\ c_name (cp_call (nc_comp cp)) = n.
Proof. unfold evid. rewrite filter_In, tells_spec. reflexivity. Qed.
Lemma evid_evidence n cps : evid n cps <> [] <-> exists cp, evidence (map nc_comp cps) n cp.
Proof.
  split.
  - intros NE. destruct (evid n cps) as [|cp l] eqn:E; [congruence|]. assert (I : In cp (evid n cps)) by (rewrite E; left; reflexivity). apply evid_In in I. destruct I as (I & H). exists (nc_comp cp). split; [apply in_map; exact I|exact H].
  - intros (c & I & H). apply in_map_iff in I. destruct I as (cp & <- & I). intros E. assert (X : In cp (evid n cps)) by (apply evid_In; auto). rewrite E in X. exact X.
Qed.
Lemma evid_snoc n cps cp : evid n (cps ++ [cp]) = if tells n cp then evid n cps ++ [cp] else evid n cps.
Proof. unfold evid. rewrite filter_app. cbn. destruct (tells n cp); [reflexivity|apply app_nil_r]. Qed.

Record ninv (cps : list ncomponent) (N : nlearner) : Prop :=
  { ni_sam : sam_inv dom true policy (map nc_comp cps) (n_sam N);
    ni_relevant : n_relevant N = relevant;
    ni_unsafe : n_unsafe N = unsafe;
    ni_degree : n_degree N = degree;
    ni_none : forall n, In n (dict_keys (d_actions dom)) -> evid n cps = [] -> dict_get (n_storage N) n = None;
    ni_some : forall n a0, dict_get (d_actions dom) n = Some a0 -> evid n cps <> [] ->
      exists s es, dict_get (n_storage N) n = Some s /\ Forall2 (pair_for dom (a_sig a0)) (evid n cps) es /\ storage_ok le dom (a_sig a0) degree s es }.

Lemma mentionable_declared d a t : d_funcs d = d_funcs dom -> d_consts d = d_consts dom -> num_mentionable dom (a_sig a) t -> declared d a (d_funcs d) t.
Proof.
  intros EF EC (fsig & objs & I & S0 & N & E & F). exists fsig. rewrite EF. split; [exact I|]. rewrite E. split; [rewrite map_length; eapply Forall2_length; exact F|]. split; [exact N|].
  unfold named. rewrite E, EC. unfold dict_keys. rewrite <- map_app. apply incl_map, S0.
Qed.
(** The matches of one state. *)
Lemma matched cps L a0 c (fl : fluents) objs : sam_inv dom true policy cps L -> dict_get (d_actions dom) (c_name c) = Some a0 -> length (c_params c) = length (a_sig a0) ->
  NoDup (c_params c) -> no_constant_args dom c -> objs = combine (c_params c) (map snd (a_sig a0)) ++ d_consts dom ->
  (forall t, num_mentionable dom (a_sig a0) t -> exists v, dict_get fl (fst t, map (call_assignment (a_sig a0) c) (snd t)) = Some v) ->
  exists m, match_state_functions (s_dom L) c (numeric_state_snapshot fl objs) = Ok m /\ NoDup (dict_keys m) /\
    forall t, num_mentionable dom (a_sig a0) t -> dict_get m t = dict_get fl (fst t, map (call_assignment (a_sig a0) c) (snd t)).
Proof.
  intros I G LEN NP NC -> CF. destruct (si_act _ _ _ _ _ I _ _ G) as (a & Ga & Ia). pose proof (ai_sig _ _ _ _ _ _ Ia) as SG.
  pose proof (good_call_of dom L a0 a c WF (si_dom _ _ _ _ _ I) G Ga SG LEN) as GC.
  assert (EC : d_consts (s_dom L) = d_consts dom) by (rewrite (si_dom _ _ _ _ _ I); reflexivity). assert (EF : d_funcs (s_dom L) = d_funcs dom) by (rewrite (si_dom _ _ _ _ _ I); reflexivity).
  destruct (match_snapshot (s_dom L) a c GC NP) with (st := fl) as (m & E & M).
  - unfold no_constant_args. rewrite EC. exact NC.
  - intros f F. rewrite EF in F. destruct (CF (f, [])) as (v & V); [exists [], []; repeat split; [exact F|intros ? []|constructor|constructor]|]. cbn in V. rewrite V. discriminate.
  - unfold parameterized_objects in E. rewrite SG, EC in E. exists m. split; [exact E|]. split; [eapply match_NoDup; exact E|]. intros t T.
    destruct (CF t T) as (v & V). rewrite V. apply M. split; [apply mentionable_declared; [exact EF|exact EC|rewrite SG; exact T]|]. unfold ground_term. rewrite SG. exact V.
Qed.

Lemma nstep cps N cp : ninv cps N -> (cp_ok (nc_comp cp) = true -> good_arity dom (cp_call (nc_comp cp))) -> (learnable (nc_comp cp) -> no_constant_args dom (cp_call (nc_comp cp))) ->
  (forall a0, learnable (nc_comp cp) -> dict_get (d_actions dom) (c_name (cp_call (nc_comp cp))) = Some a0 -> complete_fluents dom (a_sig a0) cp) ->
  exists N', (if cp_ok (nc_comp cp) then handle_ncomponent le N cp else Ok N) = Ok N' /\ ninv (cps ++ [cp]) N'.
Proof.
  intros [I R0 U0 D0 SN SS] Har Hnc CF. destruct (sam_step dom true policy (map nc_comp cps) (n_sam N) (nc_comp cp) WF I Har Hnc) as (L' & E & I').
  assert (I2 : sam_inv dom true policy (map nc_comp (cps ++ [cp])) L') by (rewrite map_app; exact I'). clear I'.
  assert (SKIP : forall N', n_storage N' = n_storage N -> n_relevant N' = n_relevant N -> n_unsafe N' = n_unsafe N -> n_degree N' = n_degree N -> n_sam N' = L' -> (forall n, tells n cp = false) -> ninv (cps ++ [cp]) N').
  { intros N' E1 E2 E3 E4 E5 T. constructor; try congruence.
    - intros n K. rewrite evid_snoc, T, E1. apply SN, K.
    - intros n a0 G. rewrite evid_snoc, T, E1. apply SS, G. }
  destruct (cp_ok (nc_comp cp)) eqn:OK.
  2: { injection E as E. exists N. split; [reflexivity|]. apply SKIP; try reflexivity; [exact E|]. intros n. unfold tells. rewrite OK. reflexivity. }
  destruct (Har eq_refl) as (a0 & G0 & LEN). set (c := cp_call (nc_comp cp)) in *. destruct (si_act _ _ _ _ _ I _ _ G0) as (a & Ga & Ia). pose proof (ai_sig _ _ _ _ _ _ Ia) as SG.
  unfold handle_ncomponent. unfold handle_component in E. fold c in E |- *. destruct (verify_parameter_duplication (n_sam N) c) as [(L1 & dup)|] eqn:EV; [|discriminate]. cbn [bind] in E |- *.
  unfold verify_parameter_duplication in EV. destruct (contains_duplicates (c_params c)) eqn:DP.
  { assert (dup = true) as -> by (destruct (dict_lookup _ _); [|discriminate]; cbn [bind] in EV; injection EV as _ <-; reflexivity). injection E as ->. eexists. split; [reflexivity|].
    apply SKIP; try reflexivity. intros n. unfold tells. fold c. rewrite DP, andb_false_r. reflexivity. }
  injection EV as <- <-. assert (ND : NoDup (c_params c)) by (apply contains_duplicates_spec; exact DP). assert (LN : learnable (nc_comp cp)) by (split; assumption).
  rewrite (dict_lookup_Some _ _ _ Ga). cbn [bind]. destruct (triplet_snapshot (s_dom (n_sam N)) (cp_prev (nc_comp cp)) (cp_next (nc_comp cp)) c) as [(prev & next)|]; [|discriminate]. cbn [bind] in E |- *.
  assert (OB : parameterized_objects (s_dom (n_sam N)) a c = combine (c_params c) (map snd (a_sig a0)) ++ d_consts dom) by (unfold parameterized_objects; rewrite SG, (si_dom _ _ _ _ _ I); reflexivity).
  pose proof (CF a0 LN G0) as CP.
  destruct (matched _ L' a0 c (nc_prev cp) _ I2 G0 LEN ND (Hnc LN) OB) as (m1 & M1 & N1 & H1); [intros t T; apply (CP t T); left; reflexivity|].
  destruct (matched _ L' a0 c (nc_next cp) _ I2 G0 LEN ND (Hnc LN) OB) as (m2 & M2 & N2 & H2); [intros t T; apply (CP t T); right; reflexivity|].
  assert (PR : pair_for dom (a_sig a0) cp (m1, m2)) by (constructor; assumption).
  assert (TELL : forall n, tells n cp = true <-> n = c_name c) by (intros n; rewrite tells_spec; fold c; split; [intros (_ & <-); reflexivity|intros ->; auto]).
  assert (OBS : memb (c_name c) (s_observed (n_sam N)) = true <-> evid (c_name c) cps <> []) by (rewrite memb_In, (si_obs _ _ _ _ _ I), evid_evidence; reflexivity).
  assert (DONE : forall s es, storage_ok le dom (a_sig a0) degree s es -> Forall2 (pair_for dom (a_sig a0)) (evid (c_name c) cps) es ->
    ninv (cps ++ [cp]) (with_storage (with_sam N L') (dict_set (n_storage N) (c_name c) (add_to_next_state_storage (add_to_previous_state_storage s m1) m2)))).
  { intros s es SO F. constructor; cbn [n_sam n_relevant n_unsafe n_degree n_storage with_storage with_sam]; try assumption.
    - intros n K. rewrite evid_snoc. destruct (tells n cp) eqn:T; [intros X; apply app_eq_nil in X; destruct X; discriminate|]. intros X. rewrite dict_get_set. destruct (eq_dec n (c_name c)) as [->|NE]; [|apply SN; assumption].
      rewrite (proj2 (TELL _) eq_refl) in T. discriminate.
    - intros n b0 Gb. rewrite evid_snoc. rewrite dict_get_set. destruct (eq_dec n (c_name c)) as [->|NE].
      + rewrite (proj2 (TELL _) eq_refl). intros _. assert (b0 = a0) by congruence. subst b0. eexists _, (es ++ [(m1, m2)]). split; [reflexivity|]. split; [apply Forall2_app; [exact F|constructor; [exact PR|constructor]]|].
        apply (store_ok le dom (a_sig a0) degree PF s es (m1, m2) SO). eapply pair_proper; [exact PR|exact CP].
      + destruct (tells n cp) eqn:T; [apply TELL in T; contradiction|]. apply SS. exact Gb. }
  destruct (memb (c_name c) (s_observed (n_sam N))) eqn:MB.
  - rewrite E. cbn [bind]. destruct (SS _ _ G0 (proj1 OBS eq_refl)) as (s & es & GS & F & SO). unfold dict_lookup. rewrite GS. cbn [bind]. unfold store. rewrite M1. cbn [bind]. rewrite M2. cbn [bind]. eexists. split; [reflexivity|]. apply (DONE s es); assumption.
  - rewrite E. cbn [bind]. unfold store. rewrite M1. cbn [bind]. rewrite M2. cbn [bind]. eexists. split; [reflexivity|].
    assert (EE : evid (c_name c) cps = []) by (destruct (evid (c_name c) cps) eqn:X; [reflexivity|]; assert (false = true); [apply OBS; discriminate|discriminate]).
    apply (DONE _ []); [|rewrite EE; constructor]. rewrite SG, D0.
    replace (lifted_functions_vocabulary (s_dom L') (a_sig a0) None) with (lifted_functions_vocabulary dom (a_sig a0) None) by (rewrite (si_dom _ _ _ _ _ I2); reflexivity).
    apply init_ok. exact PF.
Qed.

Definition ncomp_step (N : nlearner) (cp : ncomponent) : res nlearner := if cp_ok (nc_comp cp) then handle_ncomponent le N cp else Ok N.
Lemma learn_ncomponents_concat N obs : learn_ncomponents le N obs = fold_res ncomp_step (concat obs) N.
Proof.
  unfold learn_ncomponents. revert N; induction obs as [|o obs IH]; intros N; simpl; [reflexivity|].
  rewrite fold_res_app. unfold ncomp_step at 2. destruct (fold_res _ o N); simpl; [apply IH|reflexivity].
Qed.
Definition loop_inputs (cps : list ncomponent) : Prop :=
  good_calls dom (map nc_comp cps) /\ no_constant_calls dom (map nc_comp cps) /\
  forall cp a0, In cp cps -> learnable (nc_comp cp) -> dict_get (d_actions dom) (c_name (cp_call (nc_comp cp))) = Some a0 -> complete_fluents dom (a_sig a0) cp.
Lemma nloop cps0 N cps : loop_inputs cps -> ninv cps0 N -> exists N', fold_res ncomp_step cps N = Ok N' /\ ninv (cps0 ++ cps) N'.
Proof.
  revert cps0 N. induction cps as [|cp cps IH]; intros cps0 N (Hg & Hn & CF) I; [exists N; rewrite app_nil_r; auto|].
  destruct (nstep cps0 N cp I) as (N1 & E1 & I1); [apply Hg; left; reflexivity|apply Hn; left; reflexivity|intros a0; apply CF; left; reflexivity|].
  destruct (IH (cps0 ++ [cp]) N1) as (N2 & E2 & I2); [split; [intros c C; apply Hg; right; exact C|split; [intros c C; apply Hn; right; exact C|intros c a0 C; apply CF; right; exact C]]|exact I1|].
  exists N2. rewrite <- app_assoc in I2. split; [|exact I2]. cbn [fold_res]. unfold ncomp_step at 1. rewrite E1. exact E2.
Qed.
Lemma start_ninv : blank_domain dom -> ninv [] (with_sam (init_nlearner dom relevant unsafe degree policy) (start dom policy true)).
Proof.
  intros B. constructor; try reflexivity; [apply start_inv; assumption|]. intros n a0 G NE. destruct NE. reflexivity.
Qed.
End Loop.
