(** * Proofs: the loop of incremental Numeric SAM over the observations *)
From Coq Require Import Lia.
From Verif Require Import InsamSpec VocabProofs SamProofs SamFinal SamResults NsamMatch NsamStore NsamSafe NsamLoop NsamProofs OnumProofs OnumTrain Prelude PreludeProofs.
Open Scope string_scope. Open Scope list_scope. Open Scope nat_scope.

(** ** Successful observations only *)
Definition success (e : pair_of) : fluents * option fluents := (fst e, Some (snd e)).
Lemma pairs_success es : pairs_of (map success es) = es.
Proof. unfold pairs_of. induction es as [|(p & q) es IH]; [reflexivity|]. cbn. cbn in IH. rewrite IH. reflexivity. Qed.
Lemma successes_success es : successes (map success es) = map fst es.
Proof. rewrite <- pairs_successes, pairs_success. reflexivity. Qed.
Definition of_onum (o : onum) : istorage := mk_istorage (om_monomials o) (om_hull o) (om_reg o).
Lemma same_pairs dom a cps es : Forall2 (pair_for dom (a_sig a)) cps es ->
  Forall2 (same_values (lifted_functions_vocabulary dom (a_sig a) None)) (map (num_before (a_sig a)) cps) (map fluents_state (map fst es)).
Proof. intros F. rewrite <- successes_success. apply (pairs_same dom a). rewrite pairs_success. exact F. Qed.

Section Loop.
Variable le : text -> text -> bool.
Variables unit fine : positive.
Variable fit : list (list Q) -> list Q -> list Q * Q * bool.
Variable hull : list (list Q) -> option (list (list Q) * list Q).
Variable schmidt : list (list Q) -> list (list Q) -> list (list Q).
Variable rank : list (list Q) -> nat.
Variable dom : domain.
Variables (relevant : option (list (string * list text))) (unsafe : bool) (degree : nat) (policy : neg_policy) (obs : list (list ncomponent)).
Hypothesis EL : exact_libraries unit fit hull schmidt.
Hypothesis IM : insam_input unit fit le dom degree obs.
Local Notation WF := (in_wf _ _ (im_base _ _ _ _ _ _ IM)).
Local Notation PF := (in_functions _ _ (im_base _ _ _ _ _ _ IM)).
Local Notation fvoc a := (lifted_functions_vocabulary dom (a_sig a) None).
Local Notation orun a es := (onum_run le unit fit hull schmidt (fvoc a) degree (map success es)).

Record iinv (cps : list ncomponent) (N : ilearner) : Prop :=
  { iv_sam : sam_inv dom true policy (map nc_comp cps) (is_sam N);
    iv_relevant : is_relevant N = relevant;
    iv_unsafe : is_unsafe N = unsafe;
    iv_degree : is_degree N = degree;
    iv_none : forall n, In n (dict_keys (d_actions dom)) -> evid n cps = [] -> dict_get (is_storage N) n = None;
    iv_some : forall n a0, dict_get (d_actions dom) n = Some a0 -> evid n cps <> [] ->
      exists o es, dict_get (is_storage N) n = Some (of_onum o) /\ Forall2 (pair_for dom (a_sig a0)) (evid n cps) es /\ orun a0 es = Ok o }.

Lemma named a : named_terms (fvoc a).
Proof.
  split; [apply vocabulary_NoDup|]. intros t T. apply vocabulary_In in T. destruct T as (fsig & objs & T & _). exact (PF _ _ T).
Qed.
Lemma input_of n a cps rest es : dict_get (d_actions dom) n = Some a -> concat obs = cps ++ rest -> Forall2 (pair_for dom (a_sig a)) (evid n cps) es ->
  onum_input unit fit le (fvoc a) degree (map success es).
Proof.
  intros G E F. constructor; [apply named| |].
  - intros t T. apply in_map_iff in T. destruct T as (e & <- & T). cbn [success fst]. destruct (Forall2_In_l _ _ _ _ F T) as (cp & CP & P). apply evid_In in CP.
    assert (PP : proper_pair dom (a_sig a) e).
    { eapply pair_proper; [exact P|]. eapply (in_complete _ _ (im_base _ _ _ _ _ _ IM)); [exact G|]. split; [rewrite E; apply in_app_iff; left; apply CP|apply CP]. }
    intros x X. destruct (proj2 (proj2 PP) x X) as (X1 & _). destruct (dict_get (fst e) x) as [v|]; [exists v; reflexivity|congruence].
  - rewrite successes_success. eapply numeric_same; [apply same_pairs; exact F|].
    pose proof (im_numeric _ _ _ _ _ _ IM n a G) as NU. rewrite of_action_evid, E in NU. unfold evid in NU. rewrite filter_app, map_app in NU. eapply numeric_prefix. exact NU.
Qed.
Lemma stored o m1 m2 : (let* s := iadd_previous unit fit hull schmidt (of_onum o) m1 in Ok (iadd_next s m2)) =
  (let* o' := numeric_transition unit fit hull schmidt o m1 (Some m2) in Ok (of_onum o')).
Proof.
  unfold iadd_previous, numeric_transition, add_positive_pre_state, of_onum. cbn [ih_monomials ih_hull ih_effects].
  destruct (IncModel.add_new_point unit fit hull schmidt (om_hull o) _) as [h|]; reflexivity.
Qed.
Lemma init_onum_of V : init_istorage le V degree = of_onum (init_onum le V degree).
Proof. reflexivity. Qed.

Lemma istep cps cp rest N : concat obs = cps ++ cp :: rest -> iinv cps N ->
  (exists N', (if cp_ok (nc_comp cp) then handle_icomponent le unit fit hull schmidt N cp else Ok N) = Ok N' /\ iinv (cps ++ [cp]) N') \/
  ((if cp_ok (nc_comp cp) then handle_icomponent le unit fit hull schmidt N cp else Ok N) = Err RuntimeError /\ hull_failure hull).
Proof.
  intros SPLIT [I R0 U0 D0 SN SS].
  assert (INC : In cp (concat obs)) by (rewrite SPLIT; apply in_app_iff; right; left; reflexivity).
  assert (SPLIT' : concat obs = (cps ++ [cp]) ++ rest) by (rewrite <- app_assoc; exact SPLIT).
  assert (INC' : In (nc_comp cp) (concat (comps obs))) by (rewrite comps_concat; apply in_map; exact INC).
  assert (Har : cp_ok (nc_comp cp) = true -> good_arity dom (cp_call (nc_comp cp))) by (apply (in_calls _ _ (im_base _ _ _ _ _ _ IM)); exact INC').
  assert (Hnc : learnable (nc_comp cp) -> no_constant_args dom (cp_call (nc_comp cp))) by (apply (in_constants _ _ (im_base _ _ _ _ _ _ IM)); exact INC').
  assert (CF : forall a0, learnable (nc_comp cp) -> dict_get (d_actions dom) (c_name (cp_call (nc_comp cp))) = Some a0 -> complete_fluents dom (a_sig a0) cp).
  { intros a0 LN G. eapply (in_complete _ _ (im_base _ _ _ _ _ _ IM)); [exact G|]. split; [exact INC|]. split; [exact LN|reflexivity]. }
  destruct (sam_step dom true policy (map nc_comp cps) (is_sam N) (nc_comp cp) WF I Har Hnc) as (L' & E & I').
  assert (I2 : sam_inv dom true policy (map nc_comp (cps ++ [cp])) L') by (rewrite map_app; exact I'). clear I'.
  assert (SKIP : forall N', is_storage N' = is_storage N -> is_relevant N' = is_relevant N -> is_unsafe N' = is_unsafe N -> is_degree N' = is_degree N -> is_sam N' = L' -> (forall n, tells n cp = false) -> iinv (cps ++ [cp]) N').
  { intros N' E1 E2 E3 E4 E5 T. constructor; try congruence.
    - intros n K. rewrite evid_snoc, T, E1. apply SN, K.
    - intros n a0 G. rewrite evid_snoc, T, E1. apply SS, G. }
  destruct (cp_ok (nc_comp cp)) eqn:OK.
  2: { injection E as E. left. exists N. split; [reflexivity|]. apply SKIP; try reflexivity; [exact E|]. intros n. unfold tells. rewrite OK. reflexivity. }
  destruct (Har eq_refl) as (a0 & G0 & LEN). set (c := cp_call (nc_comp cp)) in *. destruct (si_act _ _ _ _ _ I _ _ G0) as (a & Ga & Ia). pose proof (ai_sig _ _ _ _ _ _ Ia) as SG.
  unfold handle_icomponent. unfold handle_component in E. fold c in E |- *. destruct (verify_parameter_duplication (is_sam N) c) as [(L1 & dup)|] eqn:EV; [|discriminate]. cbn [bind] in E |- *.
  unfold verify_parameter_duplication in EV. destruct (contains_duplicates (c_params c)) eqn:DP.
  { assert (dup = true) as -> by (destruct (dict_lookup _ _); [|discriminate]; cbn [bind] in EV; injection EV as _ <-; reflexivity). injection E as ->. left. eexists. split; [reflexivity|].
    apply SKIP; try reflexivity. intros n. unfold tells. fold c. rewrite DP, andb_false_r. reflexivity. }
  injection EV as <- <-. assert (ND : NoDup (c_params c)) by (apply contains_duplicates_spec; exact DP). assert (LN : learnable (nc_comp cp)) by (split; assumption).
  rewrite (dict_lookup_Some _ _ _ Ga). cbn [bind]. destruct (triplet_snapshot (s_dom (is_sam N)) (cp_prev (nc_comp cp)) (cp_next (nc_comp cp)) c) as [(prev & next)|]; [|discriminate]. cbn [bind] in E |- *.
  assert (OB : parameterized_objects (s_dom (is_sam N)) a c = combine (c_params c) (map snd (a_sig a0)) ++ d_consts dom) by (unfold parameterized_objects; rewrite SG, (si_dom _ _ _ _ _ I); reflexivity).
  pose proof (CF a0 LN G0) as CP.
  destruct (matched dom policy WF _ L' a0 c (nc_prev cp) _ I2 G0 LEN ND (Hnc LN) OB) as (m1 & M1 & N1 & H1); [intros t T; apply (CP t T); left; reflexivity|].
  destruct (matched dom policy WF _ L' a0 c (nc_next cp) _ I2 G0 LEN ND (Hnc LN) OB) as (m2 & M2 & N2 & H2); [intros t T; apply (CP t T); right; reflexivity|].
  assert (PR : pair_for dom (a_sig a0) cp (m1, m2)) by (constructor; assumption).
  assert (TELL : forall n, tells n cp = true <-> n = c_name c) by (intros n; rewrite tells_spec; fold c; split; [intros (_ & <-); reflexivity|intros ->; auto]).
  assert (OBS : memb (c_name c) (s_observed (is_sam N)) = true <-> evid (c_name c) cps <> []) by (rewrite memb_In, (si_obs _ _ _ _ _ I), evid_evidence; reflexivity).
  assert (DONE : forall o es, orun a0 es = Ok o -> Forall2 (pair_for dom (a_sig a0)) (evid (c_name c) cps) es ->
    (exists N', (let* s' := istore unit fit hull schmidt (s_dom L') c (of_onum o) (numeric_state_snapshot (nc_prev cp) (parameterized_objects (s_dom (is_sam N)) a c)) (numeric_state_snapshot (nc_next cp) (parameterized_objects (s_dom (is_sam N)) a c)) in
      Ok (iwith_storage (iwith_sam N L') (dict_set (is_storage N) (c_name c) s'))) = Ok N' /\ iinv (cps ++ [cp]) N') \/
    ((let* s' := istore unit fit hull schmidt (s_dom L') c (of_onum o) (numeric_state_snapshot (nc_prev cp) (parameterized_objects (s_dom (is_sam N)) a c)) (numeric_state_snapshot (nc_next cp) (parameterized_objects (s_dom (is_sam N)) a c)) in
      Ok (iwith_storage (iwith_sam N L') (dict_set (is_storage N) (c_name c) s'))) = Err RuntimeError /\ hull_failure hull)).
  { intros o es RO F. unfold istore. rewrite M1. cbn [bind]. rewrite M2. cbn [bind]. rewrite (stored o m1 m2).
    assert (F' : Forall2 (pair_for dom (a_sig a0)) (evid (c_name c) (cps ++ [cp])) (es ++ [(m1, m2)])) by (rewrite evid_snoc, (proj2 (TELL _) eq_refl); apply Forall2_app; [exact F|constructor; [exact PR|constructor]]).
    pose proof (input_of _ _ _ _ _ G0 SPLIT' F') as OI. pose proof (total_run le unit fit hull schmidt (fvoc a0) degree (named a0) EL _ OI) as D.
    assert (EQ : orun a0 (es ++ [(m1, m2)]) = numeric_transition unit fit hull schmidt o m1 (Some m2)) by (rewrite map_app; cbn [map]; rewrite (run_more le unit fit hull schmidt degree _ _ _ _ RO); reflexivity).
    rewrite EQ in D. destruct D as [(o' & E')|(E' & HF)]; rewrite E'; cbn [bind]; [left|right; split; [reflexivity|exact HF]].
    eexists. split; [reflexivity|]. constructor; cbn [is_sam is_relevant is_unsafe is_degree is_storage iwith_storage iwith_sam]; try assumption.
    - intros n K. rewrite evid_snoc. destruct (tells n cp) eqn:T; [intros X; apply app_eq_nil in X; destruct X; discriminate|]. intros X. rewrite dict_get_set. destruct (eq_dec n (c_name c)) as [->|NE]; [|apply SN; assumption].
      rewrite (proj2 (TELL _) eq_refl) in T. discriminate.
    - intros n b0 Gb. rewrite dict_get_set. destruct (eq_dec n (c_name c)) as [->|NE].
      + intros _. assert (b0 = a0) by congruence. subst b0. exists o', (es ++ [(m1, m2)]). split; [reflexivity|]. split; [exact F'|]. rewrite EQ. exact E'.
      + rewrite evid_snoc. destruct (tells n cp) eqn:T; [apply TELL in T; contradiction|]. apply SS. exact Gb. }
  destruct (memb (c_name c) (s_observed (is_sam N))) eqn:MB.
  - rewrite E. cbn [bind]. destruct (SS _ _ G0 (proj1 OBS eq_refl)) as (o & es & GS & F & RO). unfold dict_lookup. rewrite GS. cbn [bind]. apply (DONE o es); assumption.
  - rewrite E. cbn [bind].
    assert (EE : evid (c_name c) cps = []) by (destruct (evid (c_name c) cps) eqn:X; [reflexivity|]; assert (false = true); [apply OBS; discriminate|discriminate]).
    rewrite SG, D0. replace (lifted_functions_vocabulary (s_dom L') (a_sig a0) None) with (fvoc a0) by (rewrite (si_dom _ _ _ _ _ I2); reflexivity).
    rewrite init_onum_of. apply (DONE _ []); [reflexivity|rewrite EE; constructor].
Qed.

Definition icomp_step (N : ilearner) (cp : ncomponent) : res ilearner := if cp_ok (nc_comp cp) then handle_icomponent le unit fit hull schmidt N cp else Ok N.
Lemma learn_icomponents_concat N os : learn_icomponents le unit fit hull schmidt N os = fold_res icomp_step (concat os) N.
Proof.
  unfold learn_icomponents. revert N; induction os as [|o os IH]; intros N; simpl; [reflexivity|].
  rewrite fold_res_app. unfold icomp_step at 2. destruct (fold_res _ o N); simpl; [apply IH|reflexivity].
Qed.
Lemma iloop cps : forall cps0 N, concat obs = cps0 ++ cps -> iinv cps0 N ->
  (exists N', fold_res icomp_step cps N = Ok N' /\ iinv (cps0 ++ cps) N') \/ (fold_res icomp_step cps N = Err RuntimeError /\ hull_failure hull).
Proof.
  induction cps as [|cp cps IH]; intros cps0 N SPLIT I; [left; exists N; rewrite app_nil_r; auto|]. cbn [fold_res]. unfold icomp_step at 1 3.
  destruct (istep cps0 cp cps N SPLIT I) as [(N1 & E1 & I1)|(E1 & HF)]; rewrite E1; cbn [bind]; [|right; auto].
  rewrite (app_assoc cps0 [cp] cps : cps0 ++ cp :: cps = (cps0 ++ [cp]) ++ cps) in *. apply IH; assumption.
Qed.
Lemma start_iinv : iinv [] (iwith_sam (init_ilearner dom relevant unsafe degree policy) (start dom policy true)).
Proof.
  constructor; try reflexivity; [apply start_inv; [exact WF|apply IM]|]. intros n a0 G NE. destruct NE. reflexivity.
Qed.
Lemma iloop_done : (exists N2, learn_icomponents le unit fit hull schmidt (iwith_sam (init_ilearner dom relevant unsafe degree policy) (start dom policy true)) obs = Ok N2 /\ iinv (concat obs) N2) \/
  (learn_icomponents le unit fit hull schmidt (iwith_sam (init_ilearner dom relevant unsafe degree policy) (start dom policy true)) obs = Err RuntimeError /\ hull_failure hull).
Proof. rewrite learn_icomponents_concat. apply (iloop (concat obs) [] _ eq_refl start_iinv). Qed.
End Loop.
