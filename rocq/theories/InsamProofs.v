(** * Proofs: results of incremental Numeric SAM *)
From Coq Require Import Lia.
From Verif Require Import InsamSpec VocabProofs SamProofs SamFinal SamResults NsamMatch NsamStore NsamHull NsamSafe NsamLoop NsamProofs OnumProofs OnumTrain OnumClaims InsamLoop Prelude PreludeProofs.
Open Scope string_scope. Open Scope list_scope. Open Scope nat_scope.
Local Notation value_in := NumSpec.value_in.

Section Run.
Variable le : text -> text -> bool.
Variables unit fine : positive.
Variable fit : list (list Q) -> list Q -> list Q * Q * bool.
Variable hull : list (list Q) -> option (list (list Q) * list Q).
Variable schmidt : list (list Q) -> list (list Q) -> list (list Q).
Variable rank : list (list Q) -> nat.
Notation construct_pre := (construct_incremental_preconditions unit).
Notation construct_eff := (construct_incremental_effects unit fine fit rank).
Notation make_action := (create_incremental_action unit fine fit rank).
Notation make_actions := (create_incremental_actions unit fine fit rank).
Notation learn := (learn_incremental_model le unit fine fit hull schmidt rank).

(** ** One action depends on its own storage only *)
Definition isame_for (N0 N : ilearner) (n : string) : Prop := dict_get (is_storage N) n = dict_get (is_storage N0) n /\ is_relevant N = is_relevant N0 /\ is_unsafe N = is_unsafe N0.
Lemma irelevant_same N0 N n : isame_for N0 N n -> irelevant_of N n = irelevant_of N0 n.
Proof. intros (_ & R & _). unfold irelevant_of. rewrite R. reflexivity. Qed.
Lemma ipre_same N0 N n : isame_for N0 N n -> construct_pre N n = construct_pre N0 n.
Proof. intros H. unfold construct_incremental_preconditions. rewrite (irelevant_same _ _ _ H). destruct H as (S0 & _). unfold dict_lookup. rewrite S0. reflexivity. Qed.
Definition ieffects_of (N : ilearner) (n : string) : res (list text) := let* (effects, _) := construct_eff N n in Ok effects.
Lemma ieff_same N0 N n : isame_for N0 N n -> ieffects_of N n = ieffects_of N0 n.
Proof.
  intros H. unfold ieffects_of, construct_incremental_effects. rewrite (irelevant_same _ _ _ H). destruct H as (S0 & _ & U). unfold dict_lookup. rewrite S0, U.
  destruct (irelevant_of N0 n) as [[[|f fs]|]|e]; cbn [bind]; try reflexivity; (destruct (dict_get (is_storage N0) n) as [s|]; cbn [bind]; [|reflexivity]); (destruct (construct_assignment_equations unit fine fit rank (ih_effects s) (is_unsafe N0) _) as [(((l & ef) & cs) & sf)|e]; reflexivity).
Qed.
Lemma ieff_storage N n effects st : construct_eff N n = Ok (effects, st) -> forall k, k <> n -> dict_get st k = dict_get (is_storage N) k.
Proof.
  unfold construct_incremental_effects. intros E k K. destruct (irelevant_of N n) as [[[|f fs]|]|e]; cbn [bind] in E; try discriminate; [injection E as _ <-; reflexivity| |];
  (destruct (dict_lookup (is_storage N) n) as [s|]; cbn [bind] in E; [|discriminate]); (destruct (construct_assignment_equations unit fine fit rank (ih_effects s) (is_unsafe N) _) as [(((l & ef) & cs) & sf)|e]; cbn [bind] in E; [|discriminate]);
  injection E as _ <-; rewrite dict_get_set; destruct (eq_dec k n); [contradiction|reflexivity|contradiction|reflexivity].
Qed.

Lemma imake_actions_spec N0 : forall acts N allowed nums st report, NoDup (dict_keys acts) -> (forall n, In n (dict_keys acts) -> isame_for N0 N n) ->
  make_actions N acts = Ok (allowed, nums, st, report) ->
  map fst report = filter (fun n => dict_mem n (is_storage N0)) (dict_keys acts) /\
  dict_keys allowed = map fst (filter reported report) /\ dict_keys nums = dict_keys allowed /\
  (forall n a', dict_get allowed n = Some a' -> exists a conds effs, dict_get acts n = Some a /\ a' = with_ineq a [] /\ dict_get nums n = Some (conds, effs) /\ construct_pre N0 n = Ok conds /\ ieffects_of N0 n = Ok effs) /\
  (forall n v, In (n, v) report -> v = nv_ok \/ (v = nv_not_safe /\ (construct_pre N0 n = Err NotSafeError \/ ieffects_of N0 n = Err NotSafeError))).
Proof.
  induction acts as [|(n & a) acts IH]; intros N allowed nums st report ND SF E; cbn [create_incremental_actions] in E.
  - injection E as <- <- <- <-. repeat split; try reflexivity; [intros ? ? X; discriminate|intros ? ? []].
  - inversion ND as [|? ? NI ND']; subst. cbn [dict_keys map fst] in SF. pose proof (SF n (or_introl eq_refl)) as SN.
    assert (MEM : dict_mem n (is_storage N) = dict_mem n (is_storage N0)).
    { destruct SN as (S0 & _). unfold dict_mem. destruct (memb n (dict_keys (is_storage N))) eqn:M1, (memb n (dict_keys (is_storage N0))) eqn:M2; try reflexivity; exfalso.
      - apply memb_In in M1. apply memb_nIn in M2. apply dict_get_Some_iff in M1. destruct M1 as (v & M1). rewrite S0 in M1. apply M2, dict_get_Some_iff. eauto.
      - apply memb_nIn in M1. apply memb_In in M2. apply dict_get_Some_iff in M2. destruct M2 as (v & M2). rewrite <- S0 in M2. apply M1, dict_get_Some_iff. eauto. }
    rewrite MEM in E. cbn [dict_keys map fst filter]. destruct (dict_mem n (is_storage N0)) eqn:DM; cbn [negb] in E.
    + destruct (make_action N n a) as [((a' & (conds & effs)) & st1)|e] eqn:EA.
      * unfold create_incremental_action in EA. rewrite (ipre_same _ _ _ SN) in EA. destruct (construct_pre N0 n) as [cs|] eqn:EP; [|discriminate]. cbn [bind] in EA.
        destruct (construct_eff N n) as [(ef & st2)|] eqn:EE; [|discriminate]. cbn [bind] in EA. injection EA as <- <- <- <-.
        assert (EF : ieffects_of N0 n = Ok ef) by (rewrite <- (ieff_same _ _ _ SN); unfold ieffects_of; rewrite EE; reflexivity).
        destruct (make_actions (iwith_storage N st2) acts) as [(((al & nm) & st3) & rp)|] eqn:ER; [|discriminate]. cbn [bind] in E. injection E as <- <- <- <-.
        destruct (IH (iwith_storage N st2) al nm st3 rp ND') as (I1 & I2 & I3 & I4 & I5); [|exact ER|].
        { intros k K. destruct (SF k (or_intror K)) as (A1 & A2 & A3). split; [|split; [exact A2|exact A3]]. cbn [is_storage iwith_storage]. rewrite (ieff_storage _ _ _ _ EE k); [exact A1|]. intros ->. apply NI. exact K. }
        cbn [map fst filter reported snd is_ok]. rewrite I1. split; [reflexivity|]. split; [cbn; f_equal; exact I2|]. split; [cbn; f_equal; exact I3|]. split.
        -- intros k b. cbn [dict_get]. destruct (eq_dec k n) as [->|NE]; [intros X; injection X as <-; exists a, cs, ef; auto|]. apply I4.
        -- intros k v [X|X]; [injection X as <- <-; left; reflexivity|apply I5; exact X].
      * assert (EX : e = NotSafeError) by (destruct e; congruence || reflexivity). subst e.
        destruct (make_actions N acts) as [(((al & nm) & st3) & rp)|] eqn:ER; [|discriminate]. cbn [bind] in E. injection E as <- <- <- <-.
        destruct (IH N al nm st3 rp ND') as (I1 & I2 & I3 & I4 & I5); [intros k K; apply SF; right; exact K|exact ER|].
        cbn [map fst filter reported snd is_ok]. rewrite I1. split; [reflexivity|]. split; [exact I2|]. split; [exact I3|]. split.
        -- intros k b G. destruct (I4 k b G) as (a1 & c1 & e1 & B1 & B). exists a1, c1, e1. split; [|exact B]. cbn [dict_get]. destruct (eq_dec k n) as [->|NE]; [|exact B1]. exfalso. apply NI. eapply dict_get_key. exact B1.
        -- intros k v [X|X]; [|apply I5; exact X]. injection X as <- <-. right. split; [reflexivity|]. unfold create_incremental_action in EA. rewrite (ipre_same _ _ _ SN) in EA. destruct (construct_pre N0 n) as [cs|]; [right|left; cbn [bind] in EA; congruence]. cbn [bind] in EA.
           rewrite <- (ieff_same _ _ _ SN). unfold ieffects_of. destruct (construct_eff N n) as [(ef & st2)|]; cbn [bind] in EA |- *; congruence.
    + destruct (IH N allowed nums st report ND') as (I1 & I2 & I3 & I4 & I5); [intros k K; apply SF; right; exact K|exact E|].
      split; [exact I1|]. split; [exact I2|]. split; [exact I3|]. split; [|exact I5]. intros k b G. destruct (I4 k b G) as (a1 & c1 & e1 & B1 & B). exists a1, c1, e1. split; [|exact B].
      cbn [dict_get]. destruct (eq_dec k n) as [->|NE]; [|exact B1]. exfalso. apply NI. eapply dict_get_key. exact B1.
Qed.

(** ** Numeric SAM runs SAM *)
Lemma ihandle_simulates N cp N' : handle_icomponent le unit fit hull schmidt N cp = Ok N' -> handle_component (is_sam N) (nc_comp cp) = Ok (is_sam N').
Proof.
  unfold handle_icomponent, handle_component. set (c := cp_call (nc_comp cp)). destruct (verify_parameter_duplication (is_sam N) c) as [(L1 & dup)|]; [|discriminate]. cbn [bind]. destruct dup; [intros E; injection E as <-; reflexivity|].
  destruct (dict_lookup (d_actions (s_dom L1)) (c_name c)) as [a|]; [|discriminate]. cbn [bind]. destruct (triplet_snapshot (s_dom L1) (cp_prev (nc_comp cp)) (cp_next (nc_comp cp)) c) as [(prev & next)|]; [|discriminate]. cbn [bind].
  destruct (memb (c_name c) (s_observed L1)).
  - destruct (update_action L1 c prev next) as [L2|]; [|discriminate]. cbn [bind]. destruct (dict_lookup (is_storage N) (c_name c)) as [s|]; [|discriminate]. cbn [bind]. destruct (istore unit fit hull schmidt (s_dom L2) c s _ _); [|discriminate]. cbn [bind]. intros E. injection E as <-. reflexivity.
  - destruct (add_new_action L1 c prev next) as [L2|]; [|discriminate]. cbn [bind]. destruct (istore unit fit hull schmidt (s_dom L2) c _ _ _); [|discriminate]. cbn [bind]. intros E. injection E as <-. reflexivity.
Qed.
Lemma iloop_simulates cps : forall N N', fold_res (icomp_step le unit fit hull schmidt) cps N = Ok N' -> fold_res comp_step (map nc_comp cps) (is_sam N) = Ok (is_sam N').
Proof.
  induction cps as [|cp cps IH]; intros N N' E; [injection E as <-; reflexivity|]. cbn [fold_res map] in *. unfold icomp_step at 1 in E. unfold comp_step at 1. destruct (cp_ok (nc_comp cp)).
  - destruct (handle_icomponent le unit fit hull schmidt N cp) as [N1|] eqn:E1; [|discriminate]. cbn [bind] in E. rewrite (ihandle_simulates _ _ _ E1). cbn [bind]. apply IH, E.
  - cbn [bind] in *. apply IH, E.
Qed.

Variables (dom : domain) (relevant : option (list (string * list text))) (unsafe : bool) (degree : nat) (policy : neg_policy) (obs : list (list ncomponent)).
Hypothesis EL : exact_libraries unit fit hull schmidt.
Hypothesis IM : insam_input unit fit le dom degree obs.
Local Notation IN := (im_base _ _ _ _ _ _ IM).
Local Notation fvoc a := (lifted_functions_vocabulary dom (a_sig a) None).
Local Notation inv := (iinv le unit fit hull schmidt dom relevant unsafe degree policy).
Variables (N : ilearner) (report : list (string * nverdict)).
Hypothesis E : learn (init_ilearner dom relevant unsafe degree policy) obs = Ok (N, report).
Lemma irun_unfold : exists N2 allowed nums st, inv (concat obs) N2 /\ learn_components (start dom policy true) (comps obs) = Ok (is_sam N2) /\
  make_actions (iwith_sam N2 (handle_negative_preconditions_policy (is_sam N2))) (d_actions (s_dom (handle_negative_preconditions_policy (is_sam N2)))) = Ok (allowed, nums, st, report) /\
  d_actions (s_dom (is_sam N)) = allowed /\ is_numeric N = nums.
Proof.
  pose proof E as E0. unfold learn_incremental_model in E0. cbn [is_sam init_ilearner s_dom init_learner] in E0. pose proof (in_numeric _ _ IN) as NF. destruct (d_funcs dom) eqn:DF; [congruence|].
  fold (start dom policy true) in E0. destruct (iloop_done le unit fit hull schmidt dom relevant unsafe degree policy obs EL IM) as [(N2 & E2 & I)|(E2 & _)]; rewrite E2 in E0; [|discriminate]. cbn [bind] in E0. unfold create_incremental_model in E0. cbn [is_sam iwith_sam] in E0.
  destruct (make_actions _ _) as [(((al & nm) & st) & rp)|] eqn:EM; [|discriminate]. cbn [bind] in E0. injection E0 as <- <-. exists N2, al, nm, st. split; [exact I|]. split.
  - rewrite learn_icomponents_concat in E2. apply iloop_simulates in E2. rewrite learn_components_concat_comps. exact E2.
  - split; [exact EM|]. split; reflexivity.
Qed.
Theorem irun_report : map fst report = filter (fun n => match evid n (concat obs) with [] => false | _ => true end) (dict_keys (d_actions dom)) /\
  dict_keys (d_actions (s_dom (is_sam N))) = map fst (filter reported report) /\ dict_keys (is_numeric N) = map fst (filter reported report) /\
  (forall n v, In (n, v) report -> v = nv_ok \/ v = nv_not_safe).
Proof.
  destruct irun_unfold as (N2 & allowed & nums & st & I & ES & EM & <- & <-). pose proof (iv_sam _ _ _ _ _ _ _ _ _ _ _ _ I) as SI.
  assert (KE : dict_keys (d_actions (s_dom (handle_negative_preconditions_policy (is_sam N2)))) = dict_keys (d_actions dom)) by (rewrite policy_keys; apply (si_keys _ _ _ _ _ SI)).
  destruct (imake_actions_spec (iwith_sam N2 (handle_negative_preconditions_policy (is_sam N2))) _ _ _ _ _ _ ltac:(rewrite KE; apply (wf_acts _ (in_wf _ _ IN))) ltac:(intros n _; repeat split) EM) as (R1 & R2 & R3 & R4 & R5).
  split; [|split; [exact R2|split; [rewrite R3; exact R2|intros n v V; destruct (R5 n v V) as [->|(-> & _)]; auto]]].
  rewrite R1, KE. apply filter_ext_in. intros n K. cbn [is_storage iwith_sam]. unfold dict_mem. destruct (evid n (concat obs)) eqn:EV.
  - apply memb_nIn. apply dict_get_None. apply (iv_none _ _ _ _ _ _ _ _ _ _ _ _ I); assumption.
  - apply memb_In. apply dict_get_Some_iff in K. destruct K as (a0 & G). destruct (iv_some _ _ _ _ _ _ _ _ _ _ _ _ I n a0 G) as (s & es & GS & _); [rewrite EV; discriminate|]. apply dict_get_Some_iff. eauto.
Qed.
(** The discrete part is SAM's, without its inequalities. *)
Theorem irun_discrete : exists L rep, learn_action_model (init_learner dom policy true) (comps obs) = Ok (L, rep) /\
  forall n a, dict_get (d_actions (s_dom (is_sam N))) n = Some a -> (exists cp, nevidence obs n cp) /\ exists b, dict_get (d_actions (s_dom L)) n = Some b /\ a = with_ineq b [].
Proof.
  destruct irun_unfold as (N2 & allowed & nums & st & I & ES & EM & <- & <-). pose proof (iv_sam _ _ _ _ _ _ _ _ _ _ _ _ I) as SI.
  assert (KE : dict_keys (d_actions (s_dom (handle_negative_preconditions_policy (is_sam N2)))) = dict_keys (d_actions dom)) by (rewrite policy_keys; apply (si_keys _ _ _ _ _ SI)).
  destruct (imake_actions_spec (iwith_sam N2 (handle_negative_preconditions_policy (is_sam N2))) _ _ _ _ _ _ ltac:(rewrite KE; apply (wf_acts _ (in_wf _ _ IN))) ltac:(intros n _; repeat split) EM) as (R1 & R2 & R3 & R4 & R5).
  unfold learn_action_model. fold (start dom policy true). rewrite ES. cbn [bind]. eexists _, _. split; [reflexivity|]. intros n a G. destruct (R4 n a G) as (b & conds & effs & GB & -> & _).
  assert (EV : evid n (concat obs) <> []).
  { intros X. assert (K : In n (dict_keys (d_actions dom))) by (rewrite <- KE; eapply dict_get_key; exact GB). pose proof (iv_none _ _ _ _ _ _ _ _ _ _ _ _ I n K X) as GN.
    assert (IR : In n (map fst report)) by (apply dict_get_key in G; rewrite R2 in G; apply in_map_iff in G; destruct G as (z & <- & G); apply filter_In in G; apply in_map, G).
    rewrite R1 in IR. apply filter_In in IR. destruct IR as (_ & IR). apply memb_In, dict_get_Some_iff in IR. destruct IR as (v & IR). cbn [is_storage iwith_sam] in IR. rewrite GN in IR. discriminate. }
  split; [apply run_evidence; exact EV|]. exists b. split; [|reflexivity]. rewrite policy_get; [exact GB|]. apply (si_obs _ _ _ _ _ SI). apply evid_evidence. exact EV.
Qed.


(** ** One action *)
Variables (n : string) (a0 : action) (conds effs : list text).
Hypothesis G0 : dict_get (d_actions dom) n = Some a0.
Hypothesis GN : dict_get (is_numeric N) n = Some (conds, effs).
Let cps := of_action n obs.
Lemma cps_evid : cps = evid n (concat obs). Proof. apply of_action_evid. Qed.
Definition rel_of : option (list text) -> Prop := fun rel => match relevant with None => rel = None | Some m => exists fs, dict_get m n = Some fs /\ rel = Some fs end.
Lemma irun_parts : exists rel o es, rel_of rel /\ Forall2 (pair_for dom (a_sig a0)) cps es /\ es <> [] /\
  onum_run le unit fit hull schmidt (fvoc a0) degree (map success es) = Ok o /\ onum_input unit fit le (fvoc a0) degree (map success es) /\
  (rel = Some [] /\ conds = [] /\ effs = [] \/
   rel <> Some [] /\ construct_safe unit (om_hull o) = Ok (Some conds) /\ exists l' cc sf, construct_assignment_equations unit fine fit rank (om_reg o) unsafe rel = Ok (l', effs, cc, sf)).
Proof.
  destruct irun_unfold as (N2 & allowed & nums & st' & I & ES & EM & EA & EN). pose proof (iv_sam _ _ _ _ _ _ _ _ _ _ _ _ I) as SI.
  assert (KE : dict_keys (d_actions (s_dom (handle_negative_preconditions_policy (is_sam N2)))) = dict_keys (d_actions dom)) by (rewrite policy_keys; apply (si_keys _ _ _ _ _ SI)).
  destruct (imake_actions_spec (iwith_sam N2 (handle_negative_preconditions_policy (is_sam N2))) _ _ _ _ _ _ ltac:(rewrite KE; apply (wf_acts _ (in_wf _ _ IN))) ltac:(intros k _; repeat split) EM) as (R1 & R2 & R3 & R4 & R5).
  set (N3 := iwith_sam N2 (handle_negative_preconditions_policy (is_sam N2))) in *.
  assert (GA : exists a, dict_get allowed n = Some a) by (apply dict_get_Some_iff; rewrite <- R3; rewrite EN in GN; eapply dict_get_key; exact GN).
  destruct GA as (a & GA). destruct irun_discrete as (L & rep & _ & RD). rewrite EA in RD. destruct (RD n a GA) as (EV & _). apply run_evidence in EV.
  destruct (R4 n a GA) as (b & conds' & effs' & GB & _ & GN' & CP & CE). rewrite EN, GN' in GN. injection GN as -> ->.
  destruct (iv_some _ _ _ _ _ _ _ _ _ _ _ _ I n a0 G0 EV) as (o & es & GS & F & RO).
  assert (NE : es <> []) by (intros ->; inversion F as [X|]; congruence).
  assert (RL : exists rel, irelevant_of N3 n = Ok rel /\ rel_of rel).
  { unfold rel_of. unfold construct_incremental_preconditions in CP. unfold irelevant_of in CP |- *. change (is_relevant N3) with (is_relevant N2) in *. rewrite (iv_relevant _ _ _ _ _ _ _ _ _ _ _ _ I) in CP |- *. destruct relevant as [m|]; [|exists None; auto].
    unfold dict_lookup in CP |- *. destruct (dict_get m n) as [fs|]; [|discriminate]. exists (Some fs). split; [reflexivity|]. exists fs. auto. }
  destruct RL as (rel & RL & REL). pose proof (input_of le unit fit dom degree obs IM n a0 (concat obs) [] es G0 ltac:(rewrite app_nil_r; reflexivity) F) as OI.
  exists rel, o, es. split; [exact REL|]. split; [rewrite cps_evid; exact F|]. split; [exact NE|]. split; [exact RO|]. split; [exact OI|].
  unfold construct_incremental_preconditions in CP. unfold ieffects_of, construct_incremental_effects in CE. rewrite RL in CP, CE. cbn [bind] in CP, CE.
  assert (DR : rel = Some [] \/ rel <> Some []) by (destruct rel as [[|]|]; [left; reflexivity|right; discriminate|right; discriminate]). destruct DR as [DR|DR].
  - left. rewrite DR in CP, CE. cbn [bind] in CE. injection CP as <-. injection CE as <-. auto.
  - right. split; [exact DR|]. unfold dict_lookup in CP, CE. change (is_storage N3) with (is_storage N2) in *. rewrite GS in CP, CE. cbn [bind of_onum ih_hull ih_effects] in CP, CE.
    assert (SN : successes (map success es) <> []) by (rewrite successes_success; intros Z; apply map_eq_nil in Z; contradiction).
    destruct (safe_mean le unit fit hull schmidt (fvoc a0) degree (named le unit fit dom degree obs IM a0) EL _ OI o RO SN) as (c & C & CN & _). destruct c as [c|]; [|congruence]. rewrite C in CP. cbn [bind] in CP.
    change (is_unsafe N3) with (is_unsafe N2) in CE. rewrite (iv_unsafe _ _ _ _ _ _ _ _ _ _ _ _ I) in CE.
    split; [rewrite C; destruct rel as [[|f fs]|]; [congruence| |]; injection CP as <-; reflexivity|].
    destruct rel as [[|f fs]|]; [congruence| |]; (destruct (construct_assignment_equations unit fine fit rank (om_reg o) unsafe _) as [(((l' & ef) & cc) & sf)|]; cbn [bind] in CE; [|discriminate]; injection CE as <-; eauto).
Qed.
Lemma not_nothing rel : rel_of rel -> ~ lists_nothing relevant n -> rel <> Some [].
Proof. unfold rel_of, lists_nothing. intros R NL ->. destruct relevant as [m|]; [|discriminate]. destruct R as (fs & G & X). injection X as <-. apply NL. exists m. auto. Qed.
Theorem irun_exact st : ~ lists_nothing relevant n -> ((forall t, In t conds -> satisfied st t) <-> mean_of_observed dom (a_sig a0) degree obs n st).
Proof.
  intros NL. destruct irun_parts as (rel & o & es & REL & F & NE & RO & OI & [(DR & _)|(_ & C & _)]); [exfalso; exact (not_nothing rel REL NL DR)|].
  assert (SN : successes (map success es) <> []) by (rewrite successes_success; intros Z; apply map_eq_nil in Z; contradiction).
  destruct (safe_mean le unit fit hull schmidt (fvoc a0) degree (named le unit fit dom degree obs IM a0) EL _ OI o RO SN) as (c & C' & _ & H). rewrite C in C'. injection C' as <-. specialize (H st). cbn [all_satisfied] in H. rewrite H, successes_success.
  pose proof (same_pairs dom a0 cps es F) as SM. unfold mean_of_observed. fold cps. split; intros X; [|eapply mean_same; [exact SM|exact X]].
  eapply mean_same; [|exact X]. apply Forall2_flip in SM. eapply Forall2_imp; [|exact SM]. cbn beta. intros x y SV t T. symmetry. apply SV. exact T.
Qed.
Theorem irun_nothing : lists_nothing relevant n -> conds = [] /\ effs = [].
Proof.
  intros (m & RM & G). destruct irun_parts as (rel & o & es & REL & F & NE & RO & OI & [(_ & X)|(DR & _)]); [exact X|]. exfalso. unfold rel_of in REL. rewrite RM in REL. destruct REL as (fs & G' & ->). rewrite G in G'. injection G' as <-. apply DR. reflexivity.
Qed.
Lemma nothing_dec : lists_nothing relevant n \/ ~ lists_nothing relevant n.
Proof.
  unfold lists_nothing. destruct relevant as [m|]; [|right; intros (m & X & _); discriminate]. destruct (dict_get m n) as [[|f fs]|] eqn:G; [left; exists m; auto|right|right]; intros (m' & X & G'); injection X as <-; congruence.
Qed.
Theorem irun_observed cp : nevidence obs n cp -> forall t, In t conds -> satisfied (num_before (a_sig a0) cp) t.
Proof.
  intros NV. destruct nothing_dec as [NL|NL]; [destruct (irun_nothing NL) as (-> & _); intros t []|]. apply irun_exact; [exact NL|]. apply observed_state. apply in_map_iff. exists cp. split; [reflexivity|]. rewrite of_action_evid. apply evid_In. exact NV.
Qed.
(** A batch storage with the same observations. *)
Lemma ghost_ok es : (forall e, In e es -> proper_pair dom (a_sig a0) e) -> exists s, storage_ok le dom (a_sig a0) degree s es /\
  st_effects s = reg_run (create_monomials le (map term_text (fvoc a0)) degree) (reg_init le (fvoc a0) degree) es.
Proof.
  intros PE. exists (fold_left stored_pair es (init_storage le (fvoc a0) degree)). induction es as [|x es0 IH] using rev_ind.
  - split; [apply init_ok; exact (in_functions _ _ IN)|reflexivity].
  - destruct IH as (I1 & I2); [intros y Y; apply PE; apply in_app_iff; left; exact Y|]. unfold reg_run. rewrite !fold_left_app. cbn [fold_left]. split; [apply store_ok; [exact (in_functions _ _ IN)|exact I1|apply PE; apply in_app_iff; right; left; reflexivity]|].
    unfold reg_run in I2. rewrite <- I2. pose proof (so_monomials _ _ _ _ _ _ I1) as SM. clear I1 I2 PE. revert SM. generalize (fold_left stored_pair es0 (init_storage le (fvoc a0) degree)). intros s0 SM. unfold stored_pair, reg_pair, point, add_to_next_state_storage, add_to_previous_state_storage. cbn [st_effects st_monomials]. rewrite SM. reflexivity.
Qed.
Lemma cps_evidence cp : In cp cps <-> nevidence obs n cp.
Proof. rewrite cps_evid, evid_In. reflexivity. Qed.
Variable np : numeric_part.
Hypothesis XP : expressible_part dom (a_sig a0) degree relevant n np.
Hypothesis RN : forall cp, nevidence obs n cp -> real_numeric dom (a_sig a0) np cp.
Hypothesis FINE : exists k, fine = (unit * k)%positive.
Hypothesis REG : exact_regression unit fit.
Theorem irun_numeric st : (forall t, In t conds -> satisfied st t) -> num_applicable np st /\ (unsafe = false -> forall f args, gives st effs f args (num_after np st (f, args))).
Proof.
  intros SAT. destruct irun_parts as (rel & o & es & REL & F & NE & RO & OI & CASES).
  assert (CPS : forall cp, In cp cps -> complete_fluents dom (a_sig a0) cp) by (intros cp C; apply cps_evidence in C; eapply (in_complete _ _ IN); [exact G0|exact C]).
  assert (PE : forall x, In x es -> proper_pair dom (a_sig a0) x) by (intros x X; destruct (Forall2_In_l _ _ _ _ F X) as (cp & CP & P); eapply pair_proper; [exact P|apply CPS; exact CP]).
  destruct (ghost_ok es PE) as (s & SO & SE).
  assert (RNS : forall cp, In cp cps -> real_numeric dom (a_sig a0) np cp) by (intros cp C; apply RN, cps_evidence, C).
  assert (CLS : forall cp, In cp cps -> clean_values unit dom (a_sig a0) degree cp).
  { intros cp C m (T1 & T2 & T3). apply (nu_clean _ _ _ _ _ _ (im_numeric _ _ _ _ _ _ IM n a0 G0)); [apply in_map; exact C|]. split; [exact T1|]. split; [exact T2|]. intros t T. apply vocabulary_In, T3, T. }
  destruct CASES as [(DR & -> & ->)|(DR & C & l' & cc & sf & CE)].
  - destruct (trivial_means unit le dom (a_sig a0) degree relevant n rel REL st cps es F NE CPS CLS s SO DR) as (qcs & ws & W & IQ & M).
    split; [apply (means_applicable dom (a_sig a0) degree relevant n np XP st qcs ws W M); intros cp Cp; apply RNS, IQ, Cp|]. intros _ f args. split; [intros t []|right].
    rewrite (unnamed_after dom (a_sig a0) degree relevant n np XP st f args); [reflexivity|]. intros _ K. apply (counts_wanted relevant n rel REL) in K. rewrite DR in K. exact K.
  - assert (SN : successes (map success es) <> []) by (rewrite successes_success; intros Z; apply map_eq_nil in Z; contradiction).
    destruct (safe_mean le unit fit hull schmidt (fvoc a0) degree (named le unit fit dom degree obs IM a0) EL _ OI o RO SN) as (c & C' & _ & H). rewrite C in C'. injection C' as <-.
    destruct (proj1 (H st) SAT) as (qs & ws & INC & LEN & NN & S1 & M). rewrite successes_success, map_map in INC. destruct (incl_map_back _ _ _ INC) as (qes & IE & ->). rewrite map_length in LEN.
    destruct (pick_pairs dom (a_sig a0) cps es F qes IE) as (qcs & IQ & FQ).
    assert (W : weighing qes ws) by (split; [exact LEN|split; [exact NN|exact S1]]). assert (W' : weighing qcs ws) by (split; [rewrite (Forall2_length FQ); exact LEN|split; [exact NN|exact S1]]).
    assert (MQ : forall m, In m (create_monomials le (map term_text (fvoc a0)) degree) -> wanted rel (create_polynomial_string m) ->
      (product (map (value_in (by_text (state_fluents dom (a_sig a0) st))) m) == wmean qes ws (fun e => product (map (pair_value e) m)))%Q).
    { intros m MI _. destruct (V_monomial le (fvoc a0) degree (named le unit fit dom degree obs IM a0) m MI) as (m0 & -> & O). specialize (M m0 O). rewrite map_map in M |- *.
      rewrite (map_ext_in _ (term_value st)) by (intros t T; apply value_of_text, (proj2 (proj2 O)), T). unfold product_value at 1 in M. rewrite M. unfold wmean.
      apply linear_same. intros x _. unfold product_value. rewrite map_map. erewrite (map_ext_in (term_value _)); [reflexivity|]. intros t T. unfold pair_value. rewrite by_text_value. unfold term_value, fluents_state. destruct t as (f & args). reflexivity. }
    pose proof (means_from le dom (a_sig a0) degree relevant n rel REL st es qes ws IE MQ qcs FQ) as MF.
    split; [apply (means_applicable dom (a_sig a0) degree relevant n np XP st qcs ws W' MF); intros cp Cp; apply RNS, IQ, Cp|].
    intros UF f args. rewrite UF in CE. destruct (ran le unit fit hull schmidt (fvoc a0) degree (named le unit fit dom degree obs IM a0) _ OI o RO) as (_ & _ & _ & RG). rewrite pairs_success in RG. rewrite RG, <- SE in CE.
    eapply (effects_exact unit fine fit rank le dom (a_sig a0) degree relevant n rel (in_functions _ _ IN) REL np XP) with (cps := cps) (es := es) (qs := qes) (qcs := qcs); eassumption.
Qed.
End Run.
