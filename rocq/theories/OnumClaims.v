(** * Proofs: exported numeric actions *)
From Coq Require Import Lia Lqa.
From Verif Require Import OnumSpec VocabProofs SamProofs DepProofs OnlineProofs TrainProofs NsamMatch NsamStore NsamHull NsamSafe NsamLoop OnumProofs OnumTrain Prelude PreludeProofs.
Open Scope string_scope. Open Scope list_scope. Open Scope nat_scope.
Local Notation value_in := NumSpec.value_in.

(** ** Copying operands *)
Lemma and_all {A} (P : A -> Prop) fs : f_holds P (f_and fs) <-> forall f, In f fs -> f_holds P f.
Proof.
  induction fs as [|f fs IH]; cbn; [split; [intros _ f []|auto]|]. cbn in IH. rewrite IH. split.
  - intros (A1 & A2) g [<-|G]; auto.
  - intros H. split; [apply H; left; reflexivity|intros g G; apply H; right; exact G].
Qed.
Lemma copied_operands {A} (P : A -> Prop) fl fs : (forall f, In f (copy_operands fl (f_and fs)) -> f_holds P f) <-> f_holds P (f_and fs).
Proof.
  rewrite <- and_all. unfold copy_operands. cbn [operands].
  assert (G : forall l ops, f_holds P (f_and (fold_left (add_condition fl op_and) l ops)) <-> f_holds P (f_and ops) /\ f_holds P (f_and l)).
  { induction l as [|f l IH]; intros ops; [cbn; tauto|]. cbn [fold_left]. rewrite IH, add_and, !and_all. split.
    - intros ((A1 & A2) & A3). split; [exact A1|]. intros g [<-|G]; auto.
    - intros (A1 & A2). split; [split; [exact A1|apply A2; left; reflexivity]|]. intros g G. apply A2. right. exact G. }
  rewrite G. cbn. tauto.
Qed.

Definition stored_pair (s : storage) (x : pair_of) : storage := add_to_next_state_storage (add_to_previous_state_storage s (fst x)) (snd x).
Section Claims.
Variable le : text -> text -> bool.
Variables unit fine : positive.
Variable fit : list (list Q) -> list Q -> list Q * Q * bool.
Variable hull : list (list Q) -> option (list (list Q) * list Q).
Variable schmidt : list (list Q) -> list (list Q) -> list (list Q).
Variable rank : list (list Q) -> nat.
Variable svm : list (list Q * bool) -> list Q * Q.
Variable limit : nat.
Hypothesis EL : exact_libraries unit fit hull schmidt.
Variables (dom : domain) (degree : nat) (traces : list (list ncomponent)).
Hypothesis OL : online_input unit fit le dom degree traces.
Variable L : numeric_learners.
Hypothesis TR : numeric_train le unit fit hull schmidt dom degree traces = Ok L.
Variables (n : string) (a : action).
Hypothesis GA : dict_get (d_actions dom) n = Some a.
Lemma trained : exists st, dict_get L n = Some st /\ ainv le unit fit hull schmidt dom degree n a (concat traces) st.
Proof.
  destruct (train_done le unit fit hull schmidt EL dom degree traces OL) as [(L' & E & T)|(E & _)]; rewrite TR in E; [injection E as <-|discriminate]. apply (tv_get _ _ _ _ _ _ _ _ _ T n a GA).
Qed.
Local Notation always := (always_seen dom (a_sig a)).
Lemma always_largest cps data l : Forall2 (sees dom a) cps data -> (In l (largest (voc dom a) data) <-> always cps l).
Proof.
  intros F. rewrite safe_literals, (voc_In (N := Datatypes.unit) (F := Datatypes.unit) (fun _ _ => true) (fun _ _ _ => tt) (fun _ => tt) dom (ol_wf _ _ _ _ _ _ OL) n a l GA). unfold always_seen. split; intros (M & H); (split; [exact M|]).
  - intros cp I. destruct (Forall2_In_r _ _ _ cp F I) as (x & X & (p & p' & V & _ & ->)). apply (V l). apply (H p p' X).
  - intros p q I. destruct (Forall2_In_l _ _ _ _ F I) as (cp & CP & (p1 & p2 & V & _ & E)). injection E as -> ->. apply (V l). split; [exact M|apply H; exact CP].
Qed.
Variable st : online onum fluents.
Hypothesis GS : dict_get L n = Some st.
Hypothesis NE : of_action n traces <> [].
Variables (fl : bool) (e : exported).
Hypothesis EX : export_safe unit fine fit rank fl st = Ok e.
Let cps := of_action n traces.

Lemma full_prefix : OnumTrain.prefix traces (concat traces).
Proof. exists []. rewrite app_nil_r. reflexivity. Qed.
Lemma export_parts : exists ts data conditions l' extra safe, onum_input unit fit le (fvoc dom a) degree ts /\ onum_run le unit fit hull schmidt (fvoc dom a) degree ts = Ok (on_num st) /\
  Forall2 (pair_for dom (a_sig a)) cps (pairs_of ts) /\ Forall2 (sees dom a) cps data /\
  construct_safe unit (om_hull (on_num st)) = Ok (Some conditions) /\ construct_assignment_equations unit fine fit rank (om_reg (on_num st)) false None = Ok (l', ex_effects e, extra, safe) /\
  ex_conditions e = conditions /\ ex_pre e = copy_operands fl (fst (OnlineModel.get_safe_model fl (learned (voc dom a) data))) /\ ex_eff e = o_eff (learned (voc dom a) data).
Proof.
  destruct trained as (st' & G' & [(ts & data & R & VL & FP & FS & FD & NF) UN CL]). rewrite GS in G'. injection G' as <-.
  rewrite <- (of_action_evid traces n) in FP, FS. pose proof EX as X. unfold export_safe, numeric_safe_model in X. destruct (OnlineModel.get_safe_model fl (on_disc st)) as (pre & eff) eqn:GM.
  destruct (construct_safe unit (om_hull (on_num st))) as [cs|] eqn:EC; [|discriminate]. cbn [bind] in X.
  destruct (construct_assignment_equations unit fine fit rank (om_reg (on_num st)) false None) as [(((l' & effects) & extra) & safe)|] eqn:EE; [|discriminate]. cbn [bind] in X. destruct cs as [conditions|]; [|discriminate]. injection X as <-.
  exists ts, data, conditions, l', extra, safe. split; [eapply numeric_of; try eassumption; [exact full_prefix|rewrite <- (of_action_evid traces n); exact FP]|]. do 3 (split; [assumption|]). split; [reflexivity|]. cbn [ex_pre ex_conditions ex_eff ex_effects]. split; [reflexivity|]. split; [reflexivity|].
  assert (GM' : OnlineModel.get_safe_model fl (learned (voc dom a) data) = (pre, eff)).
  { rewrite <- GM. change (OnlineModel.get_safe_model fl (learned (voc dom a) data)) with (OnlineModel.get_safe_model fl (forget (learned (voc dom a) data))). rewrite <- FD. reflexivity. }
  rewrite GM'. split; [reflexivity|]. unfold OnlineModel.get_safe_model in GM'. injection GM' as _ <-. reflexivity.
Qed.
(** The literals that held in all successes are preconditions, even without a success. *)
Lemma export_literals sg s g : export_applicable e sg s g -> forall l, always cps l -> lit_true s (ground sg l).
Proof.
  destruct export_parts as (ts & data & conditions & l' & extra & safe & OI & R & FP & FS & EC & EE & X1 & X2 & X3). intros (D & _) l A. rewrite X2 in D. unfold OnlineModel.get_safe_model in D. cbn [fst] in D.
  unfold conjunction_form at 1 in D. rewrite copied_operands in D. change (f_and _) with (conjunction_form fl (largest (voc dom a) data)) in D. rewrite conjunction_form_iff in D. apply D. apply (always_largest cps data l FS). exact A.
Qed.
Lemma export_exact sg s g : export_applicable e sg s g <->
  (forall l, always cps l -> lit_true s (ground sg l)) /\ mean_state (fvoc dom a) degree (map (num_before (a_sig a)) cps) (lifted_state sg g).
Proof.
  destruct export_parts as (ts & data & conditions & l' & extra & safe & OI & R & FP & FS & EC & EE & X1 & X2 & X3). unfold export_applicable. rewrite X1, X2. unfold OnlineModel.get_safe_model. cbn [fst].
  assert (D : (forall f, In f (copy_operands fl (conjunction_form fl (set_diff (o_super (learned (voc dom a) data)) (o_nopre (learned (voc dom a) data))))) -> f_holds (fun l => lit_true s (ground sg l)) f) <-> (forall l, always cps l -> lit_true s (ground sg l))).
  { unfold conjunction_form at 1. rewrite copied_operands. change (f_and _) with (conjunction_form fl (largest (voc dom a) data)). rewrite conjunction_form_iff. unfold conj_holds. split; intros H l I; apply H; apply (always_largest cps data l FS); exact I. }
  rewrite D. assert (SN : successes ts <> []). { rewrite <- pairs_successes. intros Z. apply map_eq_nil in Z. rewrite Z in FP. inversion FP as [Y|]. apply NE. symmetry. exact Y. }
  destruct (safe_mean le unit fit hull schmidt (fvoc dom a) degree (fvoc_named le unit fit dom degree traces OL a) EL ts OI (on_num st) R SN) as (cs & C & _ & H). rewrite EC in C. injection C as <-. specialize (H (lifted_state sg g)). cbn [all_satisfied] in H. rewrite H.
  pose proof (pairs_same dom a cps ts FP) as SM. split; intros (A1 & A2); (split; [exact A1|]); [|eapply mean_same; [exact SM|exact A2]].
  eapply mean_same; [|exact A2]. apply Forall2_flip in SM. eapply Forall2_imp; [|exact SM]. cbn beta. intros x y SV t T. symmetry. apply SV. exact T.
Qed.
(** Observed states are allowed. *)
Lemma export_observed cp : In cp cps -> export_applicable e (call_assignment (a_sig a) (cp_call (nc_comp cp))) (cp_prev (nc_comp cp)) (fluents_state (nc_prev cp)).
Proof.
  intros I. apply export_exact. split; [intros l (_ & H); apply H; exact I|]. apply observed_state. apply in_map_iff. exists cp. split; [reflexivity|exact I].
Qed.

(** ** The real action *)
Variable real : string -> option (action * numeric_part).
Hypothesis RN : real_numeric_actions dom degree real.
Hypothesis RS : forall cp, In cp cps -> real_success dom real cp.
Variables (r : action) (np : numeric_part).
Hypothesis ER : real n = Some (r, np).
Hypothesis FINE : exists k, fine = (unit * k)%positive.
Hypothesis REG : exact_regression unit fit.
Lemma real_sig : a_sig r = a_sig a.
Proof. destruct (rn_sig _ _ _ RN n a GA) as (r' & np' & E & S0). rewrite ER in E. injection E as <- <-. exact S0. Qed.
Lemma cps_In cp : In cp cps -> In cp (concat traces) /\ learnable (nc_comp cp) /\ c_name (cp_call (nc_comp cp)) = n.
Proof. unfold cps. rewrite (of_action_evid traces n). apply evid_In. Qed.
Lemma success_of cp : In cp cps -> (forall l, In l (a_pre r) -> lit_true (cp_prev (nc_comp cp)) (ground (call_assignment (a_sig a) (cp_call (nc_comp cp))) l)) /\
  is_result r (call_assignment (a_sig a) (cp_call (nc_comp cp))) (cp_prev (nc_comp cp)) (cp_next (nc_comp cp)) /\ real_numeric dom (a_sig a) np cp.
Proof.
  intros I. destruct (cps_In cp I) as (_ & _ & EN). destruct (RS cp I) as (r' & np' & E & H). rewrite EN, ER in E. injection E as <- <-. cbv zeta in H. rewrite real_sig in H. exact H.
Qed.
Definition real' : string -> option (action * (Datatypes.unit -> Prop)) := fun m => option_map (fun rp : action * numeric_part => (fst rp, fun _ => True)) (real m).
Lemma real_actions' : real_actions dom real'.
Proof.
  assert (X : forall m b q, real' m = Some (b, q) -> exists np', real m = Some (b, np')).
  { intros m b q E. unfold real' in E. destruct (real m) as [(b' & np')|] eqn:E'; [|discriminate]. injection E as <- _. exists np'. reflexivity. }
  constructor.
  - intros m b G. destruct (rn_sig _ _ _ RN m b G) as (r' & np' & E & S0). exists r', (fun _ => True). split; [unfold real'; rewrite E; reflexivity|exact S0].
  - intros m b q l E I. destruct (X m b q E) as (np' & E'). eapply rn_pre; eassumption.
  - intros m b q l E I. destruct (X m b q E) as (np' & E'). eapply rn_eff; eassumption.
  - intros m b q l E I. destruct (X m b q E) as (np' & E'). eapply rn_cons; eassumption.
Qed.
Lemma samples_fit data : Forall2 (sees dom a) cps data -> total_samples (voc dom a) data /\ fits_eff (voc dom a) data (a_eff r).
Proof.
  intros F. pose proof (ol_wf _ _ _ _ _ _ OL) as W. assert (D : forall x, In x data -> exists cp p p', In cp cps /\ x = s_ok p p' /\ view dom (a_sig a) (cp_prev (nc_comp cp)) (call_assignment (a_sig a) (cp_call (nc_comp cp))) p /\ view dom (a_sig a) (cp_next (nc_comp cp)) (call_assignment (a_sig a) (cp_call (nc_comp cp))) p').
  { intros x X. destruct (Forall2_In_l _ _ _ _ F X) as (cp & CP & (p & p' & V1 & V2 & E)). exists cp, p, p'. auto. }
  split; [split|split; [|split]].
  - intros l. apply (voc_neg (N := Datatypes.unit) (F := Datatypes.unit) (fun _ _ => true) (fun _ _ _ => tt) (fun _ => tt) dom W n a l GA).
  - intros x X. destruct (D x X) as (cp & p & p' & CP & -> & V1 & V2). split; eapply (view_total (N := Datatypes.unit) (F := Datatypes.unit) (fun _ _ => true) (fun _ _ _ => tt) (fun _ => tt)); eassumption.
  - intros l I. apply (voc_In (N := Datatypes.unit) (F := Datatypes.unit) (fun _ _ => true) (fun _ _ _ => tt) (fun _ => tt) dom W n a l GA). rewrite <- real_sig. eapply rn_eff; eassumption.
  - intros l I. eapply rn_cons; eassumption.
  - intros p p' X. destruct (D _ X) as (cp & p1 & p2 & CP & E & V1 & V2). injection E as -> ->. destruct (cps_In cp CP) as (IC & (_ & ND) & EN). destruct (ol_calls _ _ _ _ _ _ OL cp IC) as ((b & Gb & LEN) & NC). rewrite EN, GA in Gb. injection Gb as <-.
    destruct (success_of cp CP) as (_ & RES & _).
    refine (view_becomes (N := Datatypes.unit) (F := Datatypes.unit) (fun _ _ => true) (fun _ _ _ => tt) (fun _ => tt) dom real' W real_actions' n a r (fun _ => True) (cp_call (nc_comp cp)) _ _ p1 p2 GA _ real_sig LEN ND NC V1 V2 RES).
    unfold real'. rewrite ER. reflexivity.
Qed.
Lemma effects_cover data l : Forall2 (sees dom a) cps data -> (In l (o_eff (learned (voc dom a) data)) -> In l (a_eff r)) /\ (In l (a_eff r) -> In l (o_eff (learned (voc dom a) data)) \/ always cps l).
Proof.
  intros F. destruct (samples_fit data F) as (TS & FE). split.
  - intros I. apply (proj1 (must_exact _ _ TS true l (ex_intro _ _ FE)) I _ FE).
  - intros I. assert (M : mentionable dom (a_sig a) l) by (rewrite <- real_sig; eapply rn_eff; eassumption).
    assert (DEC : (forall p q, In (s_ok p q) data -> In l p) \/ exists p q, In (s_ok p q) data /\ ~ In l p).
    { clear -data. induction data as [|x d IH]; [left; intros p q []|]. destruct IH as [IH|(p & q & IH & N)]; [|right; exists p, q; split; [right; exact IH|exact N]]. destruct x as [p q|p].
      - destruct (In_dec' l p) as [J|J]; [left|right; exists p, q; split; [left; reflexivity|exact J]]. intros p' q' [E|K]; [injection E as <- <-; exact J|eapply IH; exact K].
      - left. intros p' q' [E|K]; [discriminate|eapply IH; exact K]. }
    destruct DEC as [ALL|(p & q & D & N)].
    + right. apply (always_largest cps data l F). apply safe_literals. split; [apply (voc_In (N := Datatypes.unit) (F := Datatypes.unit) (fun _ _ => true) (fun _ _ _ => tt) (fun _ => tt) dom (ol_wf _ _ _ _ _ _ OL) n a l GA); exact M|exact ALL].
    + left. apply (i_eff _ _ _ (learned_inv (voc dom a) data)). split; [|apply (eff_not_excluded _ _ TS (a_eff r) l FE I)]. exists p, q. split; [exact D|]. split; [|exact N]. apply (proj2 (proj2 FE) p q D l). left. exact I.
Qed.
Lemma export_safety : safe_export dom r np e.
Proof.
  intros sg s g IB AP. pose proof (proj1 (export_exact sg s g) AP) as (DL & MS).
  destruct export_parts as (ts & data & conditions & l' & extra & safe & OI & R & FP & FS & EC & EE & X1 & X2 & X3).
  split; [|split; [|split]].
  - intros l I. apply DL. split; [rewrite <- real_sig; eapply rn_pre; eassumption|]. intros cp CP. apply (success_of cp CP). exact I.
  - (* the numeric condition *)
    destruct MS as (qs & ws & INC & LEN & NN & S1 & M). destruct (incl_map_back _ _ _ INC) as (qcs & IQ & ->). rewrite map_length in LEN.
    eapply (means_applicable dom (a_sig a) degree None n np); [rewrite <- real_sig; eapply rn_part; eassumption|split; [exact LEN|split; [exact NN|exact S1]]| |intros cp CP; apply (success_of cp); apply IQ; exact CP].
    intros m0 (T1 & T2 & T3) _. assert (O : of_terms (fvoc dom a) degree m0) by (split; [exact T1|split; [exact T2|intros t T; apply vocabulary_In; apply T3; exact T]]). specialize (M m0 O). unfold product_value in M. unfold wmean. rewrite M, map_map. reflexivity.
  - (* the discrete effects *)
    assert (GI : forall l m, mentionable dom (a_sig a) l -> mentionable dom (a_sig a) m -> ground sg l = ground sg m -> l = m).
    { intros l m ML MM. apply (ground_lit_injective sg (dict_keys (a_sig a) ++ dict_keys (d_consts dom))); [rewrite <- real_sig; apply IB|apply mentionable_args; exact ML|apply mentionable_args; exact MM]. }
    assert (ME : forall l, In l (a_eff r) -> mentionable dom (a_sig a) l) by (intros l I; rewrite <- real_sig; eapply rn_eff; eassumption).
    assert (C1 : forall l, In l (ex_eff e) -> In l (a_eff r)) by (intros l; rewrite X3; apply (effects_cover data l FS)).
    assert (C2 : forall l, In l (a_eff r) -> In l (ex_eff e) \/ lit_true s (ground sg l)) by (intros l I; rewrite X3; destruct (proj2 (effects_cover data l FS) I) as [H|H]; [left; exact H|right; apply DL; exact H]).
    intros p args. unfold export_after, after. split.
    + intros [(l & I & P & E)|(H & N)]; [left; exists l; split; [apply C1; exact I|split; assumption]|].
      right. split; [exact H|]. intros (l & I & P & E). destruct (C2 l I) as [J|J]; [apply N; exists l; auto|]. rewrite E in J. apply J. exact H.
    + intros [(l & I & P & E)|(H & N)].
      * destruct (C2 l I) as [J|J]; [left; exists l; auto|]. right. rewrite E in J. split; [exact J|]. intros (l2 & I2 & P2 & E2). apply C1 in I2.
        assert (X : l2 = neg_lit l). { apply GI; [apply ME; exact I2|apply mentionable_neg; apply ME; exact I|]. rewrite ground_neg, E, E2. reflexivity. }
        subst l2. apply (rn_cons _ _ _ RN n r np l ER I). exact I2.
      * right. split; [exact H|]. intros (l & I & P & E). apply N. exists l. split; [apply C1; exact I|auto].
  - (* the numeric effects *)
    assert (AS : all_satisfied (lifted_state sg g) (Some conditions)) by (intros t I; rewrite <- X1 in I; apply AP; exact I).
    assert (SN : successes ts <> []). { rewrite <- pairs_successes. intros Z. apply map_eq_nil in Z. rewrite Z in FP. inversion FP as [Y|]. apply NE. symmetry. exact Y. }
    destruct (safe_mean le unit fit hull schmidt (fvoc dom a) degree (fvoc_named le unit fit dom degree traces OL a) EL ts OI (on_num st) R SN) as (cs & C & _ & H). rewrite EC in C. injection C as <-.
    destruct (proj1 (H _) AS) as (qs & ws & INC & LEN & NN & S1 & M). rewrite <- pairs_successes, map_map in INC. destruct (incl_map_back _ _ _ INC) as (es & IE & ->). rewrite map_length in LEN.
    destruct (pick_pairs dom (a_sig a) cps (pairs_of ts) FP es IE) as (qcs & IQ & FQ).
    assert (W : weighing es ws) by (split; [exact LEN|split; [exact NN|exact S1]]). assert (W' : weighing qcs ws) by (split; [rewrite (Forall2_length FQ); exact LEN|split; [exact NN|exact S1]]).
    assert (MQ : forall m, In m (create_monomials le (map term_text (lifted_functions_vocabulary dom (a_sig a) None)) degree) -> wanted None (create_polynomial_string m) ->
      (product (map (value_in (by_text (state_fluents dom (a_sig a) (lifted_state sg g)))) m) == wmean es ws (fun e => product (map (pair_value e) m)))%Q).
    { intros m MI _. destruct (V_monomial le (fvoc dom a) degree (fvoc_named le unit fit dom degree traces OL a) m MI) as (m0 & -> & O). specialize (M m0 O). rewrite map_map in M |- *.
      rewrite (map_ext_in _ (term_value (lifted_state sg g))) by (intros t T; apply value_of_text, (proj2 (proj2 O)), T). unfold product_value at 1 in M. rewrite M. unfold wmean.
      apply linear_same. intros x _. unfold product_value. rewrite map_map. erewrite (map_ext_in (term_value _)); [reflexivity|]. intros t T. unfold pair_value. rewrite by_text_value. unfold term_value, fluents_state. destruct t as (f & args). reflexivity. }
    assert (PE : forall x, In x (pairs_of ts) -> proper_pair dom (a_sig a) x).
    { intros x X. destruct (Forall2_In_l _ _ _ _ FP X) as (cp & CP & P). eapply pair_proper; [exact P|]. destruct (cps_In cp CP) as (IC & _ & EN). apply (ol_values _ _ _ _ _ _ OL cp a IC). rewrite EN. exact GA. }
    set (ghost := fold_left stored_pair (pairs_of ts) (init_storage le (lifted_functions_vocabulary dom (a_sig a) None) degree)).
    assert (SO : storage_ok le dom (a_sig a) degree ghost (pairs_of ts) /\ st_effects ghost = reg_run (create_monomials le (map term_text (fvoc dom a)) degree) (reg_init le (fvoc dom a) degree) (pairs_of ts)).
    { unfold ghost. clear -PE OL. revert PE. generalize (pairs_of ts). intros es0. induction es0 as [|x es0 IH] using rev_ind; intros PE.
      - split; [apply init_ok; exact (ol_functions _ _ _ _ _ _ OL)|reflexivity].
      - destruct IH as (I1 & I2); [intros y Y; apply PE; apply in_app_iff; left; exact Y|]. unfold reg_run. rewrite !fold_left_app. cbn [fold_left]. split; [apply store_ok; [exact (ol_functions _ _ _ _ _ _ OL)|exact I1|apply PE; apply in_app_iff; right; left; reflexivity]|].
        unfold reg_run in I2. rewrite <- I2. pose proof (so_monomials _ _ _ _ _ _ I1) as SM. clear I1 I2 PE. revert SM. generalize (fold_left stored_pair es0 (init_storage le (lifted_functions_vocabulary dom (a_sig a) None) degree)). intros s0 SM. unfold stored_pair, reg_pair, point, add_to_next_state_storage, add_to_previous_state_storage. cbn [st_effects st_monomials]. rewrite SM. reflexivity. }
    destruct SO as (SO & SE). destruct (ran le unit fit hull schmidt (fvoc dom a) degree (fvoc_named le unit fit dom degree traces OL a) ts OI (on_num st) R) as (_ & _ & _ & RG). rewrite RG, <- SE in EE.
    intros f args. eapply (effects_exact unit fine fit rank le dom (a_sig a) degree None n None (ol_functions _ _ _ _ _ _ OL) eq_refl np) with (cps := cps) (es := pairs_of ts) (qs := es) (qcs := qcs); try eassumption.
    + rewrite <- real_sig. eapply rn_part; eassumption.
    + intros Z. rewrite Z in FP. inversion FP as [Y|]. apply NE. symmetry. exact Y.
    + intros cp CP. destruct (cps_In cp CP) as (IC & _ & EN). apply (ol_values _ _ _ _ _ _ OL cp a IC). rewrite EN. exact GA.
    + discriminate.
    + eapply (means_from le dom (a_sig a) degree None n None eq_refl _ (pairs_of ts) es ws IE MQ). exact FQ.
    + intros cp CP. apply (success_of cp CP).
Qed.
End Claims.
