(** * Proofs: semi-online training of numeric actions from traces *)
From Coq Require Import Lia Lqa.
From Verif Require Import OnumSpec VocabProofs SamProofs OnlineProofs TrainProofs NsamMatch NsamStore NsamHull NsamSafe NsamLoop OnumProofs Prelude PreludeProofs.
Open Scope string_scope. Open Scope list_scope. Open Scope nat_scope.

(** ** Inputs that agree on the functions *)
Section Same.
Variable unit : positive.
Variable fit : list (list Q) -> list Q -> list Q * Q * bool.
Variable le : text -> text -> bool.
Variables (V : list term) (degree : nat).
Definition same_values (st st' : NumSpec.state) : Prop := forall t, In t V -> term_value st t = term_value st' t.
Lemma same_product st st' m : same_values st st' -> incl m V -> product_value st m = product_value st' m.
Proof. intros S0 I. unfold product_value. f_equal. apply map_ext_in. intros t T. apply S0, I, T. Qed.
Lemma same_sample st st' : same_values st st' -> state_sample le V degree st = state_sample le V degree st'.
Proof. intros S0. unfold state_sample. f_equal. apply map_ext_in. intros t T. rewrite (S0 t T). reflexivity. Qed.
Lemma same_samples sts sts' : Forall2 same_values sts sts' -> map (state_sample le V degree) sts = map (state_sample le V degree) sts'.
Proof. induction 1 as [|a b l l' S0 F IH]; [reflexivity|]. cbn. rewrite IH, (same_sample a b S0). reflexivity. Qed.
Lemma Forall2_firstn {A B} (R : A -> B -> Prop) l l' k : Forall2 R l l' -> Forall2 R (firstn k l) (firstn k l').
Proof. intros F. revert k. induction F; intros [|k]; cbn; constructor; auto. Qed.
Lemma Forall2_In_l {A B} (R : A -> B -> Prop) l l' b : Forall2 R l l' -> In b l' -> exists a, In a l /\ R a b.
Proof. induction 1 as [|x y l l' r F IH]; intros I; [destruct I|]. destruct I as [<-|I]; [exists x; split; [left; reflexivity|exact r]|]. destruct (IH I) as (a & A0 & A1). exists a. split; [right; exact A0|exact A1]. Qed.
Lemma Forall2_In_r {A B} (R : A -> B -> Prop) l l' a : Forall2 R l l' -> In a l -> exists b, In b l' /\ R a b.
Proof. induction 1 as [|x y l l' r F IH]; intros I; [destruct I|]. destruct I as [<-|I]; [exists y; split; [left; reflexivity|exact r]|]. destruct (IH I) as (b & A0 & A1). exists b. split; [right; exact A0|exact A1]. Qed.
Lemma numeric_same sts sts' : Forall2 same_values sts sts' -> numeric_input unit fit le V degree sts -> numeric_input unit fit le V degree sts'.
Proof.
  intros F [C S0 FI]. constructor.
  - intros st m I O. destruct (Forall2_In_l _ _ _ st F I) as (st0 & I0 & E). rewrite <- (same_product st0 st m E) by apply O. apply C; assumption.
  - intros st st' m I I' O. destruct (Forall2_In_l _ _ _ st F I) as (st0 & I0 & E). destruct (Forall2_In_l _ _ _ st' F I') as (st1 & I1 & E'). rewrite <- (same_product st0 st m E), <- (same_product st1 st' m E') by apply O. apply S0; assumption.
  - intros k d FC ST. apply (FI k d FC). rewrite (same_samples (firstn k sts) (firstn k sts')); [exact ST|]. apply Forall2_firstn. exact F.
Qed.
Lemma numeric_prefix sts more : numeric_input unit fit le V degree (sts ++ more) -> numeric_input unit fit le V degree sts.
Proof.
  intros [C S0 FI]. constructor.
  - intros st m I. apply C. apply in_app_iff. left. exact I.
  - intros st st' m I I'. apply S0; apply in_app_iff; left; assumption.
  - intros k d FC ST. destruct (Nat.le_gt_cases k (length sts)) as [K|K].
    + apply (FI k d FC). rewrite firstn_app. replace (k - length sts) with 0 by lia. cbn. rewrite app_nil_r. exact ST.
    + apply (FI (length sts) d FC). rewrite firstn_app, Nat.sub_diag. cbn. rewrite app_nil_r, firstn_all. rewrite firstn_all2 in ST by lia. exact ST.
Qed.
Lemma mean_same sts sts' st : Forall2 same_values sts sts' -> mean_state V degree sts st -> mean_state V degree sts' st.
Proof.
  intros F (qs & ws & I & L & NN & S1 & M).
  assert (P : exists qs', incl qs' sts' /\ Forall2 same_values qs qs').
  { clear L M. induction qs as [|q qs IH]; [exists []; split; [intros x []|constructor]|]. destruct IH as (qs' & I' & F'); [intros x X; apply I; right; exact X|].
    destruct (Forall2_In_r _ _ _ q F (I q (or_introl eq_refl))) as (q' & Q1 & Q2). exists (q' :: qs'). split; [intros x [<-|X]; [exact Q1|apply I', X]|constructor; assumption]. }
  destruct P as (qs' & I' & F'). exists qs', ws. split; [exact I'|]. split; [rewrite <- (Forall2_length F'); exact L|]. do 2 (split; [assumption|]).
  intros m O. rewrite (M m O). assert (E : map (fun q => product_value q m) qs = map (fun q => product_value q m) qs'); [|rewrite E; reflexivity].
  clear -F' O. induction F' as [|a b l l' S0 F IH]; [reflexivity|]. cbn. rewrite IH, (same_product a b m S0) by apply O. reflexivity.
Qed.
End Same.
Lemma Forall2_flip {A B} (R : A -> B -> Prop) l l' : Forall2 R l l' -> Forall2 (fun b a => R a b) l' l.
Proof. induction 1; constructor; auto. Qed.
Lemma Forall2_snoc {A B} (R : A -> B -> Prop) l l' a b : Forall2 R l l' -> R a b -> Forall2 R (l ++ [a]) (l' ++ [b]).
Proof. intros F r. apply Forall2_app; [exact F|constructor; [exact r|constructor]]. Qed.

(** ** Failures do not change the safe part of the discrete learner *)
Definition forget (st : odl) : odl := mkOdl (o_super st) (o_nopre st) [] (o_noeff st) (o_eff st).
Lemma forget_failure st s : forget (OnlineModel.add_transition_data st s [] false) = forget st.
Proof. unfold OnlineModel.add_transition_data, add_negative_pre. destruct (existsb _ (o_must st)); reflexivity. Qed.
Lemma forget_success st st' s s' : forget st = forget st' -> forget (OnlineModel.add_transition_data st s s' true) = forget (OnlineModel.add_transition_data st' s s' true).
Proof.
  destruct st as [a b c d e], st' as [a' b' c' d' e']. unfold forget. cbn [o_super o_nopre o_noeff o_eff]. intros E. injection E as -> -> -> ->. reflexivity.
Qed.

(** Every literal of a clause may still be a precondition. *)
Definition clauses_ok (st : odl) : Prop := forall c l, In c (o_must st) -> In l c -> In l (o_super st) /\ ~ In l (o_nopre st).
Lemma clauses_add st s s' ok : clauses_ok st -> clauses_ok (OnlineModel.add_transition_data st s s' ok).
Proof.
  intros H. unfold OnlineModel.add_transition_data, clauses_ok. destruct ok.
  - cbn [add_positive_post add_positive_pre o_must o_super o_nopre]. intros c l C I. apply in_map_iff in C. destruct C as (c0 & <- & C). apply set_diff_In in I. destruct I as (I & N). split; [apply (H c0 l C I)|exact N].
  - unfold add_negative_pre. destruct (existsb _ (o_must st)); [exact H|]. cbn [o_must o_super o_nopre]. intros c l C I. apply unit_propagation_incl, in_app_iff in C. destruct C as [C|[<-|[]]]; [apply (H c l C I)|].
    apply set_diff_In in I. destruct I as (I & N). apply set_diff_In in I. split; [apply I|exact N].
Qed.

Lemma of_action_evid traces n : of_action n traces = evid n (concat traces).
Proof.
  unfold of_action, evid. apply filter_ext. intros cp. unfold tells. rewrite <- !andb_assoc. f_equal. f_equal.
  destruct (ListDec.NoDup_dec string_dec (c_params (cp_call (nc_comp cp)))) as [D|D]; destruct (contains_duplicates (c_params (cp_call (nc_comp cp)))) eqn:E; try reflexivity.
  - apply contains_duplicates_true in E. contradiction.
  - apply contains_duplicates_spec in E. contradiction.
  - destruct (String.eqb_spec (c_name (cp_call (nc_comp cp))) n) as [H|H]; symmetry; [rewrite H; apply PreludeProofs.eqb_refl|apply PreludeProofs.eqb_neq; exact H].
Qed.

Section Train.
Variable le : text -> text -> bool.
Variables unit fine : positive.
Variable fit : list (list Q) -> list Q -> list Q * Q * bool.
Variable hull : list (list Q) -> option (list (list Q) * list Q).
Variable schmidt : list (list Q) -> list (list Q) -> list (list Q).
Variable rank : list (list Q) -> nat.
Hypothesis EL : exact_libraries unit fit hull schmidt.
Variables (dom : domain) (degree : nat) (traces : list (list ncomponent)).
Hypothesis OL : online_input unit fit le dom degree traces.
Definition fvoc (a : action) : list term := lifted_functions_vocabulary dom (a_sig a) None.
Lemma fvoc_named a : named_terms (fvoc a).
Proof.
  split; [apply vocabulary_NoDup|]. intros t T. apply vocabulary_In in T. destruct T as (fsig & objs & T & _). exact (ol_functions _ _ _ _ _ _ OL _ _ T).
Qed.
(** The literals before and after an execution. *)
Definition sees (a : action) (cp : ncomponent) (x : sample) : Prop :=
  let sg := call_assignment (a_sig a) (cp_call (nc_comp cp)) in
  exists p p', view dom (a_sig a) (cp_prev (nc_comp cp)) sg p /\ view dom (a_sig a) (cp_next (nc_comp cp)) sg p' /\ x = s_ok p p'.
Definition numeric_failures (n : string) (a : action) (cps : list ncomponent) (ts : list (fluents * option fluents)) : Prop :=
  forall before cp rest, cps = before ++ cp :: rest -> failed_numerically dom n a before cp -> exists x, In (x, None) ts /\ same_values (fvoc a) (num_before (a_sig a) cp) (fluents_state x).
Definition parts (n : string) (a : action) (cps : list ncomponent) (st : online onum fluents) (ts : list (fluents * option fluents)) (data : list sample) : Prop :=
  onum_run le unit fit hull schmidt (fvoc a) degree ts = Ok (on_num st) /\ (forall t, In t ts -> gives_values (fvoc a) (fst t)) /\
  Forall2 (pair_for dom (a_sig a)) (evid n cps) (pairs_of ts) /\ Forall2 (sees a) (evid n cps) data /\ forget (on_disc st) = forget (learned (voc dom a) data) /\ numeric_failures n a cps ts.
Record ainv (n : string) (a : action) (cps : list ncomponent) (st : online onum fluents) : Prop :=
  { av_parts : exists ts data, parts n a cps st ts data;
    av_undecided : forall s x, In (s, x) (on_undecided st) -> gives_values (fvoc a) x;
    av_clauses : clauses_ok (on_disc st) }.
Definition prefix (cps : list ncomponent) : Prop := exists rest, concat traces = cps ++ rest.

Lemma pairs_same a cps ts : Forall2 (pair_for dom (a_sig a)) cps (pairs_of ts) -> Forall2 (same_values (fvoc a)) (map (num_before (a_sig a)) cps) (map fluents_state (successes ts)).
Proof.
  rewrite <- pairs_successes, map_map. generalize (pairs_of ts). intros es F. induction F as [|cp e l l' P F IH]; cbn; [constructor|]. constructor; [|exact IH].
  intros t T. apply vocabulary_In in T. pose proof (pf_before _ _ _ _ P t T) as E. unfold num_before, lifted_state, fluents_state, term_value. destruct t as (f & args). cbn [fst snd] in *. rewrite E. reflexivity.
Qed.
Lemma numeric_of n a cps ts : dict_get (d_actions dom) n = Some a -> prefix cps -> Forall2 (pair_for dom (a_sig a)) (evid n cps) (pairs_of ts) -> (forall t, In t ts -> gives_values (fvoc a) (fst t)) ->
  onum_input unit fit le (fvoc a) degree ts.
Proof.
  intros G (rest & E) F VL. constructor; [apply fvoc_named|exact VL|]. eapply numeric_same; [apply pairs_same; exact F|].
  pose proof (ol_numeric _ _ _ _ _ _ OL n a G) as NU. rewrite of_action_evid, E in NU. unfold evid in NU. rewrite filter_app, map_app in NU. eapply numeric_prefix. exact NU.
Qed.

Lemma failures_more n a cps ts more : numeric_failures n a cps ts -> numeric_failures n a cps (ts ++ more).
Proof. intros H before cp rest E F. destruct (H before cp rest E F) as (x & X & S0). exists x. split; [apply in_app_iff; left; exact X|exact S0]. Qed.
Lemma snoc_split {A} (l : list A) x before y rest : l ++ [x] = before ++ y :: rest -> (before = l /\ y = x /\ rest = []) \/ exists rest', l = before ++ y :: rest'.
Proof.
  destruct rest as [|r0 rest0].
  - intros H. apply app_inj_tail in H. destruct H as (-> & ->). left. auto.
  - destruct (exists_last (l := r0 :: rest0)) as (rest' & z & ->); [discriminate|]. intros H. rewrite app_comm_cons, app_assoc in H. apply app_inj_tail in H. destruct H as (H & _). right. exists rest'. exact H.
Qed.
Lemma failures_snoc n a cps cp ts : numeric_failures n a cps ts -> (failed_numerically dom n a cps cp -> exists x, In (x, None) ts /\ same_values (fvoc a) (num_before (a_sig a) cp) (fluents_state x)) -> numeric_failures n a (cps ++ [cp]) ts.
Proof.
  intros H X before y rest E F. apply snoc_split in E. destruct E as [(-> & -> & _)|(rest' & E)]; [apply X; exact F|exact (H before y rest' E F)].
Qed.
(** A state with all the literals that always held is in the safe model. *)
Lemma safe_now n a cps data d s sg p : dict_get (d_actions dom) n = Some a -> Forall2 (sees a) cps data -> forget d = forget (learned (voc dom a) data) -> view dom (a_sig a) s sg p ->
  (forall l, always_seen dom (a_sig a) cps l -> lit_true s (ground sg l)) -> is_state_in_safe_model d p = true.
Proof.
  intros G F FD VW H. change (is_state_in_safe_model d p) with (is_state_in_safe_model (forget d) p). rewrite FD. change (is_state_in_safe_model (forget ?x) p) with (is_state_in_safe_model x p). apply safe_verdict_iff. intros l I. apply safe_literals in I. destruct I as (I & A).
  apply (voc_In (N := Datatypes.unit) (F := Datatypes.unit) (fun _ _ => true) (fun _ _ _ => tt) (fun _ => tt) dom (ol_wf _ _ _ _ _ _ OL) n a l G) in I. apply (VW l). split; [exact I|]. apply H. split; [exact I|].
  intros cp CP. destruct (Forall2_In_r _ _ _ cp F CP) as (x & X & (p1 & p2 & V1 & _ & ->)). apply (V1 l). apply (A p1 p2 X).
Qed.
Lemma run_more V ts t o : onum_run le unit fit hull schmidt V degree ts = Ok o -> onum_run le unit fit hull schmidt V degree (ts ++ [t]) = numeric_transition unit fit hull schmidt o (fst t) (snd t).
Proof. unfold onum_run. intros E. rewrite fold_res_app, E. cbn. destruct (numeric_transition unit fit hull schmidt o (fst t) (snd t)); reflexivity. Qed.
Lemma failure_step n a cps st s x : dict_get (d_actions dom) n = Some a -> prefix cps -> ainv n a cps st -> gives_values (fvoc a) x ->
  exists st', handle_numeric_failure unit fit hull schmidt st s x = Ok st' /\ ainv n a cps st' /\
    (is_state_in_safe_model (on_disc st) s = true -> exists ts data, parts n a cps st' ts data /\ In (x, None) ts).
Proof.
  intros G PR [(ts & data & R & VL & FP & FS & FD & NF) UN CL] GX. pose proof (numeric_of n a cps ts G PR FP VL) as OI. unfold handle_numeric_failure.
  destruct (is_state_in_safe_model (on_disc st) s).
  - cbn [numeric_transition bind]. eexists. split; [reflexivity|].
    assert (PA : parts n a cps (mkOnline (on_disc st) (add_negative_pre_state (on_num st) x) (on_undecided st) (on_reasons st ++ [r_numeric])) (ts ++ [(x, None)]) data).
    { split; [rewrite (run_more _ _ _ _ R); reflexivity|]. split; [intros t T; apply in_app_iff in T; destruct T as [T|[<-|[]]]; [apply VL, T|exact GX]|].
      split; [unfold pairs_of; rewrite flat_map_app; cbn; rewrite app_nil_r; exact FP|]. split; [exact FS|]. split; [exact FD|apply failures_more; exact NF]. }
    split; [|intros _; exists (ts ++ [(x, None)]), data; split; [exact PA|apply in_app_iff; right; left; reflexivity]].
    constructor; cbn [on_disc on_num on_undecided]; [|exact UN|exact CL]. exists (ts ++ [(x, None)]), data. exact PA.
  - assert (B : exists b, numeric_in_safe_model unit schmidt (on_num st) x = Ok b).
    { destruct (list_eq_dec eq_dec (fvoc a) []) as [EV|NV].
      - exists false. eapply in_safe_nothing; try eassumption. apply fvoc_named.
      - destruct (in_safe_total le unit fit hull schmidt (fvoc a) degree (fvoc_named a) EL ts OI (on_num st) R x NV GX) as (b & B & _). exists b. exact B. }
    destruct B as (b & ->). cbn [bind]. destruct b; (eexists; split; [reflexivity|]; split; [|discriminate]); constructor; cbn [on_disc on_num on_undecided].
    + exists ts, data. unfold parts. cbn [on_disc on_num]. do 4 (split; [assumption|]). split; [rewrite forget_failure; exact FD|exact NF].
    + exact UN.
    + apply clauses_add. exact CL.
    + exists ts, data. unfold parts. cbn [on_disc on_num]. do 5 (split; [assumption|]). exact NF.
    + intros s' x' I. apply in_app_iff in I. destruct I as [I|[E|[]]]; [eapply UN; exact I|]. injection E as <- <-. exact GX.
    + exact CL.
Qed.
Lemma failures_step n a cps l : dict_get (d_actions dom) n = Some a -> prefix cps -> forall st, ainv n a cps st -> (forall s x, In (s, x) l -> gives_values (fvoc a) x) ->
  exists st', fold_res (fun st sx => handle_numeric_failure unit fit hull schmidt st (fst sx) (snd sx)) l st = Ok st' /\ ainv n a cps st'.
Proof.
  intros G PR. induction l as [|(s & x) l IH]; intros st A H; [exists st; split; [reflexivity|exact A]|].
  destruct (failure_step n a cps st s x G PR A (H s x (or_introl eq_refl))) as (st1 & E1 & A1 & _). destruct (IH st1 A1) as (st2 & E2 & A2); [intros s' x' I; apply (H s' x'); right; exact I|].
  exists st2. cbn [fold_res fst snd]. rewrite E1. cbn [bind]. split; assumption.
Qed.
Lemma eliminate_step n a cps st : dict_get (d_actions dom) n = Some a -> prefix cps -> ainv n a cps st ->
  exists st', eliminate_numeric_undecided unit fit hull schmidt st = Ok st' /\ ainv n a cps st'.
Proof.
  intros G PR A. unfold eliminate_numeric_undecided. apply (failures_step n a cps); [exact G|exact PR| |].
  - destruct A as [A1 A2 A3]. constructor; [exact A1|intros s x []|exact A3].
  - intros s x I. apply in_rev in I. eapply av_undecided; eassumption.
Qed.

(** ** All actions *)
Record tinv (cps : list ncomponent) (L : numeric_learners) : Prop :=
  { tv_keys : dict_keys L = dict_keys (d_actions dom);
    tv_get : forall n a, dict_get (d_actions dom) n = Some a -> exists st, dict_get L n = Some st /\ ainv n a cps st }.
Lemma tinv_init : tinv [] (initialize_numeric le dom degree).
Proof.
  unfold initialize_numeric.
  set (f := fun na : string * action => (fst na, mkOnline (odl_init (lifted_vocabulary dom (a_sig (snd na)) None)) (init_onum le (lifted_functions_vocabulary dom (a_sig (snd na)) None) degree) ([] : list (list literal * fluents)) [])).
  assert (ND : NoDup (map fst (map f (d_actions dom)))) by (rewrite map_map; exact (wf_acts _ (ol_wf _ _ _ _ _ _ OL))).
  constructor.
  - rewrite dict_of_NoDup by exact ND. unfold dict_keys. rewrite map_map. reflexivity.
  - intros n a G. eexists. split.
    + rewrite dict_of_NoDup by exact ND. apply dict_In_get; [exact ND|]. apply in_map_iff. exists (n, a). split; [reflexivity|]. apply dict_get_In. exact G.
    + constructor; cbn [on_disc on_num on_undecided]; [|intros s x []|intros c l []]. exists [], []. split; [reflexivity|]. split; [intros t []|]. split; [constructor|]. split; [constructor|]. split; [reflexivity|]. intros before cp rest E. destruct before; discriminate E.
Qed.
Lemma tinv_set cps cps' L n a st : tinv cps L -> dict_get (d_actions dom) n = Some a -> ainv n a cps' st -> (forall m, m <> n -> evid m cps' = evid m cps) ->
  (forall m b, m <> n -> forall ts, numeric_failures m b cps ts -> numeric_failures m b cps' ts) -> tinv cps' (dict_set L n st).
Proof.
  intros [K T] G A H HF. constructor.
  - rewrite dict_set_keys_existing; [exact K|]. rewrite K. eapply dict_get_key. exact G.
  - intros m b Gb. rewrite dict_get_set. destruct (eq_dec m n) as [->|NE].
    + assert (b = a) by congruence. subst b. exists st. auto.
    + destruct (T m b Gb) as (st' & E & [A1 A2 A3]). exists st'. split; [exact E|]. constructor; [|exact A2|exact A3]. destruct A1 as (ts & data & R & VL & FP & FS & FD & NF). exists ts, data. unfold parts. rewrite (H m NE). do 5 (split; [assumption|]). apply HF; assumption.
Qed.
Lemma prefix_of cps cp : prefix (cps ++ [cp]) -> prefix cps.
Proof. intros (rest & E). exists ([cp] ++ rest). rewrite E, app_assoc. reflexivity. Qed.
Lemma matched_values a c (fl : fluents) : good_call dom a c -> NoDup (c_params c) -> no_constant_args dom c ->
  (forall t, num_mentionable dom (a_sig a) t -> exists v, dict_get fl (fst t, map (call_assignment (a_sig a) c) (snd t)) = Some v) ->
  exists m, match_state_functions dom c (numeric_state_snapshot fl (parameterized_objects dom a c)) = Ok m /\ NoDup (dict_keys m) /\
    forall t, num_mentionable dom (a_sig a) t -> dict_get m t = dict_get fl (fst t, map (call_assignment (a_sig a) c) (snd t)).
Proof.
  intros GC NP NC CF. destruct (match_snapshot dom a c GC NP NC) with (st := fl) as (m & E & M).
  - intros f F. destruct (CF (f, [])) as (v & V); [exists [], []; repeat split; [exact F|intros ? []|constructor|constructor]|]. cbn in V. rewrite V. discriminate.
  - exists m. split; [exact E|]. split; [eapply match_NoDup; exact E|]. intros t T. destruct (CF t T) as (v & V). rewrite V. apply M. split; [apply (mentionable_declared dom dom a t eq_refl eq_refl T)|exact V].
Qed.
Lemma component_done cps L cp : prefix (cps ++ [cp]) -> tinv cps L ->
  (exists L', numeric_train_component unit fit hull schmidt dom L cp = Ok L' /\ tinv (cps ++ [cp]) L') \/
  (numeric_train_component unit fit hull schmidt dom L cp = Err RuntimeError /\ hull_failure hull).
Proof.
  intros PR T. assert (IN : In cp (concat traces)) by (destruct PR as (rest & ->); apply in_app_iff; left; apply in_app_iff; right; left; reflexivity).
  destruct (ol_calls _ _ _ _ _ _ OL cp IN) as ((a & Ga & Hlen) & Hc). unfold numeric_train_component.
  destruct (contains_duplicates (c_params (cp_call (nc_comp cp)))) eqn:D.
  { left. exists L. split; [reflexivity|]. destruct T as [K G]. constructor; [exact K|]. intros n b Gb. destruct (G n b Gb) as (st & E & [A1 A2 A3]). exists st. split; [exact E|]. constructor; [|exact A2|exact A3].
    assert (TF : tells n cp = false) by (unfold tells; rewrite D, andb_false_r; reflexivity).
    destruct A1 as (ts & data & R & VL & FP & FS & FD & NF). exists ts, data. unfold parts. rewrite evid_snoc, TF. do 5 (split; [assumption|]). apply failures_snoc; [exact NF|]. intros (_ & ND & _). apply contains_duplicates_true in D. contradiction. }
  pose proof (proj1 (contains_duplicates_spec _) D) as ND. unfold numeric_train_transition. set (c := cp_call (nc_comp cp)) in *.
  assert (GC : good_call dom a c).
  { assert (J := Ga). apply dict_get_In in J. pose proof (ol_wf _ _ _ _ _ _ OL) as W. constructor; auto; [eapply wf_sigs; eassumption|intros y; eapply wf_disj; eassumption|exact (wf_consts _ W)]. }
  rewrite (dict_lookup_Some _ _ _ Ga). cbn [bind]. unfold triplet_snapshot. rewrite (dict_lookup_Some _ _ _ Ga). cbn [bind]. unfold bound_predicates.
  destruct (lifted_snapshot dom a c (cp_prev (nc_comp cp)) GC ND Hc) as (p & Ep & Hp). destruct (lifted_snapshot dom a c (cp_next (nc_comp cp)) GC ND Hc) as (p' & Ep' & Hp').
  pose proof (ol_values _ _ _ _ _ _ OL cp a IN Ga) as CF.
  destruct (matched_values a c (nc_prev cp) GC ND Hc) as (x & Ex & NX & HX); [intros t M; apply (CF t M); left; reflexivity|].
  destruct (matched_values a c (nc_next cp) GC ND Hc) as (x' & Ex' & NX' & HX'); [intros t M; apply (CF t M); right; reflexivity|].
  rewrite Ep. cbn [bind]. rewrite Ex. cbn [bind]. rewrite Ep'. cbn [bind]. rewrite Ex'. cbn [bind].
  destruct (tv_get _ _ T _ _ Ga) as (st & Es & A). rewrite (dict_lookup_Some _ _ _ Es). cbn [bind].
  assert (GX : gives_values (fvoc a) x).
  { intros t I. apply vocabulary_In in I. destruct (CF t I _ (or_introl eq_refl)) as (v & E). exists v. rewrite (HX t I). exact E. }
  assert (OTHER : forall m, m <> c_name c -> evid m (cps ++ [cp]) = evid m cps).
  { intros m NE. rewrite evid_snoc. assert (TF : tells m cp = false); [|rewrite TF; reflexivity]. unfold tells. fold c. rewrite (proj2 (PreludeProofs.eqb_neq (c_name c) m)) by (intros X; apply NE; symmetry; exact X). apply andb_false_r. }
  assert (OTHERS : forall m b, m <> c_name c -> forall ts, numeric_failures m b cps ts -> numeric_failures m b (cps ++ [cp]) ts).
  { intros m b NE ts H. apply failures_snoc; [exact H|]. intros (_ & _ & X & _). exfalso. apply NE. symmetry. exact X. }
  unfold add_numeric_execution. destruct (cp_ok (nc_comp cp)) eqn:OK.
  - destruct A as [(ts & data & R & VL & FP & FS & FD & NF) UN CL].
    assert (TL : tells (c_name c) cp = true) by (apply tells_spec; split; [split; assumption|reflexivity]).
    assert (PF : pair_for dom (a_sig a) cp (x, x')) by (constructor; assumption).
    assert (FP' : Forall2 (pair_for dom (a_sig a)) (evid (c_name c) (cps ++ [cp])) (pairs_of (ts ++ [(x, Some x')]))).
    { rewrite evid_snoc, TL. unfold pairs_of. rewrite flat_map_app. apply Forall2_snoc; assumption. }
    assert (VL' : forall t, In t (ts ++ [(x, Some x')]) -> gives_values (fvoc a) (fst t)) by (intros t I; apply in_app_iff in I; destruct I as [I|[<-|[]]]; [apply VL, I|exact GX]).
    pose proof (numeric_of _ a _ _ Ga PR FP' VL') as OI.
    pose proof (total_run le unit fit hull schmidt (fvoc a) degree (fvoc_named a) EL _ OI) as TR. rewrite (run_more _ _ _ _ R) in TR. cbn [fst snd] in TR.
    destruct TR as [(o & TR)|(TR & HF)]; [left|right; rewrite TR; cbn [bind]; auto]. rewrite TR. cbn [bind]. eexists. split; [reflexivity|].
    apply (tinv_set cps _ L (c_name c) a); [exact T|exact Ga| |exact OTHER|exact OTHERS]. constructor; cbn [on_disc on_num on_undecided]; [|exact UN|apply clauses_add; exact CL].
    exists (ts ++ [(x, Some x')]), (data ++ [s_ok (to_set p) (to_set p')]). split; [rewrite (run_more _ _ _ _ R); exact TR|]. split; [exact VL'|]. split; [exact FP'|]. split; [|split].
    + rewrite evid_snoc, TL. apply Forall2_snoc; [exact FS|]. exists (to_set p), (to_set p'). split; [intros l; rewrite to_set_In; apply Hp|]. split; [intros l; rewrite to_set_In; apply Hp'|reflexivity].
    + rewrite learned_snoc. unfold observe. apply forget_success. exact FD.
    + apply failures_more, failures_snoc; [exact NF|]. intros (X & _). congruence.
  - left. assert (EV : forall m, evid m (cps ++ [cp]) = evid m cps) by (intros m; rewrite evid_snoc; unfold tells; rewrite OK; reflexivity).
    destruct (failure_step _ a _ st (to_set p) x Ga (prefix_of _ _ PR) A GX) as (st' & E & A2 & SAFE). rewrite E. cbn [bind]. eexists. split; [reflexivity|].
    apply (tinv_set cps _ L (c_name c) a); [exact T|exact Ga| |exact OTHER|exact OTHERS].
    assert (VP : view dom (a_sig a) (cp_prev (nc_comp cp)) (call_assignment (a_sig a) c) (to_set p)) by (intros l; rewrite to_set_In; apply Hp).
    assert (SX : same_values (fvoc a) (num_before (a_sig a) cp) (fluents_state x)).
    { intros t I. apply vocabulary_In in I. pose proof (HX t I) as EQ. unfold num_before, lifted_state, fluents_state, term_value. destruct t as (f & args). cbn [fst snd] in *. fold c. rewrite EQ. reflexivity. }
    assert (DEC : is_state_in_safe_model (on_disc st) (to_set p) = true \/ ~ failed_numerically dom (c_name c) a cps cp).
    { destruct (is_state_in_safe_model (on_disc st) (to_set p)) eqn:ES; [left; reflexivity|right]. intros (_ & _ & _ & H). destruct A as [(ts & data & _ & _ & _ & FS & FD & _) _ _].
      rewrite of_action_evid in H. cbn [concat] in H. rewrite app_nil_r in H. rewrite (safe_now _ a _ data (on_disc st) _ _ _ Ga FS FD VP H) in ES. discriminate ES. }
    destruct A2 as [(ts & data & R & VL & FP & FS & FD & NF) UN CL]. constructor; [|exact UN|exact CL]. destruct DEC as [SA|NO].
    + destruct (SAFE SA) as (ts' & data' & (R' & VL' & FP' & FS' & FD' & NF') & IN'). exists ts', data'. unfold parts. rewrite EV. do 5 (split; [assumption|]). apply failures_snoc; [exact NF'|]. intros _. exists x. split; [exact IN'|exact SX].
    + exists ts, data. unfold parts. rewrite EV. do 5 (split; [assumption|]). apply failures_snoc; [exact NF|]. intros X. contradiction.
Qed.
Lemma review_done cps L n : prefix cps -> tinv cps L -> In n (dict_keys (d_actions dom)) -> exists L', numeric_review unit fit hull schmidt L n = Ok L' /\ tinv cps L'.
Proof.
  intros PR T I. apply dict_get_Some_iff in I. destruct I as (a & Ga). destruct (tv_get _ _ T n a Ga) as (st & Es & A). unfold numeric_review. rewrite (dict_lookup_Some _ _ _ Es). cbn [bind].
  destruct (eliminate_step n a cps st Ga PR A) as (st' & E & A'). rewrite E. cbn [bind]. eexists. split; [reflexivity|]. apply (tinv_set cps cps L n a); auto.
Qed.
Lemma reviews_done cps ns : prefix cps -> incl ns (dict_keys (d_actions dom)) -> forall L, tinv cps L -> exists L', fold_res (numeric_review unit fit hull schmidt) ns L = Ok L' /\ tinv cps L'.
Proof.
  intros PR. induction ns as [|n ns IH]; intros I L T; [exists L; auto|]. destruct (review_done cps L n PR T (I n (or_introl eq_refl))) as (L1 & E1 & T1).
  destruct (IH (fun x X => I x (or_intror X)) L1 T1) as (L2 & E2 & T2). exists L2. cbn [fold_res]. rewrite E1. auto.
Qed.
Lemma components_done trace : forall cps L, prefix (cps ++ trace) -> tinv cps L ->
  (exists L', fold_res (numeric_train_component unit fit hull schmidt dom) trace L = Ok L' /\ tinv (cps ++ trace) L') \/
  (fold_res (numeric_train_component unit fit hull schmidt dom) trace L = Err RuntimeError /\ hull_failure hull).
Proof.
  induction trace as [|cp trace IH]; intros cps L PR T; [left; exists L; rewrite app_nil_r; auto|].
  replace (cps ++ cp :: trace) with ((cps ++ [cp]) ++ trace) in * by (rewrite <- app_assoc; reflexivity).
  assert (PR1 : prefix (cps ++ [cp])) by (destruct PR as (rest & E); exists (trace ++ rest); rewrite E, !app_assoc; reflexivity).
  cbn [fold_res]. destruct (component_done cps L cp PR1 T) as [(L1 & E1 & T1)|(E1 & HF)]; rewrite E1; cbn [bind]; [|right; auto]. apply IH; assumption.
Qed.
Lemma train_done : (exists L, numeric_train le unit fit hull schmidt dom degree traces = Ok L /\ tinv (concat traces) L) \/
  (numeric_train le unit fit hull schmidt dom degree traces = Err RuntimeError /\ hull_failure hull).
Proof.
  unfold numeric_train. assert (G : forall more cps L, concat traces = cps ++ concat more -> tinv cps L ->
    (exists L', fold_res (numeric_train_trace unit fit hull schmidt dom) more L = Ok L' /\ tinv (cps ++ concat more) L') \/ (fold_res (numeric_train_trace unit fit hull schmidt dom) more L = Err RuntimeError /\ hull_failure hull)).
  { induction more as [|trace more IH]; intros cps L E T; [left; exists L; cbn; rewrite app_nil_r; auto|]. cbn [concat] in *. rewrite app_assoc in *.
    cbn [fold_res]. unfold numeric_train_trace at 1 3. destruct (components_done trace cps L) as [(L1 & E1 & T1)|(E1 & HF)]; [exists (concat more); exact E|exact T| |rewrite E1; right; auto].
    rewrite E1. cbn [bind]. destruct (reviews_done (cps ++ trace) (dict_keys (d_actions dom))) with (L := L1) as (L2 & E2 & T2); [exists (concat more); exact E|apply incl_refl|exact T1|]. rewrite E2. cbn [bind]. apply IH; assumption. }
  destruct (G traces [] _ eq_refl tinv_init) as [X|X]; [left|right]; exact X.
Qed.
End Train.
