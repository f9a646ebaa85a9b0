(** * Proofs: the claims about semi-online numeric learning *)
From Coq Require Import Lia Lqa.
From Verif Require Import OnumSpec SamProofs OnlineProofs OnumProofs OnumTrain OnumClaims OnumInform Prelude PreludeProofs.
Open Scope string_scope. Open Scope list_scope. Open Scope nat_scope.

(** ** One learner *)
Lemma one_safe_exact le unit fine fit hull schmidt rank V degree ts o conditions effects : exact_libraries unit fit hull schmidt -> onum_input unit fit le V degree ts ->
  onum_run le unit fit hull schmidt V degree ts = Ok o -> successes ts <> [] -> numeric_safe_model unit fine fit rank o = Ok (conditions, effects) ->
  exists l, conditions = Some l /\ forall st, (forall t, In t l -> satisfied st t) <-> mean_state V degree (map fluents_state (successes ts)) st.
Proof.
  intros EL OI R NE M. destruct (safe_mean le unit fit hull schmidt V degree (oi_names _ _ _ _ _ _ OI) EL ts OI o R NE) as (c & C & NN & H). unfold numeric_safe_model in M. rewrite C in M. cbn [bind] in M.
  destruct (construct_assignment_equations unit fine fit rank (om_reg o) false None) as [(((l' & e) & x) & s)|]; [|discriminate]. cbn [bind] in M. injection M as <- <-. destruct c as [l|]; [|congruence]. exists l. split; [reflexivity|exact H].
Qed.
Lemma one_total le unit fit hull schmidt V degree ts : exact_libraries unit fit hull schmidt -> onum_input unit fit le V degree ts -> done hull (onum_run le unit fit hull schmidt V degree ts).
Proof. intros EL OI. apply (total_run le unit fit hull schmidt V degree (oi_names _ _ _ _ _ _ OI) EL ts OI). Qed.
Lemma one_inside le unit fit hull schmidt V degree ts o fs : exact_libraries unit fit hull schmidt -> onum_input unit fit le V degree ts -> onum_run le unit fit hull schmidt V degree ts = Ok o ->
  V <> [] -> gives_values V fs -> exists b, numeric_in_safe_model unit schmidt o fs = Ok b /\ (mean_state V degree (map fluents_state (successes ts)) (fluents_state fs) -> b = true).
Proof. intros EL OI R NV G. exact (in_safe_total le unit fit hull schmidt V degree (oi_names _ _ _ _ _ _ OI) EL ts OI o R fs NV G). Qed.
Lemma one_roughly le unit fine fit hull schmidt rank V degree ts o fs conditions effects : exact_libraries unit fit hull schmidt -> onum_input unit fit le V degree ts -> onum_run le unit fit hull schmidt V degree ts = Ok o ->
  successes ts <> [] -> V <> [] -> gives_values V fs -> numeric_safe_model unit fine fit rank o = Ok (Some conditions, effects) -> numeric_in_safe_model unit schmidt o fs = Ok true ->
  forall t, In t conditions -> roughly (fluents_state fs) (EPSILON unit) t.
Proof.
  intros EL OI R NE NV G M. apply (in_safe_roughly le unit fit hull schmidt V degree (oi_names _ _ _ _ _ _ OI) EL ts OI o R fs conditions NE NV G).
  unfold numeric_safe_model in M. destruct (construct_safe unit (om_hull o)) as [c|]; [|discriminate]. cbn [bind] in M. destruct (construct_assignment_equations unit fine fit rank (om_reg o) false None) as [(((l' & e) & x) & s)|]; [|discriminate]. injection M as -> _. reflexivity.
Qed.
Lemma one_optimistic le unit fine fit hull schmidt rank svm limit V degree ts o conditions effects : exact_libraries unit fit hull schmidt -> onum_input unit fit le V degree ts -> onum_run le unit fit hull schmidt V degree ts = Ok o ->
  V <> [] -> successes ts <> [] -> separating unit svm (length (columns_of le V degree)) (labelled le V degree ts) -> length (filter (fun t => match snd t with Some _ => false | None => true end) ts) <= limit ->
  numeric_optimistic_model unit fine fit rank svm limit o = Ok (conditions, effects) ->
  forall t, In t ts -> ((forall c, In c conditions -> satisfied (fluents_state (fst t)) c) <-> snd t <> None).
Proof.
  intros EL OI R NV NE SEP LIM M. destruct (optimistic_separates le unit fit hull schmidt svm limit V degree (oi_names _ _ _ _ _ _ OI) ts OI o R NV SEP) as (c & C & H); [|exact NE|].
  - clear -LIM. replace (filter (fun t : fluents * option fluents => negb (outcome_of (snd t))) ts) with (filter (fun t : fluents * option fluents => match snd t with Some _ => false | None => true end) ts); [exact LIM|]. clear. induction ts as [|(a & [b|]) l IH]; cbn; [reflexivity|exact IH|f_equal; exact IH].
  - unfold numeric_optimistic_model in M. rewrite C in M. cbn [bind] in M. destruct (construct_assignment_equations unit fine fit rank (om_reg o) true None) as [(((l' & e) & x) & s)|]; [|discriminate]. injection M as <- _. exact H.
Qed.
Lemma one_effects unit fine fit rank svm limit o c e c' e' : numeric_safe_model unit fine fit rank o = Ok (c, e) -> numeric_optimistic_model unit fine fit rank svm limit o = Ok (c', e') -> e' = e.
Proof.
  unfold numeric_safe_model, numeric_optimistic_model. destruct (construct_safe unit (om_hull o)); [|discriminate]. cbn [bind]. destruct (construct_assignment_equations unit fine fit rank (om_reg o) false None) as [(((l1 & e1) & x1) & s1)|] eqn:E1; [|discriminate]. cbn [bind]. intros A. injection A as _ <-.
  destruct (construct_linear_inequalities unit svm limit (om_svm o)); [|discriminate]. cbn [bind]. destruct (construct_assignment_equations unit fine fit rank (om_reg o) true None) as [(((l2 & e2) & x2) & s2)|] eqn:E2; [|discriminate]. intros B. injection B as _ <-.
  eapply effects_agree; eassumption.
Qed.
Lemma one_failures le unit fine fit hull schmidt rank V degree ts ts' o : observed_pairs ts = observed_pairs ts' -> onum_run le unit fit hull schmidt V degree ts = Ok o ->
  exists o', onum_run le unit fit hull schmidt V degree ts' = Ok o' /\ numeric_safe_model unit fine fit rank o' = numeric_safe_model unit fine fit rank o /\
    forall x, numeric_in_safe_model unit schmidt o' x = numeric_in_safe_model unit schmidt o x.
Proof. apply failures_irrelevant. Qed.

(** ** The trained domain *)
Lemma model_entry unit fine fit rank fl dom L model n e : construct_safe_action_model unit fine fit rank fl dom L = Ok model -> dict_get model n = Some e ->
  In n (dict_keys (d_actions dom)) /\ exists st, dict_get L n = Some st /\ export_safe unit fine fit rank fl st = Ok e.
Proof.
  unfold construct_safe_action_model, construct_action_model. intros M G. apply map_res_Ok in M. apply dict_get_In in G. revert G. induction M as [|m (m' & e') ks l E M IH]; intros G; [destruct G|].
  destruct G as [G|G]; [|destruct (IH G) as (A & B); split; [right; exact A|exact B]]. injection G as -> ->. destruct (dict_lookup L m) as [st|] eqn:EL; [|discriminate]. cbn [bind] in E. destruct (export_safe unit fine fit rank fl st) as [e'|] eqn:EE; [|discriminate]. injection E as <- <-.
  split; [left; reflexivity|]. exists st. split; [|exact EE]. unfold dict_lookup in EL. destruct (dict_get L m); [injection EL as <-; reflexivity|discriminate].
Qed.
Lemma model_keys unit fine fit rank fl dom L model : construct_safe_action_model unit fine fit rank fl dom L = Ok model -> dict_keys model = dict_keys (d_actions dom).
Proof.
  unfold construct_safe_action_model, construct_action_model. intros M. apply map_res_Ok in M. unfold dict_keys at 1. induction M as [|m (m' & e') ks l E M IH]; [reflexivity|]. cbn. f_equal; [|exact IH].
  destruct (dict_lookup L m) as [st|]; [|discriminate]. cbn [bind] in E. destruct (export_safe unit fine fit rank fl st) as [e''|]; [|discriminate]. injection E as <- _. reflexivity.
Qed.
Section Domain.
Variables (le : text -> text -> bool) (unit fine : positive) (fit : list (list Q) -> list Q -> list Q * Q * bool) (hull : list (list Q) -> option (list (list Q) * list Q))
  (schmidt : list (list Q) -> list (list Q) -> list (list Q)) (rank : list (list Q) -> nat) (dom : domain) (degree : nat) (traces : list (list ncomponent)) (L : numeric_learners) (fl : bool) (model : list (string * exported)).
Hypothesis EL : exact_libraries unit fit hull schmidt.
Hypothesis OL : online_input unit fit le dom degree traces.
Hypothesis TR : numeric_train le unit fit hull schmidt dom degree traces = Ok L.
Hypothesis CM : construct_safe_action_model unit fine fit rank fl dom L = Ok model.
Variables (n : string) (a : action) (e : exported).
Hypothesis GA : dict_get (d_actions dom) n = Some a.
Hypothesis GE : dict_get model n = Some e.
Lemma model_literals sg s g : export_applicable e sg s g -> forall l, always_seen dom (a_sig a) (of_action n traces) l -> lit_true s (ground sg l).
Proof. destruct (model_entry _ _ _ _ _ _ _ _ _ _ CM GE) as (_ & st & GS & EX). exact (export_literals le unit fine fit hull schmidt rank EL dom degree traces OL L TR n a GA st GS fl e EX sg s g). Qed.
Hypothesis NE : of_action n traces <> [].
Lemma model_exact sg s g : export_applicable e sg s g <->
  (forall l, always_seen dom (a_sig a) (of_action n traces) l -> lit_true s (ground sg l)) /\
  mean_state (lifted_functions_vocabulary dom (a_sig a) None) degree (map (num_before (a_sig a)) (of_action n traces)) (lifted_state sg g).
Proof. destruct (model_entry _ _ _ _ _ _ _ _ _ _ CM GE) as (_ & st & GS & EX). exact (export_exact le unit fine fit hull schmidt rank EL dom degree traces OL L TR n a GA st GS NE fl e EX sg s g). Qed.
Lemma model_observed cp : In cp (of_action n traces) -> export_applicable e (call_assignment (a_sig a) (cp_call (nc_comp cp))) (cp_prev (nc_comp cp)) (fluents_state (nc_prev cp)).
Proof. destruct (model_entry _ _ _ _ _ _ _ _ _ _ CM GE) as (_ & st & GS & EX). exact (export_observed le unit fine fit hull schmidt rank EL dom degree traces OL L TR n a GA st GS NE fl e EX cp). Qed.
Lemma model_safe real r np : real_numeric_actions dom degree real -> (forall cp, In cp (of_action n traces) -> real_success dom real cp) -> real n = Some (r, np) ->
  (exists k, fine = (unit * k)%positive) -> exact_regression unit fit -> safe_export dom r np e.
Proof. destruct (model_entry _ _ _ _ _ _ _ _ _ _ CM GE) as (_ & st & GS & EX). intros RN RS ER FINE REG. exact (export_safety le unit fine fit hull schmidt rank EL dom degree traces OL L TR n a GA st GS NE fl e EX real RN RS r np ER FINE REG). Qed.
End Domain.
Lemma training_done le unit fit hull schmidt dom degree traces : exact_libraries unit fit hull schmidt -> online_input unit fit le dom degree traces -> done hull (numeric_train le unit fit hull schmidt dom degree traces).
Proof. intros EL OL. destruct (train_done le unit fit hull schmidt EL dom degree traces OL) as [(L & E & _)|(E & F)]; [left; exists L; exact E|right; split; assumption]. Qed.

(** ** New samples *)
Section Samples.
Variables (le : text -> text -> bool) (unit : positive) (fit : list (list Q) -> list Q -> list Q * Q * bool) (hull : list (list Q) -> option (list (list Q) * list Q))
  (schmidt : list (list Q) -> list (list Q) -> list (list Q)) (V : list term) (degree : nat) (ts : list (fluents * option fluents)) (o : onum).
Hypothesis EL : exact_libraries unit fit hull schmidt.
Hypothesis OI : onum_input unit fit le V degree ts.
Hypothesis RUN : onum_run le unit fit hull schmidt V degree ts = Ok o.
Hypothesis NV : V <> [].
Variables (U : list literal) (data : list sample).
Lemma sample_inside failures s x : gives_values V x -> (forall l, In l U -> (forall p q, In (s_ok p q) data -> In l p) -> In l s) ->
  mean_state V degree (map fluents_state (successes ts)) (fluents_state x) ->
  sample_applicable unit schmidt (learned U data) o s x = Ok true /\ sample_informative unit fit hull schmidt (learned U data) o failures s x = Ok false.
Proof.
  intros G D M. assert (A : sample_applicable unit schmidt (learned U data) o s x = Ok true).
  { unfold sample_applicable, is_state_in_safe_model. replace (subsetb _ s) with true.
    - destruct (one_inside le unit fit hull schmidt V degree ts o x EL OI RUN NV G) as (b & B & H). rewrite B, (H M). reflexivity.
    - symmetry. apply subsetb_incl. intros l I. assert (I' : In l (largest U data)) by exact I. apply safe_literals in I'. apply D; apply I'. }
  split; [exact A|]. unfold sample_informative. rewrite A. reflexivity.
Qed.
Lemma sample_failed xs y s x : (forall z, In z xs -> gives_values V z) -> gives_values V x -> numeric_input unit fit le V degree (map fluents_state (successes ts) ++ [fluents_state x]) ->
  (exists u v t, In u (successes ts) /\ In v (successes ts) /\ In t V /\ ~ (term_value (fluents_state u) t == term_value (fluents_state v) t)%Q) ->
  In y xs -> mean_state V degree (map fluents_state (successes ts) ++ [fluents_state x]) (fluents_state y) ->
  let r := sample_informative unit fit hull schmidt (learned U data) o (failure_table o (columns_of le V degree) xs) s x in r = Ok false \/ (r = Err RuntimeError /\ hull_failure hull).
Proof.
  intros GS GX NU TWO Y M. cbv zeta. unfold sample_informative. assert (A : exists b, sample_applicable unit schmidt (learned U data) o s x = Ok b).
  { unfold sample_applicable. destruct (is_state_in_safe_model _ s); [|eexists; reflexivity]. destruct (one_inside le unit fit hull schmidt V degree ts o x EL OI RUN NV GX) as (b & B & _). exists b. exact B. }
  destruct A as (b & ->). cbn [bind]. destruct b; [left; reflexivity|]. destruct (is_state_not_applicable (learned U data) s); [left; reflexivity|].
  destruct (known_failure le unit fit hull schmidt V degree (oi_names _ _ _ _ _ _ OI) NV EL ts OI o RUN x GX NU TWO xs GS y Y M) as [-> |(-> & F)]; [left; reflexivity|right; split; [reflexivity|exact F]].
Qed.
Lemma sample_bad xs x o' conditions effects fine rank : (forall z, In z xs -> gives_values V z) -> gives_values V x -> numeric_input unit fit le V degree (map fluents_state (successes ts) ++ [fluents_state x]) ->
  (exists u v t, In u (successes ts) /\ In v (successes ts) /\ In t V /\ ~ (term_value (fluents_state u) t == term_value (fluents_state v) t)%Q) ->
  numeric_not_applicable unit fit hull schmidt o (failure_table o (columns_of le V degree) xs) x = Ok true ->
  onum_run le unit fit hull schmidt V degree (ts ++ [(x, Some x)]) = Ok o' -> numeric_safe_model unit fine fit rank o' = Ok (Some conditions, effects) ->
  exists y, In y xs /\ forall t, In t conditions -> roughly (fluents_state y) (EPSILON unit) t.
Proof.
  intros GS GX NU TWO B R' M. pose proof (oi_names _ _ _ _ _ _ OI) as NT. destruct (with_point le unit fit hull schmidt V degree NT NV EL ts OI o RUN x GX NU) as [(h & A & R)|(A & _)].
  - eapply (bad_reason le unit fit hull schmidt V degree NT NV EL ts OI o RUN x GX NU TWO xs GS conditions h B A).
    destruct (ran le unit fit hull schmidt V degree NT _ (more le unit fit V degree NT ts OI x GX NU) o' R') as (H & _). unfold successes in H. rewrite flat_map_app, map_app in H. fold (successes ts) in H. cbn [flat_map snd app map fst] in H. rewrite R in H. injection H as ->.
    unfold numeric_safe_model in M. destruct (construct_safe unit (om_hull o')) as [c|]; [|discriminate]. cbn [bind] in M. destruct (construct_assignment_equations unit fine fit rank (om_reg o') false None) as [(((l' & e) & x') & s)|]; [|discriminate]. injection M as -> _. reflexivity.
  - exfalso. unfold numeric_not_applicable in B. rewrite (copied_here le unit fit hull schmidt V degree NT NV EL ts OI o RUN TWO) in B. cbn [bind] in B. destruct (length (f_rows (i_data (om_hull o))) <=? 1); [discriminate|]. rewrite A in B. discriminate.
Qed.
End Samples.
