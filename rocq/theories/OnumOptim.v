(** * Proofs: the optimistic numeric model includes the safe one *)
From Coq Require Import Lia Lqa.
From Verif Require Import OnumSpec NumProofs MonoProofs SvmProofs HullProofs HullObserved HullSafe HullMean RegProofs SamProofs VocabProofs DepProofs SamResults NsamMatch NsamStore NsamHull NsamSafe IncProofs IncSafe OnlineProofs TrainProofs OnumProofs OnumTrain OnumClaims OnumFinal Prelude PreludeProofs.
Open Scope string_scope. Open Scope list_scope. Open Scope nat_scope.

(** ** Planes *)
Section Planes.
Variable unit : positive.
Variable svm : list (list Q * bool) -> list Q * Q.
Lemma loop_made n all fuel : separating unit svm n all -> forall points, incl points all -> (forall p, In (p, true) all -> In (p, true) points) ->
  forall p, In p (planes_loop unit svm fuel all points) -> exists l, valid all l /\ made unit svm all l p.
Proof.
  intros SP. induction fuel as [|fuel IH]; intros points IN PO p P; [destruct P|]. cbn [planes_loop] in P.
  destruct (forallb (fun p => snd p) points || forallb (fun p => negb (snd p)) points) eqn:B; [destruct P|].
  destruct (one_label points B) as (p1 & q & P1 & N). destruct (with_closest_spec points p1 q P1 N) as (r & R & W1 & W2 & W3 & W4). set (l := with_closest points) in *.
  assert (V : valid all l). { exists r. split; [intros x X; apply IN, W1, X|]. split; [intros x X; apply W2, PO, X|]. auto. }
  assert (SR : predicts_negative (svm l) r = true). { destruct V as (_ & V1 & V2 & _). destruct (SP l r V1 V2 W3 W4) as (_ & _ & _ & _ & S1 & _). apply predicts_spec. lra. }
  assert (C : existsb (fun p => negb (snd p) && predicts_negative (svm l) (fst p)) points = true). { apply existsb_exists. exists (r, false). split; [exact R|]. exact SR. }
  rewrite C in P. destruct P as [<-|P]; [exists l; split; [exact V|split; [reflexivity|split; reflexivity]]|].
  eapply IH; [| |exact P].
  - intros x X. apply IN. apply filter_In in X. apply X.
  - intros x X. apply filter_In. split; [apply PO; exact X|reflexivity].
Qed.
Lemma condition_any cols d l p (row : list (text * Q)) st : complete_table cols d -> separating unit svm (length cols) (table_points cols d) -> valid (table_points cols d) l -> made unit svm (table_points cols d) l p ->
  (forall c, In c cols -> In c (dict_keys row)) -> in_state st row -> (0 <= linear (map (NumSpec.value_in row) cols) (fst (svm l)) + snd (svm l))%Q -> satisfied st (condition unit d p).
Proof.
  intros C SP (q & V1 & V2 & V3 & V4) (M1 & M2 & M3) K ST X. destruct (SP l q V1 V2 V3 V4) as (L & CL & CI & NZ & _ & PT & NF). set (m := svm l) in *.
  assert (Hd : map header (sv_cols d) = cols ++ [[Sym "label"]]). { destruct C as (_ & _ & _ & C & _). rewrite C. apply header_some. }
  unfold condition. rewrite Hd, strings_app by (rewrite M1, prettify_length; exact L). destruct (prettify_list_clean unit (fst m) CL) as (P1 & P2). rewrite M1, M2.
  apply (scheme_exact unit st (NumSpec.value_in row)).
  - intros h H. right. destruct C as (N & NE & ND & C & R). split; [intros ->; contradiction|]. specialize (K h H). unfold NumSpec.value_in.
    destruct (dict_get row h) as [v|] eqn:G; [apply ST; exact G|]. exfalso. apply (proj1 (dict_get_None row h)) in G. contradiction.
  - rewrite prettify_length. exact L.
  - exact P2.
  - intros F. apply NZ. clear - F P1. revert F P1. generalize (prettify_coefficients unit (fst m)) (fst m). intros u w F P1. induction P1 as [|a b la lb E P IH]; [constructor|]. inversion F as [|? ? Z0 Z1]; subst. constructor; [rewrite <- E; exact Z0|exact (IH Z1)].
  - rewrite comparison_ge. rewrite (prettify_clean unit (- snd m)) by (apply clean_opp; exact CI). rewrite (linear_ext (map (NumSpec.value_in row) cols) _ _ P1). lra.
Qed.
End Planes.
Lemma linear_opp a : forall b, (linear a (map Qopp b) == - linear a b)%Q.
Proof. induction a as [|x a IH]; intros [|y b]; cbn; try ring. rewrite IH. ring. Qed.

Section One.
Variable le : text -> text -> bool.
Variables unit : positive.
Variable fit : list (list Q) -> list Q -> list Q * Q * bool.
Variable hull : list (list Q) -> option (list (list Q) * list Q).
Variable schmidt : list (list Q) -> list (list Q) -> list (list Q).
Variable svm : list (list Q * bool) -> list Q * Q.
Variable limit : nat.
Variables (V : list term) (degree : nat) (ts : list (fluents * option fluents)) (o : onum).
Hypothesis EL : exact_libraries unit fit hull schmidt.
Hypothesis OI : onum_input unit fit le V degree ts.
Hypothesis RUN : onum_run le unit fit hull schmidt V degree ts = Ok o.
Hypothesis NV : V <> [].
Let ms := create_monomials le (map term_text V) degree.
Let cols := columns_of le V degree.
Lemma svm_table : complete_table cols (om_svm o) /\ table_points cols (om_svm o) = labelled le V degree ts.
Proof.
  pose proof (oi_names _ _ _ _ _ _ OI) as NT. destruct (ran le unit fit hull schmidt V degree NT ts OI o RUN) as (_ & M & SV & _). rewrite SV.
  assert (VN : NoDup (map term_text V)) by (eapply V_names; exact NT).
  assert (PM : proper_monomials ms).
  { split; [intros E; apply (monomials_empty le _ degree VN) in E; apply map_eq_nil in E; contradiction|]. split; [apply monomials_NoDup, VN|]. split; [apply monomials_functions; [exact VN|eapply V_functions; exact NT]|].
    intros I. destruct (monomials_In le _ degree VN _ I) as (_ & INC & _). destruct (V_functions V NT dummy_text (INC _ (or_introl eq_refl))) as (_ & X). congruence. }
  assert (KEYS : forall ob m, In ob (svm_observations ts) -> In m ms -> incl m (dict_keys (fst ob))).
  { intros ob m I MI. apply in_map_iff in I. destruct I as (t & <- & T). cbn [fst]. destruct (monomials_In le _ degree VN _ MI) as (_ & INC & _). intros f F. specialize (INC f F). apply in_map_iff in INC. destruct INC as (x & <- & X).
    destruct (oi_values _ _ _ _ _ _ OI t T x X) as (v & E). rewrite by_text_keys. apply in_map. eapply dict_get_key. exact E. }
  destruct (learn_complete ms (svm_observations ts) PM KEYS) as (CT & ROWS). split; [exact CT|].
  unfold table_points. match goal with |- context [sv_rows ?d] => change (sv_rows d) with (sv_rows (svm_learn ms (svm_observations ts))) end. rewrite ROWS. unfold labelled, svm_observations. rewrite !map_map. apply map_ext_in. intros t T. cbn [fst snd]. unfold ms. rewrite (sample_recorded le V degree NT (fst t)) by (apply (oi_values _ _ _ _ _ _ OI); exact T). reflexivity.
Qed.
Lemma mean_allowed conditions st : separating unit svm (length cols) (labelled le V degree ts) -> construct_linear_inequalities unit svm limit (om_svm o) = Ok conditions ->
  mean_state V degree (map fluents_state (successes ts)) st -> forall c, In c conditions -> satisfied st c.
Proof.
  intros SEP C ME c I. pose proof (oi_names _ _ _ _ _ _ OI) as NT. destruct svm_table as (CT & TP).
  assert (NR : sv_rows (om_svm o) <> []).
  { intros Z. unfold construct_linear_inequalities in C. rewrite Z in C. injection C as <-. destruct I. }
  rewrite (SvmProofs.construct_unfold unit svm limit cols _ CT NR) in C. injection C as <-. apply in_map_iff in I. destruct I as (p & <- & P). apply filter_planes_incl in P.
  rewrite TP in P. destruct (loop_made unit svm (length cols) _ limit SEP (labelled le V degree ts) (fun x X => X) (fun x X => X) p P) as (l & VA & MA).
  rewrite <- TP in VA, MA, SEP. apply (condition_any unit svm cols (om_svm o) l p (state_sample le V degree st) st CT SEP VA MA).
  - intros h H. destruct (sample_over le V degree NT st) as (_ & X). apply X. exact H.
  - apply (sample_state le V degree NT).
  - apply (mean_states le V degree NT) in ME. destruct ME as (ps & IN & HU). destruct VA as (q & V1 & V2 & V3 & V4). destruct (SEP l q V1 V2 V3 V4) as (L & _ & _ & _ & _ & PT & _).
    assert (LE : (linear (row_of cols (state_sample le V degree st)) (map Qopp (fst (svm l))) <= snd (svm l))%Q).
    { apply (in_hull_le (length cols) (map (row_of cols) ps)); [intros r R; apply in_map_iff in R; destruct R as (z & <- & _); apply map_length|apply map_length|exact HU|].
      intros r R. apply in_map_iff in R. destruct R as (z & <- & Z). rewrite linear_opp. assert (0 < linear (row_of cols z) (fst (svm l)) + snd (svm l))%Q; [|lra]. apply PT. rewrite TP.
      apply IN in Z. apply in_map_iff in Z. destruct Z as (fs & <- & F). apply in_map_iff in F. destruct F as (x & <- & F). unfold labelled. apply in_map_iff.
      unfold successes in F. apply in_flat_map in F. destruct F as (t & T & F). destruct (snd t) as [post|] eqn:E; [|destruct F]. destruct F as [<-|[]]. exists t. split; [|exact T]. rewrite E. reflexivity. }
    rewrite linear_opp in LE. change (map (NumSpec.value_in (state_sample le V degree st)) cols) with (row_of cols (state_sample le V degree st)). lra.
Qed.
Lemma failure_excluded conditions x st : separating unit svm (length cols) (labelled le V degree ts) -> construct_linear_inequalities unit svm limit (om_svm o) = Ok conditions -> negatives (om_svm o) <= limit ->
  successes ts <> [] -> In (x, None) ts -> same_values V st (fluents_state x) -> ~ forall c, In c conditions -> satisfied st c.
Proof.
  intros SEP C LIM NE IX SX ALL. pose proof (oi_names _ _ _ _ _ _ OI) as NT. destruct svm_table as (CT & TP).
  assert (ROWS : forall t, In t ts -> In (state_sample le V degree (fluents_state (fst t)), outcome_of (snd t)) (sv_rows (om_svm o))).
  { destruct (ran le unit fit hull schmidt V degree NT ts OI o RUN) as (_ & M & SV & _). rewrite SV.
    assert (VN : NoDup (map term_text V)) by (eapply V_names; exact NT).
    assert (PM : proper_monomials ms).
    { split; [intros E; apply (monomials_empty le _ degree VN) in E; apply map_eq_nil in E; contradiction|]. split; [apply monomials_NoDup, VN|]. split; [apply monomials_functions; [exact VN|eapply V_functions; exact NT]|].
      intros I. destruct (monomials_In le _ degree VN _ I) as (_ & INC & _). destruct (V_functions V NT dummy_text (INC _ (or_introl eq_refl))) as (_ & X). congruence. }
    assert (KEYS : forall ob m, In ob (svm_observations ts) -> In m ms -> incl m (dict_keys (fst ob))).
    { intros ob m I MI. apply in_map_iff in I. destruct I as (t & <- & T). cbn [fst]. destruct (monomials_In le _ degree VN _ MI) as (_ & INC & _). intros f F. specialize (INC f F). apply in_map_iff in INC. destruct INC as (y & <- & Y).
      destruct (oi_values _ _ _ _ _ _ OI t T y Y) as (v & E). rewrite by_text_keys. apply in_map. eapply dict_get_key. exact E. }
    destruct (learn_complete ms (svm_observations ts) PM KEYS) as (_ & ROWS). intros t T.
    match goal with |- In _ (sv_rows ?d) => change (sv_rows d) with (sv_rows (svm_learn ms (svm_observations ts))) end. rewrite ROWS. apply in_map_iff. exists (by_text (fst t), outcome_of (snd t)). split; [|apply in_map_iff; exists t; auto].
    cbn [fst snd]. unfold ms. rewrite (sample_recorded le V degree NT (fst t)) by (apply (oi_values _ _ _ _ _ _ OI); exact T). reflexivity. }
  rewrite <- TP in SEP. destruct (separates unit svm limit cols (om_svm o) CT SEP LIM) as (conditions' & C' & H & _).
  - unfold successes in NE. assert (X : exists t post, In t ts /\ snd t = Some post).
    { clear -NE. induction ts as [|t l IH]; [exfalso; apply NE; reflexivity|]. cbn in NE. destruct (snd t) as [post|] eqn:E; [exists t, post; split; [left; reflexivity|exact E]|]. destruct (IH NE) as (t' & post & I & E'). exists t', post. split; [right; exact I|exact E']. }
    destruct X as (t & post & I & E). eexists. specialize (ROWS t I). rewrite E in ROWS. exact ROWS.
  - rewrite C in C'. injection C' as <-. specialize (ROWS _ IX). cbn [fst snd outcome_of] in ROWS. rewrite <- (same_sample le V degree st (fluents_state x) SX) in ROWS.
    specialize (H st _ _ ROWS (sample_state le V degree NT st)). destruct H as (H & _). specialize (H ALL). discriminate H.
Qed.
End One.

(** ** Exported actions *)
Lemma optimistic_form (st : odl) fl (P : literal -> Prop) : f_holds P (fst (OnlineModel.get_optimistic_model fl st)) <-> forall c, In c (o_must st) -> c <> [] -> exists l, In l c /\ P l.
Proof.
  unfold OnlineModel.get_optimistic_model, optimistic_operands. cbn [fst].
  assert (G : forall cs ops, f_holds P (f_and (fold_left (fun ops c =>
      match c with
      | [] => ops
      | [x] => add_condition fl op_and ops (f_lit x)
      | _ => add_condition fl op_and ops (disjunction_form fl c)
      end) cs ops)) <-> f_holds P (f_and ops) /\ forall c, In c cs -> c <> [] -> exists l, In l c /\ P l).
  { induction cs as [|c cs IH]; intros ops; cbn [fold_left].
    - split; [intros X; split; [assumption|intros c []]|tauto].
    - rewrite IH.
      assert (K : f_holds P (f_and match c with
      | [] => ops
      | [x] => add_condition fl op_and ops (f_lit x)
      | _ => add_condition fl op_and ops (disjunction_form fl c)
      end) <-> f_holds P (f_and ops) /\ (c <> [] -> exists l, In l c /\ P l)).
      { destruct c as [|x [|y c]].
        - split; [intros X; split; [assumption|congruence]|tauto].
        - rewrite add_and. change (f_holds P (f_lit x)) with (P x). split.
          + intros [A B]; split; [assumption|]. intros _; exists x; split; [left; reflexivity|assumption].
          + intros [A B]; split; [assumption|]. destruct B as (z & [->|[]] & Hz); [discriminate|assumption].
        - rewrite add_and, disjunction_form_iff. unfold clause_holds. split.
          + intros [A B]; split; auto.
          + intros [A B]; split; [assumption|]. apply B; discriminate. }
      rewrite K. split.
      + intros [[A B] C]. split; [assumption|]. intros c' [<-|I]; auto.
      + intros [A B]. split; [split; [assumption|]|]; [apply B; left; reflexivity|]. intros c' I; apply B; right; assumption. }
  rewrite G. simpl. tauto.
Qed.
Lemma no_features le unit fit hull schmidt degree ts o : onum_input unit fit le [] degree ts -> onum_run le unit fit hull schmidt [] degree ts = Ok o -> features (om_svm o) = [].
Proof.
  intros OI R. destruct (ran le unit fit hull schmidt [] degree (oi_names _ _ _ _ _ _ OI) ts OI o R) as (_ & M & SV & _). rewrite SV.
  assert (EM : create_monomials le (map term_text []) degree = []) by (apply (monomials_empty le _ degree); [constructor|reflexivity]).
  match goal with |- features (svm_learn ?m _) = _ => change m with (create_monomials le (map term_text []) degree) end. rewrite EM. unfold svm_learn.
  assert (G : forall obs d, sv_cols d = [None] -> sv_cols (fold_left (fun d o0 => svm_add_point [] d (fst o0) (snd o0)) obs d) = [None]).
  { induction obs as [|(x & b) obs IH]; intros d D; [exact D|]. apply IH. unfold svm_add_point. cbn [fst snd]. rewrite D. destruct b; reflexivity. }
  unfold features. rewrite G by reflexivity. reflexivity.
Qed.
Section Claims.
Variable le : text -> text -> bool.
Variables unit fine : positive.
Variable fit : list (list Q) -> list Q -> list Q * Q * bool.
Variable hull : list (list Q) -> option (list (list Q) * list Q).
Variable schmidt : list (list Q) -> list (list Q) -> list (list Q).
Variable rank : list (list Q) -> nat.
Variable svm : list (list Q * bool) -> list Q * Q.
Variable limit : nat.
Hypothesis EL : exact_libraries unit fit hull schmidt.
Variables (dom : domain) (degree : nat) (traces : list (list ncomponent)).
Hypothesis OL : online_input unit fit le dom degree traces.
Variable L : numeric_learners.
Hypothesis TR : numeric_train le unit fit hull schmidt dom degree traces = Ok L.
Variables (n : string) (a : action).
Hypothesis GA : dict_get (d_actions dom) n = Some a.
Variable st : online onum fluents.
Hypothesis GS : dict_get L n = Some st.
Hypothesis NE : of_action n traces <> [].
Variables (fl fl' : bool) (e e' : exported).
Hypothesis EX : export_safe unit fine fit rank fl st = Ok e.
Hypothesis EX' : export_optimistic unit fine fit rank svm limit fl' st = Ok e'.
Let cps := of_action n traces.
Let cols := columns_of le (fvoc dom a) degree.

Lemma optimistic_parts : exists ts data conditions, onum_input unit fit le (fvoc dom a) degree ts /\ onum_run le unit fit hull schmidt (fvoc dom a) degree ts = Ok (on_num st) /\
  Forall2 (pair_for dom (a_sig a)) cps (pairs_of ts) /\ Forall2 (sees dom a) cps data /\ clauses_ok (on_disc st) /\ forget (on_disc st) = forget (learned (voc dom a) data) /\
  numeric_failures dom n a (concat traces) ts /\ construct_linear_inequalities unit svm limit (om_svm (on_num st)) = Ok conditions /\ ex_conditions e' = conditions /\
  ex_pre e' = copy_operands fl' (fst (OnlineModel.get_optimistic_model fl' (on_disc st))) /\ ex_eff e' = snd (OnlineModel.get_optimistic_model fl' (on_disc st)) /\
  numeric_optimistic_model unit fine fit rank svm limit (on_num st) = Ok (conditions, ex_effects e').
Proof.
  destruct (trained le unit fit hull schmidt EL dom degree traces OL L TR n a GA) as (st' & G' & [(ts & data & R & VL & FP & FS & FD & NF) UN CL]). rewrite GS in G'. injection G' as <-.
  pose proof (numeric_of le unit fit dom degree traces OL n a _ ts GA (full_prefix traces) FP VL) as OI.
  rewrite <- (of_action_evid traces n) in FP, FS. pose proof EX' as X. unfold export_optimistic in X. destruct (OnlineModel.get_optimistic_model fl' (on_disc st)) as (pre & eff) eqn:GM.
  destruct (numeric_optimistic_model unit fine fit rank svm limit (on_num st)) as [(conditions & effects)|] eqn:EN; [|discriminate]. cbn [bind] in X. injection X as <-.
  exists ts, data, conditions. do 7 (split; [assumption|]). cbn [ex_pre ex_conditions ex_eff ex_effects fst snd]. split; [|auto].
  unfold numeric_optimistic_model in EN. destruct (construct_linear_inequalities unit svm limit (om_svm (on_num st))) as [cs|]; [|discriminate]. cbn [bind] in EN.
  destruct (construct_assignment_equations unit fine fit rank (om_reg (on_num st)) true None) as [(((l' & e1) & x) & s)|]; [|discriminate]. injection EN as <- _. reflexivity.
Qed.
Lemma optimistic_allows sg s g : separating unit svm (length cols) (table_points cols (om_svm (on_num st))) -> export_applicable e sg s g -> export_applicable e' sg s g.
Proof.
  intros SEP A. apply (export_exact le unit fine fit hull schmidt rank EL dom degree traces OL L TR n a GA st GS NE fl e EX) in A. destruct A as (A1 & A2).
  destruct optimistic_parts as (ts & data & conditions & OI & R & FP & FS & CL & FD & NF & C & X1 & X2 & X3 & _). split.
  - rewrite X2. unfold OnlineModel.get_optimistic_model at 1. cbn [fst]. rewrite copied_operands.
    change (f_and _) with (fst (OnlineModel.get_optimistic_model fl' (on_disc st))).
    assert (OH : forall P, f_holds P (fst (OnlineModel.get_optimistic_model fl' (on_disc st))) <-> forall c, In c (o_must (on_disc st)) -> c <> [] -> exists l, In l c /\ P l) by (intros P; apply optimistic_form).
    apply OH. intros c I N. destruct c as [|l c]; [congruence|]. exists l. split; [left; reflexivity|]. apply A1. apply (always_largest le unit fit dom degree traces OL n a GA cps data l FS).
    destruct (CL _ l I (or_introl eq_refl)) as (B1 & B2). injection FD as F1 F2 F3 F4. rewrite F1 in B1. rewrite F2 in B2. unfold largest. apply set_diff_In. split; assumption.
  - rewrite X1. intros c I. destruct (list_eq_dec eq_dec (fvoc dom a) []) as [EV|NV].
    + exfalso. rewrite EV in OI, R. pose proof (no_features le unit fit hull schmidt degree ts _ OI R) as F. unfold construct_linear_inequalities in C. destruct (sv_rows (om_svm (on_num st))); [injection C as <-; destruct I|]. rewrite F in C. destruct (forallb _ _ || forallb _ _); [injection C as <-; destruct I|discriminate].
    + destruct (svm_table le unit fit hull schmidt (fvoc dom a) degree ts (on_num st) OI R NV) as (_ & TP). fold cols in TP. rewrite TP in SEP.
      refine (mean_allowed le unit fit hull schmidt svm limit (fvoc dom a) degree ts (on_num st) OI R NV conditions (lifted_state sg g) SEP C _ c I).
      eapply mean_same; [|exact A2]. exact (pairs_same dom a cps ts FP).
Qed.
Lemma optimistic_changes : ex_effects e' = ex_effects e /\ incl (ex_eff e) (ex_eff e').
Proof.
  destruct optimistic_parts as (ts & data & conditions & OI & R & FP & FS & CL & FD & NF & C & X1 & X2 & X3 & X4). split.
  - pose proof EX as X. unfold export_safe in X. destruct (OnlineModel.get_safe_model fl (on_disc st)) as (pre & eff). destruct (numeric_safe_model unit fine fit rank (on_num st)) as [(c & effects)|] eqn:EN; [|discriminate]. cbn [bind] in X. destruct c as [c|]; [|discriminate]. injection X as <-. cbn [ex_effects].
    eapply one_effects; eassumption.
  - pose proof EX as X. unfold export_safe in X. destruct (OnlineModel.get_safe_model fl (on_disc st)) as (pre & eff) eqn:GM. destruct (numeric_safe_model unit fine fit rank (on_num st)) as [(c & effects)|] eqn:EN; [|discriminate]. cbn [bind] in X. destruct c as [c|]; [|discriminate]. injection X as <-. cbn [ex_eff].
    assert (GE : snd (OnlineModel.get_optimistic_model fl' (on_disc st)) = snd (OnlineModel.get_optimistic_model fl' (learned (voc dom a) data))).
    { injection FD as F1 F2 F3 F4. unfold OnlineModel.get_optimistic_model. cbn [snd]. rewrite F1, F3. reflexivity. }
    assert (GE' : eff = o_eff (learned (voc dom a) data)). { injection FD as F1 F2 F3 F4. unfold OnlineModel.get_safe_model in GM. injection GM as _ <-. exact F4. }
    rewrite X3, GE, GE'. pose proof (ol_wf _ _ _ _ _ _ OL) as W. intros l I.
    assert (TS : total_samples (voc dom a) data).
    { split; [intros x; apply (voc_neg (N := Datatypes.unit) (F := Datatypes.unit) (fun _ _ => true) (fun _ _ _ => tt) (fun _ => tt) dom W n a x GA)|].
      intros x X. destruct (Forall2_In_l _ _ _ _ FS X) as (cp & CP & (p & p' & V1 & V2 & ->)). split; eapply (view_total (N := Datatypes.unit) (F := Datatypes.unit) (fun _ _ => true) (fun _ _ _ => tt) (fun _ => tt)); eassumption. }
    apply (i_eff _ _ _ (learned_inv (voc dom a) data)) in I. destruct I as ((p & q & D & I & _) & N). apply (optimistic_effects_iff (voc dom a) data TS fl' l); [exists p, q; exact D|]. split; [|exact N].
    destruct TS as (_ & TS). specialize (TS _ D). cbn in TS. destruct TS as (_ & (TS & _)). apply TS. exact I.
Qed.
Lemma optimistic_refuses before cp rest : separating unit svm (length cols) (table_points cols (om_svm (on_num st))) -> negatives (om_svm (on_num st)) <= limit -> fvoc dom a <> [] ->
  concat traces = before ++ cp :: rest -> failed_numerically dom n a before cp ->
  ~ export_applicable e' (call_assignment (a_sig a) (cp_call (nc_comp cp))) (cp_prev (nc_comp cp)) (fluents_state (nc_prev cp)).
Proof.
  intros SEP LIM NV E F (_ & A). destruct optimistic_parts as (ts & data & conditions & OI & R & FP & FS & CL & FD & NF & C & X1 & _). destruct (NF _ _ _ E F) as (x & IX & SX).
  destruct (svm_table le unit fit hull schmidt (fvoc dom a) degree ts (on_num st) OI R NV) as (_ & TP). fold cols in TP. rewrite TP in SEP. rewrite X1 in A.
  refine (failure_excluded le unit fit hull schmidt svm limit (fvoc dom a) degree ts (on_num st) OI R NV conditions x _ SEP C LIM _ IX SX A).
  intros Z. apply NE. fold cps. pose proof (Forall2_length FP) as LEN. destruct cps as [|c0 l0]; [reflexivity|exfalso]. unfold pairs_of in LEN. unfold successes in Z.
  clear -LEN Z. induction ts as [|t l IH]; [discriminate LEN|]. cbn in LEN, Z. destruct (snd t); [discriminate Z|]. exact (IH Z LEN).
Qed.
End Claims.
Section Domain.
Variables (le : text -> text -> bool) (unit fine : positive) (fit : list (list Q) -> list Q -> list Q * Q * bool) (hull : list (list Q) -> option (list (list Q) * list Q))
  (schmidt : list (list Q) -> list (list Q) -> list (list Q)) (rank : list (list Q) -> nat) (svm : list (list Q * bool) -> list Q * Q) (limit : nat) (dom : domain) (degree : nat) (traces : list (list ncomponent)) (L : numeric_learners)
  (fl fl' : bool) (safe optimistic : list (string * exported)).
Lemma optimistic_entry n e : construct_optimistic_action_model unit fine fit rank svm limit fl dom L = Ok optimistic -> dict_get optimistic n = Some e ->
  exists st, dict_get L n = Some st /\ export_optimistic unit fine fit rank svm limit fl st = Ok e.
Proof.
  unfold construct_optimistic_action_model, construct_action_model. intros M G. apply map_res_Ok in M. apply dict_get_In in G. revert G. induction M as [|m (m' & e') ks l E M IH]; intros G; [destruct G|].
  destruct G as [G|G]; [|exact (IH G)]. injection G as -> ->. destruct (dict_lookup L m) as [st|] eqn:EL; [|discriminate]. cbn [bind] in E. destruct (export_optimistic unit fine fit rank svm limit fl st) as [e'|] eqn:EE; [|discriminate]. injection E as <- <-.
  exists st. split; [|exact EE]. unfold dict_lookup in EL. destruct (dict_get L m); [injection EL as <-; reflexivity|discriminate].
Qed.
Lemma optimistic_keys : construct_optimistic_action_model unit fine fit rank svm limit fl dom L = Ok optimistic -> dict_keys optimistic = dict_keys (d_actions dom).
Proof.
  unfold construct_optimistic_action_model, construct_action_model. intros M. apply map_res_Ok in M. unfold dict_keys at 1. induction M as [|m (m' & e') ks l E M IH]; [reflexivity|]. cbn. f_equal; [|exact IH].
  destruct (dict_lookup L m) as [st|]; [|discriminate]. cbn [bind] in E. destruct (export_optimistic unit fine fit rank svm limit fl st) as [e''|]; [|discriminate]. injection E as <- _. reflexivity.
Qed.
End Domain.
Lemma both_entries le unit fine fit hull schmidt rank svm limit dom degree traces L fl fl' safe optimistic n a e e' : exact_libraries unit fit hull schmidt -> online_input unit fit le dom degree traces ->
  numeric_train le unit fit hull schmidt dom degree traces = Ok L -> construct_safe_action_model unit fine fit rank fl dom L = Ok safe -> construct_optimistic_action_model unit fine fit rank svm limit fl' dom L = Ok optimistic ->
  dict_get (d_actions dom) n = Some a -> dict_get safe n = Some e -> dict_get optimistic n = Some e' -> of_action n traces <> [] ->
  (trained_separably le unit svm dom degree L n a -> forall sg s g, export_applicable e sg s g -> export_applicable e' sg s g) /\ ex_effects e' = ex_effects e /\ incl (ex_eff e) (ex_eff e').
Proof.
  intros EL OL TR CS CO GA GE GE' NE. destruct (model_entry _ _ _ _ _ _ _ _ _ _ CS GE) as (_ & st & GS & EX). destruct (optimistic_entry _ _ _ _ _ _ _ _ _ _ _ _ CO GE') as (st' & GS' & EX'). rewrite GS in GS'. injection GS' as <-.
  split; [|exact (optimistic_changes le unit fine fit hull schmidt rank svm limit EL dom degree traces OL L TR n a GA st GS fl fl' e e' EX EX')].
  intros SEP sg s g. apply (optimistic_allows le unit fine fit hull schmidt rank svm limit EL dom degree traces OL L TR n a GA st GS NE fl fl' e e' EX EX' sg s g). apply SEP. exact GS.
Qed.
Lemma optimistic_includes le unit fine fit hull schmidt rank svm limit dom degree traces L fl fl' safe optimistic n a e e' : exact_libraries unit fit hull schmidt -> online_input unit fit le dom degree traces ->
  numeric_train le unit fit hull schmidt dom degree traces = Ok L -> construct_safe_action_model unit fine fit rank fl dom L = Ok safe -> construct_optimistic_action_model unit fine fit rank svm limit fl' dom L = Ok optimistic ->
  dict_get (d_actions dom) n = Some a -> dict_get safe n = Some e -> dict_get optimistic n = Some e' -> of_action n traces <> [] ->
  trained_separably le unit svm dom degree L n a -> forall sg s g, export_applicable e sg s g -> export_applicable e' sg s g.
Proof. intros EL OL TR CS CO GA GE GE' NE. eapply both_entries; eassumption. Qed.
Lemma optimistic_effects le unit fine fit hull schmidt rank svm limit dom degree traces L fl fl' safe optimistic n a e e' : exact_libraries unit fit hull schmidt -> online_input unit fit le dom degree traces ->
  numeric_train le unit fit hull schmidt dom degree traces = Ok L -> construct_safe_action_model unit fine fit rank fl dom L = Ok safe -> construct_optimistic_action_model unit fine fit rank svm limit fl' dom L = Ok optimistic ->
  dict_get (d_actions dom) n = Some a -> dict_get safe n = Some e -> dict_get optimistic n = Some e' -> of_action n traces <> [] ->
  ex_effects e' = ex_effects e /\ incl (ex_eff e) (ex_eff e').
Proof. intros EL OL TR CS CO GA GE GE' NE. eapply both_entries; eassumption. Qed.
Lemma optimistic_failures le unit fine fit hull schmidt rank svm limit dom degree traces L fl optimistic n a e : exact_libraries unit fit hull schmidt -> online_input unit fit le dom degree traces ->
  numeric_train le unit fit hull schmidt dom degree traces = Ok L -> construct_optimistic_action_model unit fine fit rank svm limit fl dom L = Ok optimistic ->
  dict_get (d_actions dom) n = Some a -> dict_get optimistic n = Some e -> of_action n traces <> [] ->
  trained_separably le unit svm dom degree L n a -> enough_planes limit L n -> lifted_functions_vocabulary dom (a_sig a) None <> [] ->
  forall before cp rest, concat traces = before ++ cp :: rest -> failed_numerically dom n a before cp ->
  ~ export_applicable e (call_assignment (a_sig a) (cp_call (nc_comp cp))) (cp_prev (nc_comp cp)) (fluents_state (nc_prev cp)).
Proof.
  intros EL OL TR CO GA GE NE SEP LIM NV before cp rest E F. destruct (optimistic_entry _ _ _ _ _ _ _ _ _ _ _ _ CO GE) as (st & GS & EX).
  eapply optimistic_refuses; try eassumption; [apply SEP; exact GS|apply LIM; exact GS].
Qed.
