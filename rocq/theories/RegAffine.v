(** * Learned numeric effects are affine

    For every state, not only the observed ones, the learned effects give each function an affine expression of the previous values;
    on the observed rows it is the observed next value. *)
From Verif Require Import RegModel RegSpec HullModel HullSpec NumModel NumSpec NumProofs MonoProofs HullProofs HullObserved RegProofs Prelude PreludeProofs.
From Coq Require Import Lqa.
Open Scope string_scope. Open Scope list_scope. Open Scope nat_scope.

Section R.
Variable unit fine : positive.
Variable fit : list (list Q) -> list Q -> list Q * Q * bool.
Variable rank : list (list Q) -> nat.
Hypothesis FINE : exists k, fine = (unit * k)%positive.
Hypothesis REG : exact_regression unit fit.
Lemma solve_affine f args d label result : arithmetic f = None -> function_text f args <> dummy_text -> table d -> length label = length (f_rows d) -> f_rows d <> [] ->
  solve_linear_equations unit fine fit (function_text f args) d label false = Ok result ->
  exists c i, length c = length (f_cols d) /\ (forall row y, In (row, y) (combine (f_rows d) label) -> (linear row c + i == y)%Q) /\
  forall st row, length row = length (f_cols d) -> row_state st (f_cols d) row ->
    match result with
    | Some t => good_statement st f args t (linear row c + i)
    | None => (st f args == linear row c + i)%Q
    end.
Proof.
  intros AF ND (N & R & D) LL NR E. set (lifted := function_text f args) in *. unfold solve_linear_equations in E. unfold solve_regression_problem in E.
  destruct (f_cols d) as [|c0 cs0] eqn:EC; [discriminate|]. rewrite <- EC in *. clear EC c0 cs0.
  destruct (fit (f_rows d) label) as ((coef & intercept) & one) eqn:EF. destruct one; [|discriminate E]. cbn [negb andb bind] in E.
  destruct REG as (FIT & R1). destruct (FIT (length (f_cols d)) (f_rows d) label coef intercept R LL EF) as (LC & CC & EQ). specialize (R1 (length (f_cols d)) (f_rows d) label coef intercept R EF).
  exists coef, intercept. split; [exact LC|]. split; [exact EQ|]. intros st row L0 ST. set (y := (linear row coef + intercept)%Q). assert (EQY : (linear row coef + intercept == y)%Q) by reflexivity. clearbody y.
  destruct (prettify_list_clean unit _ CC) as (PE & PC). set (cv := prettify_coefficients unit (coef ++ [intercept])) in *.
  assert (CV : cv = prettify_coefficients unit coef ++ prettify_coefficients unit [intercept]) by (unfold cv, prettify_coefficients; apply map_app).
  set (cs := prettify_coefficients unit coef) in *. destruct (prettify_coefficients unit [intercept]) as [|i' [|]] eqn:EI; try discriminate EI. clear EI.
  assert (LCS : length (f_cols d) = length cs) by (unfold cs, prettify_coefficients; rewrite map_length; congruence).
  assert (NAMED : combine (f_cols d) cv = combine (f_cols d) cs) by (rewrite CV; apply combine_longer; exact LCS).
  assert (ALL : combine (f_cols d ++ [dummy_text]) cv = combine (f_cols d) cs ++ [(dummy_text, i')]) by (rewrite CV; apply combine_snoc; exact LCS).
  assert (LAST : nth (length (f_cols d)) cv 0%Q = i') by (rewrite CV, app_nth2, LCS, Nat.sub_diag by lia; reflexivity).
  set (names := f_cols d ++ [dummy_text]) in *. set (val := fun c => if Prelude.eqb c dummy_text then 1%Q else value (f_cols d) row c).
  assert (VD : val dummy_text = 1%Q) by (unfold val; rewrite PreludeProofs.eqb_refl; reflexivity).
  assert (VO : forall c, In c (f_cols d) -> val c = value (f_cols d) row c). { intros c C. unfold val. rewrite (proj2 (PreludeProofs.eqb_neq c dummy_text)); [reflexivity|]. intros ->. contradiction. }
  assert (LN : length cv = length names) by (unfold cv, prettify_coefficients, names; rewrite map_length, !app_length, LC; reflexivity).
  assert (SUM : (linear (map val names) cv == y)%Q).
  { rewrite (linear_ext _ _ _ PE). unfold names. rewrite map_app. cbn [map]. rewrite linear_snoc by (rewrite map_length; congruence). rewrite VD, <- EQY.
    assert (M : map val (f_cols d) = row). { transitivity (map (value (f_cols d) row) (f_cols d)); [apply map_ext_in; exact VO|apply map_value; assumption]. } rewrite M. ring. }
  assert (VAL : forall g, In g names -> valued st g (val g)).
  { intros g G. unfold names in G. apply in_app_iff in G. destruct G as [G|[<-|[]]]; [|left; split; [reflexivity|rewrite VD; reflexivity]].
    rewrite (VO g G). right. split; [intros ->; contradiction|]. apply value_state; assumption. }
  assert (NN : NoDup names). { unfold names. apply NoDup_app_iff. split; [exact N|]. split; [constructor; [intros []|constructor]|]. intros x X [<-|[]]. contradiction. }
  assert (ASG : match construct_multiplication_strings unit cv names with [] => Ok None | parts => Ok (Some (form "assign" lifted (construct_linear_equation_string parts))) end = Ok result ->
                ~ Forall (fun c => c == 0)%Q cv -> exists t, result = Some t /\ good_statement st f args t y).
  { intros EA NZ. pose proof (exact_string unit st val names cv VAL LN PC NZ) as DEN. destruct (construct_multiplication_strings unit cv names) as [|p ps] eqn:EM.
    - exfalso. destruct DEN as (s & w & P & _). discriminate P.
    - injection EA as <-. eexists. split; [reflexivity|]. apply executes_good. eapply effect_executes; [exact DEN| |exact SUM].
      intros x X. exists x. split; [reflexivity|exact X]. }
  assert (LNE : label <> []) by (intros ->; destruct (f_rows d); [congruence|discriminate LL]).
  assert (ZZ : Forall (fun c => c == 0)%Q cv -> (y == 0)%Q).
  { intros F. rewrite <- SUM. clear - F. generalize (map val names). intros xs. revert xs. induction F as [|c l Z F IH]; intros [|x xs]; cbn; try reflexivity. rewrite Z, IH. ring. }
  destruct (forallb (fun c => Qeq_bool c 0) cv) eqn:Z.
  - assert (F : Forall (fun c => c == 0)%Q cv) by (apply Forall_forall; intros c C; rewrite forallb_forall in Z; apply Qeq_bool_iff, Z, C).
    assert (LZ : forall z, In z label -> (z == 0)%Q).
      { intros z IZ. assert (exists r, In (r, z) (combine (f_rows d) label)) as (r & IR').
        { clear - IZ LL. revert LL IZ. generalize (f_rows d). intros rows. revert rows. induction label as [|a l IH]; intros rows LL IZ; [destruct IZ|]. destruct rows as [|r rows]; [discriminate|]. cbn.
          destruct IZ as [->|IZ]; [eauto|]. destruct (IH rows) as (r' & H); [cbn in LL; lia|exact IZ|eauto]. }
        destruct (FIT (length (f_cols d)) (f_rows d) label coef intercept R LL EF) as (_ & _ & EQ'). rewrite <- (EQ' r z IR'). assert (F' : Forall (fun c => c == 0)%Q (coef ++ [intercept])) by (eapply Forall_ext_Q; [|exact PE|exact F]; intros a b AB A; rewrite <- AB; exact A).
        apply Forall_app in F'. destruct F' as (F1 & F2). inversion F2 as [|? ? F3 _]; subst. rewrite F3. rewrite Qplus_0_r. clear - F1. revert r. induction F1 as [|c l Z F IH]; intros [|x xs]; cbn; try reflexivity. rewrite Z, IH. ring. }
    destruct (constant_value label) as [v|] eqn:CN.
    + injection E as <-. apply executes_good. eapply effect_executes; [apply denotes_num| |].
      * intros x X. exists x. split; [reflexivity|exact X].
      * rewrite (ZZ F). destruct label as [|a l]; [congruence|]. rewrite <- (LZ a (or_introl eq_refl)). symmetry. eapply constant_spec; [eassumption|left; reflexivity].
    + (* an exact equation without coefficients has a constant label *)
      exfalso.
      destruct label as [|a l]; [congruence|]. cbn in CN. assert (X : forallb (Qeq_bool a) l = true); [|rewrite X in CN; discriminate]. apply forallb_forall. intros z IZ. apply Qeq_bool_iff.
      rewrite (LZ a (or_introl eq_refl)), (LZ z (or_intror IZ)). reflexivity.
  - assert (NZ : ~ Forall (fun c => c == 0)%Q cv).
    { intros F. assert (X : forallb (fun c => Qeq_bool c 0) cv = true); [|congruence]. apply forallb_forall. intros c C. rewrite Forall_forall in F. apply Qeq_bool_iff, F, C. }
    unfold calculate_scale_factor in E. rewrite NAMED, LAST in E.
    assert (ASG' : match construct_multiplication_strings unit cv names with [] => Ok None | parts => Ok (Some (form "assign" lifted (construct_linear_equation_string parts))) end = Ok result ->
                   match result with Some t => good_statement st f args t y | None => (st f args == y)%Q end).
    { intros EA. destruct (ASG EA NZ) as (t & -> & G). exact G. }
    destruct (dict_get (combine (f_cols d) cs) lifted) as [c|] eqn:G; [|apply ASG'; exact E].
    assert (INL : In lifted (f_cols d)). { apply dict_get_In in G. apply in_combine_l in G. exact G. }
    assert (VL : (val lifted == st f args)%Q).
    { rewrite (VO lifted INL). apply (denotes_unique st lifted); [apply value_state; assumption|apply denotes_function; exact AF]. }
    assert (GA : dict_get (combine names cv) lifted = Some c) by (rewrite ALL, dict_get_snoc by exact ND; exact G).
    assert (KA : dict_keys (combine names cv) = names) by (apply combine_keys; symmetry; exact LN).
    assert (VA : dict_vals (combine names cv) = cv) by (apply combine_vals; symmetry; exact LN).
    assert (TOT : (total val (combine names cv) == y)%Q) by (rewrite total_linear, KA, VA; exact SUM).
    assert (CI : forall j e, In (j, e) (combine names cv) -> clean unit e) by (intros j e J; rewrite Forall_forall in PC; apply PC; apply in_combine_r in J; exact J).
    destruct (negb (Qeq_bool c 0) && _ && _) eqn:SC.
    + apply andb_true_iff in SC. destruct SC as (SC & S3). apply andb_true_iff in SC. destruct SC as (S1 & S2). apply Qeq_bool_iff in S3. rewrite forallb_forall in S2.
      assert (TS : (y == c * st f args)%Q).
      { rewrite <- TOT, <- VL. apply total_single; [rewrite KA; exact NN|exact GA|]. intros j e J JN. rewrite ALL in J. apply in_app_iff in J. destruct J as [J|[J|[]]]; [|injection J as <- <-; exact S3].
        specialize (S2 (j, e) J). cbn [fst snd] in S2. rewrite (proj2 (PreludeProofs.eqb_neq j lifted) JN) in S2. apply Qeq_bool_iff. exact S2. }
      assert (EX : exact unit c) by (apply (CI lifted c), dict_get_In; exact GA). pose proof (exact_fine unit fine FINE c EX) as RC.
      destruct (Qeq_bool (round fine c) 1) eqn:Q1.
      * injection E as <-. apply Qeq_bool_iff in Q1. rewrite TS, <- RC, Q1. ring.
      * injection E as <-. destruct (Qltb 1 (round fine c)).
        -- apply executes_good. eapply effect_executes; [apply denotes_num| |].
           ++ intros x X. exists (st f args * x)%Q. split; [reflexivity|]. rewrite X. reflexivity.
           ++ rewrite RC, TS. ring.
        -- exists "scale-down", (SNum (round fine c)). split; [apply (reads_effect "scale-down" f args); reflexivity|auto].
    + destruct (Qeq_bool c 0) eqn:C0; [apply ASG'; exact E|]. destruct (extract_non_zero_change _ _) as (next & previous).
      rewrite (dict_of_NoDup (combine names cv)) in E by (fold (dict_keys (combine names cv)); rewrite KA; exact NN).
      assert (CL1 : clean unit (c - 1)).
      { apply dict_get_In in G. assert (X : exists c', In c' coef /\ (c == c')%Q).
        { apply in_combine_r in G. unfold cs, prettify_coefficients in G. apply in_map_iff in G. destruct G as (c' & <- & IC). exists c'. split; [exact IC|]. apply prettify_clean.
          rewrite Forall_forall in CC. apply CC. apply in_app_iff. left. exact IC. }
        destruct X as (c' & IC & EQC). rewrite Forall_forall in R1. eapply clean_ext; [|apply (R1 c' IC)]. rewrite EQC. reflexivity. }
      destruct (non_circular unit st val f args (combine names cv) c previous next) as (t & ET & EX).
      * exact AF.
      * rewrite KA. exact NN.
      * rewrite KA. exact VAL.
      * exact GA.
      * intros j e J _. apply (CI j e J).
      * exact CL1.
      * exact ND.
      * intros (C1 & OZ). assert (X : negb (Qeq_bool c 0) && forallb (fun fc => Prelude.eqb (fst fc) lifted || Qeq_bool (snd fc) 0) (combine (f_cols d) cs) && Qeq_bool i' 0 = true); [|rewrite ?C0 in *; cbn [negb andb] in *; congruence].
        rewrite C0. cbn [negb andb]. apply andb_true_iff. split.
        -- apply forallb_forall. intros (j & e) J. cbn [fst snd]. destruct (Prelude.eqb j lifted) eqn:B; [reflexivity|]. cbn. apply Qeq_bool_iff. apply (OZ j e); [rewrite ALL; apply in_app_iff; left; exact J|].
           apply PreludeProofs.eqb_neq. exact B.
        -- apply Qeq_bool_iff. apply (OZ dummy_text i'); [rewrite ALL; apply in_app_iff; right; left; reflexivity|]. intros X. apply ND. symmetry. exact X.
      * fold lifted in ET. rewrite ET in E. cbn [bind] in E. injection E as <-. apply executes_good.
        destruct EX as (op & e & x & w & P & V & UP & W). exists op, e, x, w. split; [exact P|]. split; [exact V|]. split; [exact UP|]. rewrite W. exact TOT.
Qed.


(** An affine expression of some of the columns. *)
Definition affine (cols : list text) (F : list Q -> Q) : Prop :=
  exists sel c i, length c = length sel /\ incl sel cols /\ forall x, (F x == linear (map (value cols x) sel) c + i)%Q.
Lemma affine_ext cols F a b : affine cols F -> Forall2 Qeq a b -> (F a == F b)%Q.
Proof.
  intros (sel & c & i & _ & _ & E) AB. rewrite (E a), (E b). apply Qplus_comp; [|reflexivity]. apply linear_ext_l. clear E. induction sel as [|k sel IH]; cbn; [constructor|].
  constructor; [apply value_ext; exact AB|exact IH].
Qed.
Lemma affine_const cols v : affine cols (fun _ => v).
Proof. exists [], [], v. split; [reflexivity|]. split; [intros x []|]. intros x. cbn. ring. Qed.
Lemma affine_column cols c : In c cols -> affine cols (fun x => value cols x c).
Proof. intros I. exists [c], [1%Q], 0%Q. split; [reflexivity|]. split; [intros x [<-|[]]; exact I|]. intros x. cbn. ring. Qed.

(** What one fluent's statements do in every state. *)
Definition behaves (cols : list text) (f : string) (args : list string) (ts : list text) (F : list Q -> Q) : Prop :=
  affine cols F /\ forall st x, length x = length cols -> row_state st cols x ->
    (forall t, In t ts -> good_statement st f args t (F x)) /\ (ts = [] -> (st f args == F x)%Q).

Lemma fluent_affine l features rows : table (l_prev l) -> table (l_next l) -> rows <> [] ->
  (forall p n, In (p, n) (combine (f_rows (l_prev l)) (f_rows (l_next l))) -> exists p' n', In (p', n') rows /\ pair_eq (p', n') (p, n)) ->
  incl (map fst rows) (f_rows (l_prev l)) ->
  (features = mk_frame [] [] \/ part_of (mk_frame (f_cols (l_prev l)) (map fst rows)) features) ->
  forall f args ts, arithmetic f = None -> In (function_text f args) (f_cols (l_next l)) -> fluent_effect unit fine fit l features rows false (function_text f args) = Ok ts ->
    exists F, behaves (f_cols (l_prev l)) f args ts F /\
      forall p n, observed l p n -> (F p == value (f_cols (l_next l)) n (function_text f args))%Q.
Proof.
  intros TP TN RN REP INC PART f args ts AF INF E. set (lifted := function_text f args) in *.
  assert (ND : lifted <> dummy_text) by (intros X; apply TN; rewrite <- X; exact INF).
  unfold fluent_effect in E. destruct (memb lifted (f_cols (l_prev l))) eqn:M; [|discriminate]. cbn [negb] in E. apply memb_In in M.
  destruct (Qs_eqb (column (l_prev l) lifted) (column (l_next l) lifted)) eqn:EQ.
  - injection E as <-. exists (fun x => value (f_cols (l_prev l)) x lifted). split; [split; [apply affine_column; exact M|]|].
    + intros st x LX ST. split; [intros t []|]. intros _. symmetry. apply (denotes_unique st lifted); [apply value_state; assumption|apply denotes_function; exact AF].
    + intros p n OB. apply Qs_eqb_spec in EQ. exact (pair_columns _ _ _ _ p n EQ OB).
  - destruct (solve_linear_equations _ _ _ _ _ _ _) as [r|] eqn:ES; [|discriminate]. cbn [bind] in E. injection E as <-.
    destruct PART as [->|PART]; [discriminate ES|]. set (d0 := mk_frame (f_cols (l_prev l)) (map fst rows)) in *.
    assert (T0 : table d0). { destruct TP as (A & B & C). split; [exact A|]. split; [|exact C]. intros r0 I0. apply B, INC, I0. }
    pose proof (part_table d0 features T0 PART) as TF. destruct PART as (keep & K1 & K2). cbn [f_cols f_rows d0] in K1, K2.
    assert (KI : incl (f_cols features) (f_cols (l_prev l))) by (rewrite K1; intros x X; apply filter_In in X; apply X).
    destruct (solve_affine f args features (column (mk_frame (f_cols (l_next l)) (map snd rows)) lifted) r AF ND TF) as (c & i & LC & FITS & BEH).
    + unfold column. cbn [f_rows f_cols]. rewrite K2, !map_length. reflexivity.
    + rewrite K2. destruct rows; [congruence|discriminate].
    + exact ES.
    + set (F := fun x => (linear (restrict (f_cols (l_prev l)) (f_cols features) x) c + i)%Q).
      assert (AFF : affine (f_cols (l_prev l)) F) by (exists (f_cols features), c, i; split; [exact LC|split; [exact KI|intros x; reflexivity]]).
      exists F. split; [split; [exact AFF|]|].
      * intros st x LX ST. specialize (BEH st (restrict (f_cols (l_prev l)) (f_cols features) x)). specialize (BEH ltac:(unfold restrict; apply map_length)).
        specialize (BEH ltac:(apply restrict_state; assumption)). destruct r as [t|].
        -- split; [|discriminate]. intros t' [<-|[]]. exact BEH.
        -- split; [intros t []|]. intros _. exact BEH.
      * intros p n OB. destruct (REP p n OB) as (p' & n' & IP & (PE1 & PE2)). cbn [fst snd] in *.
        rewrite <- (affine_ext _ F p' p AFF PE1). rewrite <- (value_ext (f_cols (l_next l)) n' n lifted PE2).
        apply FITS. rewrite K2. unfold column. cbn [f_rows f_cols]. exact (rows_combine rows (restrict (f_cols (l_prev l)) (f_cols features)) (fun r => value (f_cols (l_next l)) r lifted) p' n' IP).
Qed.

(** Statements found fluent by fluent. *)
Lemma map_res_at {A B} (g : A -> res B) l m x : map_res g l = Ok m -> In x l -> exists y, g x = Ok y /\ In y m.
Proof.
  intros M I. apply map_res_Ok in M. induction M as [|a b l m E M IH]; [destruct I|]. destruct I as [->|I]; [exists b; split; [exact E|left; reflexivity]|].
  destruct (IH I) as (y & E' & Y). exists y. split; [exact E'|right; exact Y].
Qed.
Lemma map_res_from {A B} (g : A -> res B) l m y : map_res g l = Ok m -> In y m -> exists x, In x l /\ g x = Ok y.
Proof.
  intros M I. apply map_res_Ok in M. induction M as [|a b l m E M IH]; [destruct I|]. destruct I as [->|I]; [exists a; split; [left; reflexivity|exact E]|].
  destruct (IH I) as (x & X & E'). exists x. split; [right; exact X|exact E'].
Qed.
Definition statements_ok (pcols ncols : list text) (g : text -> res (list text)) : Prop :=
  forall f args ts, arithmetic f = None -> In (function_text f args) ncols -> g (function_text f args) = Ok ts -> exists F, behaves pcols f args ts F.
Lemma collect_target pcols ncols g ss st x : (forall c, In c ncols -> is_function c) -> map_res g ncols = Ok ss -> statements_ok pcols ncols g ->
  length x = length pcols -> row_state st pcols x -> forall t f args, In t (concat ss) -> targets t f args -> exists ts, In (function_text f args) ncols /\ g (function_text f args) = Ok ts /\ In t ts.
Proof.
  intros FC M H LX ST t f args T TG. apply in_concat in T. destruct T as (ts & TS & T). destruct (map_res_from g ncols ss ts M TS) as (c & C & G).
  destruct (FC c C) as (f' & args' & -> & AF). destruct (H f' args' ts AF C G) as (F & _ & B). destruct (B st x LX ST) as (B1 & _).
  destruct (good_other _ _ _ _ _ _ _ (B1 t T) TG) as (-> & ->). eauto.
Qed.
Lemma collect_affine pcols ncols g ss : (forall c, In c ncols -> is_function c) -> map_res g ncols = Ok ss -> statements_ok pcols ncols g ->
  forall f args ts F, In (function_text f args) ncols -> g (function_text f args) = Ok ts -> behaves pcols f args ts F ->
  forall st x, length x = length pcols -> row_state st pcols x -> gives st (concat ss) f args (F x).
Proof.
  intros FC M H f args ts F I G (_ & B) st x LX ST. destruct (B st x LX ST) as (B1 & B2). split.
  - intros t T TG. destruct (collect_target pcols ncols g ss st x FC M H LX ST t f args T TG) as (ts' & _ & G' & T'). rewrite G in G'. injection G' as <-. apply (good_targets _ _ _ _ _ (B1 t T')).
  - destruct (map_res_at g ncols ss _ M I) as (ts' & G' & TS). rewrite G in G'. injection G' as <-. destruct ts as [|t ts]; [right; apply B2; reflexivity|left].
    exists t. split; [apply in_concat; exists (t :: ts); split; [exact TS|left; reflexivity]|]. apply (good_targets st f args t (F x)), B1. left. reflexivity.
Qed.

(** All the learned effects: they change only columns of the next state, each in an affine way that reproduces the observations. *)
Definition effects_affine (k : learner) (effects : list text) : Prop :=
  (forall st x t f args, length x = length (f_cols (l_prev k)) -> row_state st (f_cols (l_prev k)) x -> In t effects -> targets t f args -> In (function_text f args) (f_cols (l_next k))) /\
  forall f args, In (function_text f args) (f_cols (l_next k)) ->
    exists F, affine (f_cols (l_prev k)) F /\ (forall p n, observed k p n -> (F p == value (f_cols (l_next k)) n (function_text f args))%Q) /\
      forall st x, length x = length (f_cols (l_prev k)) -> row_state st (f_cols (l_prev k)) x -> gives st effects f args (F x).

Lemma collected k g ss : (forall c, In c (f_cols (l_next k)) -> is_function c) -> map_res g (f_cols (l_next k)) = Ok ss ->
  (forall f args ts, arithmetic f = None -> In (function_text f args) (f_cols (l_next k)) -> g (function_text f args) = Ok ts ->
    exists F, behaves (f_cols (l_prev k)) f args ts F /\ forall p n, observed k p n -> (F p == value (f_cols (l_next k)) n (function_text f args))%Q) ->
  effects_affine k (concat ss).
Proof.
  intros FC M H. assert (OKS : statements_ok (f_cols (l_prev k)) (f_cols (l_next k)) g) by (intros f args ts AF I G; destruct (H f args ts AF I G) as (F & B & _); eauto).
  split.
  - intros st x t f args LX ST T TG. destruct (collect_target _ _ g ss st x FC M OKS LX ST t f args T TG) as (ts & I & _). exact I.
  - intros f args I. destruct (map_res_at g _ ss _ M I) as (ts & G & _). destruct (FC _ I) as (f' & args' & E & AF). apply function_text_inj in E. destruct E as (<- & <-).
    destruct (H f args ts AF I G) as (F & B & OB). exists F. split; [apply B|]. split; [exact OB|]. intros st x LX ST. eapply collect_affine; eassumption.
Qed.

Lemma single_affine k p' n' P NR : table (l_prev k) -> table (l_next k) -> function_columns (l_next k) ->
  f_rows (l_prev k) = p' :: P -> f_rows (l_next k) = n' :: NR -> (forall p n, observed k p n -> pair_eq (p', n') (p, n)) ->
  effects_affine k (construct_effect_from_single_sample k).
Proof.
  intros TPK TNK FK HP HN ALL. unfold construct_effect_from_single_sample. rewrite HP, HN. rewrite flat_map_concat_map.
  set (g := fun f => match get_col (f_cols (l_next k)) n' f with None => [] | Some v => match get_col (f_cols (l_prev k)) p' f with Some u => if Qeq_bool u v then [] else [form "assign" f [Num v]] | None => [form "assign" f [Num v]] end end).
  apply (collected k (fun f => Ok (g f))); [exact FK|apply map_res_total; reflexivity|].
  intros f args ts AF I0 EF. injection EF as <-. set (lf := function_text f args) in *.
  assert (LN' : length n' = length (f_cols (l_next k))) by (apply TNK; rewrite HN; left; reflexivity).
  assert (GN : exists v', get_col (f_cols (l_next k)) n' lf = Some v').
  { destruct (get_col (f_cols (l_next k)) n' lf) as [v'|] eqn:G; [eauto|]. exfalso. unfold get_col in G. apply dict_get_None in G. apply G. unfold dict_keys. rewrite combine_keys; [exact I0|symmetry; exact LN']. }
  destruct GN as (v' & GN). unfold g. rewrite GN.
  assert (VN : forall p n, observed k p n -> (v' == value (f_cols (l_next k)) n lf)%Q).
  { intros p n OB. rewrite <- (value_ext (f_cols (l_next k)) n' n lf (proj2 (ALL p n OB))). unfold value. rewrite GN. reflexivity. }
  assert (OUT : exists F, behaves (f_cols (l_prev k)) f args [form "assign" lf [Num v']] F /\ (forall p n, observed k p n -> (F p == value (f_cols (l_next k)) n lf)%Q)).
  { exists (fun _ => v'). split; [|exact VN]. split; [apply affine_const|]. intros st x LX ST. split; [|discriminate]. intros t [<-|[]].
    apply executes_good. eapply effect_executes; [apply denotes_num| |reflexivity]. intros y Y. exists y. split; [reflexivity|exact Y]. }
  destruct (get_col (f_cols (l_prev k)) p' lf) as [u|] eqn:GP; [destruct (Qeq_bool u v') eqn:UV; [|exact OUT]|exact OUT].
  apply Qeq_bool_iff in UV. assert (IL : In lf (f_cols (l_prev k))) by (apply dict_get_In in GP; apply in_combine_l in GP; exact GP).
  exists (fun x => value (f_cols (l_prev k)) x lf). split.
  - split; [apply affine_column; exact IL|]. intros st x LX ST. split; [intros t []|]. intros _. symmetry. apply (denotes_unique st lf); [apply value_state; assumption|apply denotes_function; exact AF].
  - intros p n OB. rewrite <- (VN p n OB), <- UV. rewrite <- (value_ext (f_cols (l_prev k)) p' p lf (proj1 (ALL p n OB))). unfold value. rewrite GP. reflexivity.
Qed.

Lemma learn_affine k k' effects conditions safe : table (l_prev k) -> table (l_next k) -> function_columns (l_next k) -> f_rows (l_next k) <> [] ->
  learn_rows unit fine fit rank false k = Ok (k', effects, conditions, safe) -> effects_affine k effects.
Proof.
  intros TPK TNK FK NE E. unfold learn_rows in E.
  destruct (negb (length (f_rows (l_prev k)) =? length (f_rows (l_next k)))) eqn:EL; [destruct (f_rows (l_prev k)); [|discriminate]; destruct (f_cols (l_next k)) eqn:EC; [|discriminate]; injection E as _ <- _ _; split; [intros ? ? ? ? ? ? ? []|rewrite EC; intros ? ? []]|]. apply negb_false_iff, Nat.eqb_eq in EL.
  set (rows := dedup_pairs (combine (f_rows (l_prev k)) (f_rows (l_next k)))) in *.
  assert (REP : forall p n, In (p, n) (combine (f_rows (l_prev k)) (f_rows (l_next k))) -> exists p' n', In (p', n') rows /\ pair_eq (p', n') (p, n)).
  { intros p n I. destruct (dedup_pairs_rep _ _ I) as ((p' & n') & IP & PE). eauto. }
  assert (INC : incl (map fst rows) (f_rows (l_prev k))) by (intros x X; apply in_map_iff in X; destruct X as ((a & b) & <- & X); apply dedup_pairs_incl in X; apply in_combine_l in X; exact X).
  assert (RN : rows <> []).
  { destruct (f_rows (l_prev k)) as [|a P]; [destruct (f_rows (l_next k)); [congruence|discriminate EL]|]. destruct (f_rows (l_next k)) as [|b NN]; [congruence|]. discriminate. }
  assert (MAIN : forall ss, map_res (fluent_effect unit fine fit k (fst (detect_linear_dependent_features unit (fst (filter_constant_features (mk_frame (f_cols (l_prev k)) (map fst rows)))))) rows false) (f_cols (l_next k)) = Ok ss ->
         effects_affine k (concat ss)).
  { intros ss M. eapply collected; [exact FK|exact M|]. intros f0 args0 ts AF I0 EF.
    refine (fluent_affine k _ rows TPK TNK RN REP INC _ f0 args0 ts AF I0 EF).
    set (d0 := mk_frame (f_cols (l_prev k)) (map fst rows)).
    assert (T0 : table d0) by (destruct TPK as (A & B & C); split; [exact A|]; split; [|exact C]; intros r I; apply B, INC, I).
    destruct (filter_constant_features d0) as (filtered & cc) eqn:EFC. cbn [fst].
    destruct (detect_linear_dependent_features unit filtered) as (features & dd) eqn:ED. cbn [fst].
    destruct (filter_constant_part d0 filtered cc T0 EFC) as [->|PF].
    - left. cbn in ED. injection ED as <- _. reflexivity.
    - right. eapply part_trans; [exact T0|exact PF|]. eapply detect_part; [eapply part_table; eassumption|exact ED]. }
  destruct rows as [|(p' & n') [|u2 us]] eqn:EU; [congruence| |].
  - injection E as _ <- _ _.
    assert (HD : exists P N, f_rows (l_prev k) = p' :: P /\ f_rows (l_next k) = n' :: N).
    { unfold rows in EU. destruct (f_rows (l_prev k)) as [|a P]; [discriminate EU|]. destruct (f_rows (l_next k)) as [|b N]; [discriminate EU|]. cbn in EU. injection EU as -> -> _. eauto. }
    destruct HD as (P & NR & HP & HN). apply (single_affine k p' n' P NR); try assumption.
    intros p n OB. destruct (REP p n OB) as (p2 & n2 & [X|[]] & PE). injection X as <- <-. exact PE.
  - rewrite <- EU in *. destruct (filter_constant_features (mk_frame (f_cols (l_prev k)) (map fst rows))) as (filtered & cc). cbn [fst] in MAIN.
    destruct (detect_linear_dependent_features unit filtered) as (features & dd). cbn [fst] in MAIN.
    destruct (map_res (fluent_effect unit fine fit k features rows false) (f_cols (l_next k))) as [ss|] eqn:EM; [|discriminate]. cbn [bind] in E. injection E as _ <- _ _. apply MAIN. reflexivity.
Qed.
Theorem construct_affine l relevant l' effects conditions safe : table (l_prev l) -> table (l_next l) -> function_columns (l_next l) -> f_rows (l_next l) <> [] -> relevant <> Some [] ->
  construct_assignment_equations unit fine fit rank l false relevant = Ok (l', effects, conditions, safe) -> effects_affine (keep_relevant l relevant) effects.
Proof.
  intros TP TN FC NE NR E. rewrite construct_unfold in E. destruct (keep_relevant_table l relevant TP TN) as (TPK & TNK).
  assert (E' : learn_rows unit fine fit rank false (keep_relevant l relevant) = Ok (l', effects, conditions, safe)).
  { destruct relevant as [[|]|]; [congruence| |]; destruct (f_rows (l_next l)); try congruence; exact E. }
  eapply learn_affine; [exact TPK|exact TNK|apply keep_functions; exact FC| |exact E'].
  destruct relevant as [fs|]; [|exact NE]. cbn. destruct (f_rows (l_next l)); [congruence|discriminate].
Qed.
End R.
